(** Cleaning the strings of an item cleans the values of its XML. *)
From Coq Require Import String Ascii List Bool Arith NArith ZArith Lia.
From Verif Require Import GoStr Num Lib Types XmlTok Marshal Docx Rels SpecLex SpecClean.
Import ListNotations.
Local Open Scope string_scope.
Local Open Scope list_scope.

Section Clean.
Variable c : string -> string.
Hypothesis c_empty : c "" = "".
Hypothesis c_full : forall s, c s = "" -> s = "".
Hypothesis c_num : forall z, c (itoa z) = itoa z.

(** the same on trees *)
Definition am (a : list attr) : list attr := map (fun x => (fst x, c (snd x))) a.
Fixpoint tm (t : tree) : tree :=
  match t with Elem q a l => Elem q (am a) (map tm l) | Chr s => Chr (c s) | Cmt => Cmt end.

Lemma c_eqb : forall s, String.eqb (c s) "" = String.eqb s "".
Proof.
  intros s. destruct (String.eqb_spec s "") as [->|N]; [now rewrite c_empty|]. apply String.eqb_neq. intros E. apply N. now apply c_full.
Qed.
Lemma am_app : forall a b, am (a ++ b) = am a ++ am b. Proof. intros. apply map_app. Qed.
Lemma am_at : forall q v, am (at_ q v) = at_ q (c v). Proof. reflexivity. Qed.
Lemma am_ato : forall q v, am (ato q v) = ato q (c v). Proof. intros. unfold ato. rewrite c_eqb. now destruct (String.eqb v ""). Qed.
Lemma am_ati : forall q v, am (ati q v) = ati q v. Proof. intros. unfold ati, am. cbn [map fst snd]. now rewrite c_num. Qed.
Lemma am_atio : forall q v, am (atio q v) = atio q v. Proof. intros. unfold atio. destruct (Z.eqb (iv v) 0); [reflexivity|]. unfold am. cbn [map fst snd]. now rewrite c_num. Qed.
Lemma tm_elem : forall q a l, tm (Elem q a l) = Elem q (am a) (map tm l). Proof. reflexivity. Qed.
Lemma tm_chr : forall s, map tm (chr s) = chr (c s). Proof. intros. unfold chr. rewrite c_eqb. now destruct (String.eqb s ""). Qed.
Lemma tm_elb : forall q b, map tm (elb q b) = elb q b. Proof. intros q [|]; reflexivity. Qed.
Lemma tm_el : forall A (f : A -> A) (m m' : A -> tree) o, (forall x, o = Some x -> m' (f x) = tm (m x)) -> el m' (option_map f o) = map tm (el m o).
Proof. intros A f m m' [x|] H; cbn [option_map el map]; [now rewrite H|reflexivity]. Qed.
Lemma tm_el0 : forall A (m : A -> tree) o, (forall x, o = Some x -> tm (m x) = m x) -> map tm (el m o) = el m o.
Proof. intros A m [x|] H; cbn [el map]; [now rewrite H|reflexivity]. Qed.
Lemma tm_val : forall q v, val_el q (c v) = tm (val_el q v). Proof. reflexivity. Qed.
Lemma tm_valo : forall q v, val_elo q (c v) = tm (val_elo q v). Proof. intros. unfold val_elo. now rewrite tm_elem, am_ato. Qed.
Lemma tm_vali : forall q v, tm (val_eli q v) = val_eli q v. Proof. intros. unfold val_eli. now rewrite tm_elem, am_ati. Qed.
Lemma tm_map : forall A (f : A -> A) (m : A -> tree) l, Forall (fun x => m (f x) = tm (m x)) l -> map m (map f l) = map tm (map m l).
Proof. induction 1 as [|x l H F IH]; cbn [map]; [reflexivity|]. now rewrite H, IH. Qed.

#[local] Hint Rewrite am_app am_at am_ato am_ati am_atio tm_chr tm_elb : cl.
#[local] Hint Resolve tm_val tm_valo tm_vali : cl.
Ltac cl1 :=
  match goal with
  | |- ?x = ?x => reflexivity
  | |- Elem _ _ _ = tm (Elem _ _ _) => rewrite tm_elem
  | |- tm (Elem _ _ _) = Elem _ _ _ => rewrite tm_elem
  | |- Elem ?q _ _ = Elem ?q _ _ => f_equal
  | |- _ = am _ => autorewrite with cl
  | |- am _ = _ => autorewrite with cl
  | |- _ ++ _ = map tm (_ ++ _) => rewrite map_app
  | |- map tm (_ ++ _) = _ ++ _ => rewrite map_app
  | |- _ ++ _ = _ ++ _ => f_equal
  | |- el _ (option_map _ _) = map tm (el _ _) => apply tm_el; intros ? _
  | |- el _ _ = map tm (el _ _) => symmetry; apply tm_el0; intros ? _
  | |- map tm (el _ _) = el _ _ => apply tm_el0; intros ? _
  | |- elb _ _ = map tm (elb _ _) => now rewrite tm_elb
  | |- map tm (elb _ _) = elb _ _ => now rewrite tm_elb
  | |- chr _ = map tm (chr _) => now rewrite tm_chr
  | |- map _ (map _ _) = map tm (map _ _) => apply tm_map; apply Forall_forall; intros ? _
  | |- [_] = map tm [_] => cbn [map]
  | |- [_; _] = map tm [_; _] => cbn [map]
  | |- map tm [_] = [_] => cbn [map]
  | |- map tm [_; _] = [_; _] => cbn [map]
  | |- Chr (itoa _) = tm (Chr (itoa _)) => cbn [tm]; now rewrite c_num
  | |- [] = map tm [] => reflexivity
  | |- map tm [] = [] => reflexivity
  | |- _ :: _ = _ :: _ => f_equal
  | |- _ => solve [auto with nocore cl | symmetry; auto with nocore cl]
  end.
Ltac cl := intros; cbv beta; repeat (cl1; cbv beta).

Lemma cm_rfonts : forall (x : rfonts), m_rfonts (clean_rfonts c x) = tm (m_rfonts x).
Proof. intros. unfold m_rfonts, clean_rfonts. cbn [rfonts_ascii rfonts_eastAsia rfonts_hAnsi rfonts_hint]. cl. Qed.
#[local] Hint Resolve cm_rfonts : cl.
Lemma cm_spacing : forall (x : spacing), m_spacing (clean_spacing c x) = tm (m_spacing x).
Proof. intros. unfold m_spacing, clean_spacing. cbn [spacing_val spacing_beforeLines spacing_before spacing_line spacing_lineRule]. cl. Qed.
#[local] Hint Resolve cm_spacing : cl.
Lemma cm_ind : forall (x : ind), tm (m_ind x) = m_ind x.
Proof. unfold m_ind. cl. Qed.
#[local] Hint Resolve cm_ind : cl.
Lemma cm_shade : forall (x : shade), m_shade (clean_shade c x) = tm (m_shade x).
Proof. intros. unfold m_shade, clean_shade. cbn [shade_val shade_color shade_fill shade_themeFill shade_themeFillTint]. cl. Qed.
#[local] Hint Resolve cm_shade : cl.
Lemma cm_rpr : forall (x : rpr), m_rpr (clean_rpr c x) = tm (m_rpr x).
Proof. intros. unfold m_rpr, clean_rpr. cbn [rpr_fonts rpr_bold rpr_ics rpr_italic rpr_highlight rpr_color rpr_size rpr_sizeCs rpr_spacing rpr_runStyle rpr_style rpr_shade rpr_kern rpr_underline rpr_vertAlign rpr_strike]. cl. Qed.
#[local] Hint Resolve cm_rpr : cl.
Lemma cm_tab : forall (x : tab), m_tab (clean_tab c x) = tm (m_tab x).
Proof. intros. unfold m_tab, clean_tab. cbn [tab_val tab_pos]. cl. Qed.
#[local] Hint Resolve cm_tab : cl.
Lemma cm_tabs : forall (x : list tab), m_tabs (map (clean_tab c) x) = tm (m_tabs x).
Proof. unfold m_tabs. cl. Qed.
#[local] Hint Resolve cm_tabs : cl.
Lemma cm_numpr : forall (x : numpr), m_numpr (clean_numpr c x) = tm (m_numpr x).
Proof. intros. unfold m_numpr, clean_numpr. cbn [numpr_numID numpr_ilvl]. cl. Qed.
#[local] Hint Resolve cm_numpr : cl.
Lemma cm_ppr : forall (x : ppr), m_ppr (clean_ppr c x) = tm (m_ppr x).
Proof. intros. unfold m_ppr, clean_ppr. cbn [ppr_tabs ppr_spacing ppr_num ppr_ind ppr_jc ppr_shade ppr_kern ppr_style ppr_textAlignment ppr_adjustRightInd ppr_snapToGrid ppr_kinsoku ppr_overflowPunct ppr_rpr]. cl. Qed.
#[local] Hint Resolve cm_ppr : cl.
Lemma cm_text : forall (x : text), m_text (clean_text c x) = tm (m_text x).
Proof. intros. unfold m_text, clean_text. cbn [text_space text_text]. cl. Qed.
#[local] Hint Resolve cm_text : cl.
Lemma cm_extent : forall (x : xy), tm (m_extent x) = m_extent x.
Proof. unfold m_extent. cl. Qed.
#[local] Hint Resolve cm_extent : cl.
Lemma cm_effect : forall (x : eff), tm (m_effect x) = m_effect x.
Proof. unfold m_effect. cl. Qed.
#[local] Hint Resolve cm_effect : cl.
Lemma cm_docpr : forall (x : nonvis), m_docpr (clean_nonvis c x) = tm (m_docpr x).
Proof. intros. unfold m_docpr, clean_nonvis. cbn [nonvis_id nonvis_name]. cl. Qed.
#[local] Hint Resolve cm_docpr : cl.
Lemma cm_frame : forall (x : glocks), m_frame (clean_glocks c x) = tm (m_frame x).
Proof. intros. unfold m_frame, clean_glocks. cbn [glocks_xmla glocks_noChange]. cl. Qed.
#[local] Hint Resolve cm_frame : cl.
Lemma cm_nonvis : forall (q : qname) (x : nonvis), m_nonvis q (clean_nonvis c x) = tm (m_nonvis q x).
Proof. intros. unfold m_nonvis, clean_nonvis. cbn [nonvis_id nonvis_name]. cl. Qed.
#[local] Hint Resolve cm_nonvis : cl.
Lemma cm_nvpic : forall (x : nvpic), m_nvpic (clean_nvpic c x) = tm (m_nvpic x).
Proof. intros. unfold m_nvpic, clean_nvpic. cbn [nvpic_nv nvpic_locks]. cl. Qed.
#[local] Hint Resolve cm_nvpic : cl.
Lemma cm_ablip : forall (x : ablip), m_ablip (clean_ablip c x) = tm (m_ablip x).
Proof. intros. unfold m_ablip, clean_ablip. cbn [ablip_embed ablip_cstate ablip_alpha]. cl. Qed.
#[local] Hint Resolve cm_ablip : cl.
Lemma cm_picblip : forall (x : picblip), m_picblip (clean_picblip c x) = tm (m_picblip x).
Proof. intros. unfold m_picblip, clean_picblip. cbn [picblip_blip picblip_stretch]. cl. Qed.
#[local] Hint Resolve cm_picblip : cl.
Lemma cm_off : forall (q : qname) (x : xy), tm (m_off q x) = m_off q x.
Proof. unfold m_off. cl. Qed.
#[local] Hint Resolve cm_off : cl.
Lemma cm_ext : forall (q : qname) (x : xy), tm (m_ext q x) = m_ext q x.
Proof. unfold m_ext. cl. Qed.
#[local] Hint Resolve cm_ext : cl.
Lemma cm_xfrm : forall (x : xfrm), tm (m_xfrm x) = m_xfrm x.
Proof. unfold m_xfrm. cl. Qed.
#[local] Hint Resolve cm_xfrm : cl.
Lemma cm_geom : forall (x : geom), m_geom (clean_geom c x) = tm (m_geom x).
Proof. intros. unfold m_geom, clean_geom. cbn [geom_prst geom_avLst]. cl. Qed.
#[local] Hint Resolve cm_geom : cl.
Lemma cm_picsp : forall (x : picsp), m_picsp (clean_picsp c x) = tm (m_picsp x).
Proof. intros. unfold m_picsp, clean_picsp. cbn [picsp_xfrm picsp_geom]. cl. Qed.
#[local] Hint Resolve cm_picsp : cl.
Lemma cm_pic : forall (x : pic), m_pic (clean_pic c x) = tm (m_pic x).
Proof. intros. unfold m_pic, clean_pic. cbn [pic_xmlpic pic_nvpic pic_blip pic_sp]. cl. Qed.
#[local] Hint Resolve cm_pic : cl.
Lemma cm_solid : forall (x : option string), m_solid (option_map c x) = tm (m_solid x).
Proof. unfold m_solid. cl. Qed.
#[local] Hint Resolve cm_solid : cl.
Lemma cm_lend : forall (q : qname) (x : lend), m_lend q (clean_lend c x) = tm (m_lend q x).
Proof. intros. unfold m_lend, clean_lend. cbn [lend_type lend_w lend_len]. cl. Qed.
#[local] Hint Resolve cm_lend : cl.
Lemma cm_aline : forall (x : aline), m_aline (clean_aline c x) = tm (m_aline x).
Proof. intros. unfold m_aline, clean_aline. cbn [aline_w aline_cap aline_cmpd aline_algn aline_noFill aline_solid aline_dash aline_miter aline_round aline_head aline_tail]. cl. Qed.
#[local] Hint Resolve cm_aline : cl.
Lemma cm_tile : forall (x : tile), m_tile (clean_tile c x) = tm (m_tile x).
Proof. intros. unfold m_tile, clean_tile. cbn [tile_tx tile_ty tile_sx tile_sy tile_flip tile_algn]. cl. Qed.
#[local] Hint Resolve cm_tile : cl.
Lemma cm_blipfill : forall (x : blipfill), m_blipfill (clean_blipfill c x) = tm (m_blipfill x).
Proof. intros. unfold m_blipfill, clean_blipfill. cbn [blipfill_dpi blipfill_rot blipfill_blip blipfill_srcRect blipfill_tile]. cl. Qed.
#[local] Hint Resolve cm_blipfill : cl.
Lemma cm_sppr : forall (q : qname) (x : sppr), m_sppr q (clean_sppr c x) = tm (m_sppr q x).
Proof. intros. unfold m_sppr, clean_sppr. cbn [sppr_bwMode sppr_xfrm sppr_geom sppr_solid sppr_blip sppr_noFill sppr_line]. cl. Qed.
#[local] Hint Resolve cm_sppr : cl.
Lemma cm_cnvsp : forall (x : cnvsp), tm (m_cnvsp x) = m_cnvsp x.
Proof. unfold m_cnvsp. cl. Qed.
#[local] Hint Resolve cm_cnvsp : cl.
Lemma cm_bodypr : forall (x : bodypr), m_bodypr (clean_bodypr c x) = tm (m_bodypr x).
Proof. intros. unfold m_bodypr, clean_bodypr. cbn [bodypr_rot bodypr_vert bodypr_wrap bodypr_lIns bodypr_tIns bodypr_rIns bodypr_bIns bodypr_anchor bodypr_anchorCtr bodypr_upright bodypr_noAutofit]. cl. Qed.
#[local] Hint Resolve cm_bodypr : cl.
Lemma cm_wpos : forall (q : qname) (x : wpos), m_wpos q (clean_wpos c x) = tm (m_wpos q x).
Proof. intros. unfold m_wpos, clean_wpos. cbn [wpos_rel wpos_off]. cl. Qed.
#[local] Hint Resolve cm_wpos : cl.
Lemma cm_border : forall (q : qname) (x : border), m_border q (clean_border c x) = tm (m_border q x).
Proof. intros. unfold m_border, clean_border. cbn [border_val border_size border_space border_color]. cl. Qed.
#[local] Hint Resolve cm_border : cl.
Lemma cm_borders : forall (q : qname) (x : borders), m_borders q (clean_borders c x) = tm (m_borders q x).
Proof. intros. unfold m_borders, clean_borders. cbn [borders_top borders_left borders_bottom borders_right borders_insideH borders_insideV]. cl. Qed.
#[local] Hint Resolve cm_borders : cl.
Lemma cm_wtype : forall (q : qname) (x : wtype), m_wtype q (clean_wtype c x) = tm (m_wtype q x).
Proof. intros. unfold m_wtype, clean_wtype. cbn [wtype_w wtype_type]. cl. Qed.
#[local] Hint Resolve cm_wtype : cl.
Lemma cm_tblpos : forall (x : tblpos), m_tblpos (clean_tblpos c x) = tm (m_tblpos x).
Proof. intros. unfold m_tblpos, clean_tblpos. cbn [tblpos_leftFT tblpos_rightFT tblpos_vertAnchor tblpos_horzAnchor tblpos_xspec tblpos_yspec tblpos_x tblpos_y]. cl. Qed.
#[local] Hint Resolve cm_tblpos : cl.
Lemma cm_look : forall (x : look), m_look (clean_look c x) = tm (m_look x).
Proof. intros. unfold m_look, clean_look. cbn [look_val look_firstRow look_lastRow look_firstCol look_lastCol look_noHBand look_noVBand]. cl. Qed.
#[local] Hint Resolve cm_look : cl.
Lemma cm_tblpr : forall (x : tblpr), m_tblpr (clean_tblpr c x) = tm (m_tblpr x).
Proof. intros. unfold m_tblpr, clean_tblpr. cbn [tblpr_pos tblpr_style tblpr_width tblpr_jc tblpr_borders tblpr_look]. cl. Qed.
#[local] Hint Resolve cm_tblpr : cl.
Lemma cm_trheight : forall (x : trheight), m_trheight (clean_trheight c x) = tm (m_trheight x).
Proof. intros. unfold m_trheight, clean_trheight. cbn [trheight_rule trheight_val]. cl. Qed.
#[local] Hint Resolve cm_trheight : cl.
Lemma cm_trpr : forall (x : trpr), m_trpr (clean_trpr c x) = tm (m_trpr x).
Proof. intros. unfold m_trpr, clean_trpr. cbn [trpr_height trpr_jc]. cl. Qed.
#[local] Hint Resolve cm_trpr : cl.
Lemma cm_tcpr : forall (x : tcpr), m_tcpr (clean_tcpr c x) = tm (m_tcpr x).
Proof. intros. unfold m_tcpr, clean_tcpr. cbn [tcpr_width tcpr_vMerge tcpr_span tcpr_borders tcpr_shade tcpr_vAlign]. cl. Qed.
#[local] Hint Resolve cm_tcpr : cl.
Lemma cm_sect : forall (x : sect), m_sect (clean_sect c x) = tm (m_sect x).
Proof. intros. unfold m_sect, clean_sect. cbn [sect_pgSz sect_pgMar sect_cols sect_grid]. cl. Qed.
#[local] Hint Resolve cm_sect : cl.

Lemma cm_br : forall ty, m_br (c ty) = tm (m_br ty). Proof. intros. unfold m_br. cl. Qed.
#[local] Hint Resolve cm_br : cl.
Lemma cm_cnvcn : forall b, tm (m_cnvcn b) = m_cnvcn b. Proof. intros [|]; reflexivity. Qed.
Lemma cm_gcnv : forall b, tm (m_gcnv b) = m_gcnv b. Proof. intros [|]; reflexivity. Qed.
#[local] Hint Resolve cm_cnvcn cm_gcnv : cl.

Lemma cm_shapeR : forall P (m : P -> tree) (g : P -> P) x, (forall ps, shapeR_textBox x = Some (Some ps) -> Forall (fun p => m (g p) = tm (m p)) ps) -> m_shapeR m (clean_shapeR c g x) = tm (m_shapeR m x).
Proof.
  intros P m g x H. unfold m_shapeR, clean_shapeR. cbn [shapeR_cnvPr shapeR_cnvCn shapeR_cnvSp shapeR_sp shapeR_textBox shapeR_body]. rewrite tm_elem, !map_app. f_equal. repeat (f_equal; [cl; fail|]). f_equal; [|cl]. destruct (shapeR_textBox x) as [[ps|]|]; cbn [option_map el map]; try reflexivity.
  do 2 f_equal. rewrite tm_elem. cbn [el map]. do 2 f_equal. rewrite tm_elem. f_equal. now apply tm_map, H.
Qed.
Lemma cm_canvasR : forall P (m : P -> tree) (g : P -> P) x, Forall (fun p => m (g p) = tm (m p)) (canvasR_items x) -> m_canvasR m (clean_canvasR c g x) = tm (m_canvasR m x).
Proof. intros P m g x H. unfold m_canvasR, clean_canvasR. cbn [canvasR_bg canvasR_whole canvasR_items]. rewrite tm_elem. f_equal. rewrite !map_app. rewrite <- (tm_map _ g m _ H). repeat (f_equal; [cl; fail|]). f_equal. cl. Qed.
Lemma cm_groupR : forall P (m : P -> tree) (g : P -> P) x, Forall (fun p => m (g p) = tm (m p)) (groupR_elems x) -> m_groupR m (clean_groupR c g x) = tm (m_groupR m x).
Proof. intros P m g x H. unfold m_groupR, clean_groupR. cbn [groupR_cnv groupR_sp groupR_elems]. rewrite tm_elem. f_equal. rewrite !map_app. rewrite <- (tm_map _ g m _ H). repeat (f_equal; [cl; fail|]). f_equal. cl. Qed.
Lemma cm_gshapeR : forall P (m : P -> tree) (g : P -> P) x, Forall (fun p => m (g p) = tm (m p)) (gshapeR_elems x) -> m_gshapeR m (clean_gshapeR c g x) = tm (m_gshapeR m x).
Proof. intros P m g x H. unfold m_gshapeR, clean_gshapeR. cbn [gshapeR_cnvPr gshapeR_cnv gshapeR_sp gshapeR_elems]. rewrite tm_elem. f_equal. rewrite !map_app. rewrite <- (tm_map _ g m _ H). repeat (f_equal; [cl; fail|]). f_equal. cl. Qed.
Lemma cm_gdataR : forall S C G (ms : S -> tree) (mc : C -> tree) (mg : G -> tree) gs gc gg x,
  match gdataR_shape x with Some s => ms (gs s) = tm (ms s) | None => True end -> match gdataR_canvas x with Some s => mc (gc s) = tm (mc s) | None => True end ->
  match gdataR_group x with Some s => mg (gg s) = tm (mg s) | None => True end ->
  m_gdataR ms mc mg (clean_gdataR c gs gc gg x) = tm (m_gdataR ms mc mg x).
Proof.
  intros S C G ms mc mg gs gc gg x H1 H2 H3. unfold m_gdataR, clean_gdataR. cbn [gdataR_uri gdataR_pic gdataR_shape gdataR_canvas gdataR_group]. rewrite tm_elem, !map_app. f_equal.
  f_equal; [cl|]. f_equal; [|f_equal]; apply tm_el; intros s E; rewrite E in *; auto.
Qed.
Lemma cm_graphicR : forall D (m : D -> tree) (g : D -> D) x, (forall d, graphicR_data x = Some d -> m (g d) = tm (m d)) -> m_graphicR m (clean_graphicR c g x) = tm (m_graphicR m x).
Proof. intros D m g x H. unfold m_graphicR, clean_graphicR. cbn [graphicR_xmla graphicR_data]. rewrite tm_elem. f_equal; [cl|]. now apply tm_el. Qed.
Lemma cm_inlineR : forall D (m : D -> tree) (g : D -> D) x, (forall d, inlineR_graphic x = Some d -> m (g d) = tm (m d)) -> m_inlineR m (clean_inlineR c g x) = tm (m_inlineR m x).
Proof.
  intros D m g x H. unfold m_inlineR, clean_inlineR. cbn [inlineR_distT inlineR_distB inlineR_distL inlineR_distR inlineR_extent inlineR_effect inlineR_docPr inlineR_frame inlineR_graphic inlineR_file]. rewrite tm_elem, !map_app. f_equal; [cl|].
  repeat (f_equal; [cl; fail|]). now apply tm_el.
Qed.
Lemma cm_anchorR : forall D (m : D -> tree) (g : D -> D) x, (forall d, anchorR_graphic x = Some d -> m (g d) = tm (m d)) -> m_anchorR m (clean_anchorR c g x) = tm (m_anchorR m x).
Proof.
  intros D m g x H. unfold m_anchorR, clean_anchorR. cbn [anchorR_distT anchorR_distB anchorR_distL anchorR_distR anchorR_simplePos anchorR_relHeight anchorR_behindDoc anchorR_locked anchorR_layoutInCell anchorR_allowOverlap anchorR_simpleXY anchorR_posH anchorR_posV anchorR_extent anchorR_effect anchorR_wrapNone anchorR_wrapSquare anchorR_docPr anchorR_frame anchorR_graphic anchorR_file]. rewrite tm_elem, !map_app. f_equal; [cl|].
  repeat (f_equal; [cl; fail|]). now apply tm_el.
Qed.
Lemma cm_runR : forall P (m : P -> tree) (g : P -> P) x, Forall (fun p => m (g p) = tm (m p)) (runR_children x) -> m_runR m (clean_runR c g x) = tm (m_runR m x).
Proof.
  intros P m g x H. unfold m_runR, clean_runR. cbn [runR_space runR_rpr runR_instr runR_children]. rewrite tm_elem, !map_app. f_equal; [cl|]. rewrite <- (tm_map _ g m _ H), c_eqb.
  f_equal; [cl|]. f_equal. now destruct (String.eqb (runR_instr x) "").
Qed.
Lemma cm_paraR : forall P (m : P -> tree) (g : P -> P) x, Forall (fun p => m (g p) = tm (m p)) (paraR_children x) -> m_paraR m (clean_paraR c g x) = tm (m_paraR m x).
Proof. intros P m g x H. unfold m_paraR, clean_paraR. cbn [paraR_ppr paraR_children paraR_file]. rewrite tm_elem, !map_app. f_equal. rewrite <- (tm_map _ g m _ H). f_equal. cl. Qed.

Fixpoint cm_para (x : para) : m_para (clean_para c x) = tm (m_para x)
with cm_pchild (x : pchild) : m_pchild (clean_pchild c x) = tm (m_pchild x)
with cm_rchild (x : rchild) : m_rchild (clean_rchild c x) = tm (m_rchild x)
with cm_shape (x : shape) : m_shape (clean_shape c x) = tm (m_shape x)
with cm_canvas (x : canvas) : m_canvas (clean_canvas c x) = tm (m_canvas x)
with cm_citem (x : citem) : m_citem (clean_citem c x) = tm (m_citem x)
with cm_group (x : group) : m_group (clean_group c x) = tm (m_group x)
with cm_gelem (x : gelem) : m_gelem (clean_gelem c x) = tm (m_gelem x).
Proof.
  - destruct x as [[p k f]]. cbn [m_para clean_para]. apply cm_paraR. cbn [paraR_children].
    clear -cm_pchild. revert k. fix go 1. intros [|y k]; constructor; [apply cm_pchild|apply go].
  - assert (R : forall k, Forall (fun x => m_rchild (clean_rchild c x) = tm (m_rchild x)) k).
    { clear -cm_rchild. fix go 1. intros [|y k]; constructor; [apply cm_rchild|apply go]. }
    destruct x as [[sp rp ins k]|id [sp rp ins k]|r]; cbn [m_pchild clean_pchild].
    + apply cm_runR. apply R.
    + rewrite tm_elem. cbn [map]. do 2 f_equal. apply cm_runR. apply R.
    + apply cm_rpr.
  - destruct x as [t|t|ty|i a]; cbn [m_rchild clean_rchild]; [apply cm_text|apply cm_tab|apply cm_br|].
    rewrite tm_elem, map_app. f_equal. f_equal.
    + destruct i as [[? ? ? ? ? ? ? ? [[xa [[uri pc s cv g]|]]|] ?]|]; cbn [el option_map map]; try reflexivity; f_equal;
      apply cm_inlineR; cbn [inlineR_graphic]; try discriminate; intros ? E; injection E as <-;
      apply cm_graphicR; cbn [graphicR_data]; try discriminate; intros ? E; injection E as <-;
      apply cm_gdataR; cbn [gdataR_shape gdataR_canvas gdataR_group]; [destruct s|destruct cv|destruct g]; try exact I; auto with nocore.
    + destruct a as [[? ? ? ? ? ? ? ? ? ? ? ? ? ? ? ? ? ? ? [[xa [[uri pc s cv g]|]]|] ?]|]; cbn [el option_map map]; try reflexivity; f_equal;
      apply cm_anchorR; cbn [anchorR_graphic]; try discriminate; intros ? E; injection E as <-;
      apply cm_graphicR; cbn [graphicR_data]; try discriminate; intros ? E; injection E as <-;
      apply cm_gdataR; cbn [gdataR_shape gdataR_canvas gdataR_group]; [destruct s|destruct cv|destruct g]; try exact I; auto with nocore.
  - destruct x as [[? ? ? ? [[ps|]|] ?]]; cbn [m_shape clean_shape]; apply cm_shapeR; cbn [shapeR_textBox]; try discriminate.
    intros ps' E. injection E as <-. clear -cm_para. revert ps. fix go 1. intros [|y k]; constructor; [apply cm_para|apply go].
  - destruct x as [[? ? k]]. cbn [m_canvas clean_canvas]. apply cm_canvasR. cbn [canvasR_items].
    clear -cm_citem. revert k. fix go 1. intros [|y k]; constructor; [apply cm_citem|apply go].
  - destruct x as [s|p|g]; cbn [m_citem clean_citem]; [apply cm_shape|apply cm_pic|apply cm_group].
  - destruct x as [[? ? k]]. cbn [m_group clean_group]. apply cm_groupR. cbn [groupR_elems].
    clear -cm_gelem. revert k. fix go 1. intros [|y k]; constructor; [apply cm_gelem|apply go].
  - destruct x as [p|s|k|[? ? ? k]]; cbn [m_gelem clean_gelem]; [apply cm_pic|apply cm_shape|apply cm_canvas|].
    apply cm_gshapeR. cbn [gshapeR_elems]. clear -cm_gelem. revert k. fix go 1. intros [|y k]; constructor; [apply cm_gelem|apply go].
Qed.
#[local] Hint Resolve cm_para : cl.
Lemma cm_cell : forall x, m_cell (clean_cell c x) = tm (m_cell x). Proof. intros. unfold m_cell, clean_cell. cbn [cell_props cell_paras cell_file]. cl. Qed.
#[local] Hint Resolve cm_cell : cl.
Lemma cm_row : forall x, m_row (clean_row c x) = tm (m_row x). Proof. intros. unfold m_row, clean_row. cbn [row_props row_cells]. cl. Qed.
#[local] Hint Resolve cm_row : cl.
Lemma cm_grid : forall x, tm (m_grid x) = m_grid x.
Proof. intros x. unfold m_grid. rewrite tm_elem. f_equal. induction x as [|[v|] x IH]; cbn [flat_map el app map]; [reflexivity| |exact IH]. rewrite IH. f_equal. cl. Qed.
#[local] Hint Resolve cm_grid : cl.
Lemma cm_table : forall x, m_table (clean_table c x) = tm (m_table x). Proof. intros. unfold m_table, clean_table. cbn [table_props table_grid table_rows]. cl. Qed.
Lemma cm_item : forall x, m_item (clean_item c x) = tm (m_item x).
Proof. intros [p|t|s]; cbn [m_item clean_item]; [apply cm_para|apply cm_table|apply cm_sect]. Qed.
Lemma cm_document_of : forall a l, am a = a -> m_document_of a (map (clean_item c) l) = tm (m_document_of a l).
Proof.
  intros a l A. unfold m_document_of. rewrite tm_elem, A. cbn [map]. do 2 f_equal. rewrite tm_elem. f_equal. apply tm_map. apply Forall_forall. intros x _. apply cm_item.
Qed.
Lemma cm_rels : forall g, m_rels (clean_reg c g) = tm (m_rels g).
Proof.
  intros g. unfold m_rels, clean_reg. cbn [rels relns]. rewrite tm_elem, am_at. f_equal. apply tm_map. apply Forall_forall. intros x _.
  unfold m_rel, clean_rel. cbn [rel_id rel_type rel_target rel_mode]. cl.
Qed.
End Clean.
