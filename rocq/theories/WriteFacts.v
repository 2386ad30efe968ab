(** The XML written for a document that is described by [paper]. *)
From Coq Require Import String Ascii List Bool Arith NArith ZArith Lia.
From Verif Require Import GoStr Num Lib Types XmlTok Marshal Lex Docx Api History Rels Pack SpecLex SpecClean LexFacts CleanFacts2 SpecWrite.
Import ListNotations.
Local Open Scope list_scope.
Local Open Scope string_scope.
Ltac Zify.zify_post_hook ::= Z.div_mod_to_equations.

(** ** characters *)
Lemma quoted_app : forall a b, quoted (a ++ b) = quoted a ++ quoted b.
Proof. induction a as [|x a IH]; intros b; [reflexivity|]. cbn [append quoted]. now rewrite IH, <- sapp_assoc. Qed.
Definition high (a : ascii) : Prop := (128 <= N_of_ascii a)%N.
Lemma quoted_high : forall a, high a -> forall s, quoted (String a s) = String a (quoted s).
Proof.
  intros a H s. unfold high in H. cbn [quoted].
  repeat match goal with |- context [Ascii.eqb a ?b] => destruct (Ascii.eqb_spec a b) as [->|_]; [exfalso; vm_compute in H; now apply H|] end. reflexivity.
Qed.
Lemma high_of : forall n, (128 <= n < 256)%N -> high (ascii_of_N n).
Proof. intros n H. unfold high. rewrite N_ascii_embedding; lia. Qed.
Lemma quoted_encode : forall r, xml_char r -> quoted (encode r) = escape1 r.
Proof.
  intros r X. unfold encode, escape1. destruct (r <? 128)%N eqn:L; [apply N.ltb_lt in L|apply N.ltb_ge in L].
  - cbn [quoted]. assert (Q : forall n, (n < 256)%N -> Ascii.eqb (ascii_of_N r) (ascii_of_N n) = (r =? n)%N).
    { intros n Hn. destruct (N.eqb_spec r n) as [->|NE]; [apply Ascii.eqb_refl|]. apply Ascii.eqb_neq. intros E. apply NE. rewrite <- (N_ascii_embedding r), <- (N_ascii_embedding n) by lia. now rewrite E. }
    change "034"%char with (ascii_of_N 34). change "'"%char with (ascii_of_N 39). change "&"%char with (ascii_of_N 38). change "<"%char with (ascii_of_N 60).
    change ">"%char with (ascii_of_N 62). change "009"%char with (ascii_of_N 9). change "010"%char with (ascii_of_N 10). change "013"%char with (ascii_of_N 13).
    rewrite !Q by lia. unfold encode. rewrite (proj2 (N.ltb_lt r 128) L). repeat match goal with |- context [if (r =? ?n)%N then _ else _] => destruct (r =? n)%N; [reflexivity|] end. reflexivity.
  - repeat match goal with |- context [(r =? ?n)%N] => rewrite (proj2 (N.eqb_neq r n)) by lia end. unfold encode. rewrite (proj2 (N.ltb_ge r 128) L).
    unfold xml_char in X. destruct (r <? 2048)%N eqn:L2; [apply N.ltb_lt in L2|apply N.ltb_ge in L2]; [|destruct (r <? 65536)%N eqn:L3; [apply N.ltb_lt in L3|apply N.ltb_ge in L3]];
    rewrite !quoted_high by (apply high_of; lia); reflexivity.
Qed.
Lemma escape_quoted : forall s, xml_string s -> escape s = quoted s.
Proof.
  intros s (l & F & ->). induction F as [|r l X _ IH]; [reflexivity|]. cbn [map sconcat]. rewrite escape_encode, quoted_app, quoted_encode by assumption. now rewrite IH.
Qed.

Section Text.
Variable c : string -> string.
Hypothesis C : forall s, cleans s (c s).

Lemma esc : forall s, escape s = quoted (c s).
Proof. intros s. rewrite <- (cleans_escape s (c s)) by apply C. apply escape_quoted. eapply cleans_xml, C. Qed.

Lemma esc_digits : forall s, (forall a, In a (list_ascii_of_string s) -> Num.is_digit a = true \/ a = "-"%char) -> escape s = s.
Proof.
  induction s as [|a s IH]; intros H; [reflexivity|]. assert (B : Num.is_digit a = true \/ a = "-"%char) by (apply H; now left).
  assert (E : escape s = s) by (apply IH; intros x I; apply H; now right).
  assert (X : exists r, xml_char r /\ encode r = String a "" /\ escape1 r = String a "").
  { exists (N_of_ascii a). destruct a as [[] [] [] [] [] [] [] []]; destruct B as [B|B]; try discriminate B; (split; [unfold xml_char; cbn; lia|split; reflexivity]). }
  destruct X as (r & X & E1 & E2). change (String a s) with (String a "" ++ s) at 1. rewrite <- E1, escape_encode, E2, E by assumption. reflexivity.
Qed.
Lemma utoa_chars : forall f n acc, (forall a, In a (list_ascii_of_string acc) -> Num.is_digit a = true) -> forall a, In a (list_ascii_of_string (utoa_fuel f n acc)) -> Num.is_digit a = true.
Proof.
  induction f as [|f IH]; intros n acc H a I; [auto|]. cbn [utoa_fuel] in I.
  assert (D : Num.is_digit (digit (n mod 10)) = true).
  { unfold digit. assert (B : (n mod 10 < 10)%N) by (apply N.mod_lt; discriminate). destruct (n mod 10)%N as [|p]; [reflexivity|].
    do 10 (destruct p as [p|p|]; try (exfalso; lia); try reflexivity). }
  destruct (n <? 10)%N.
  - destruct I as [<-|I]; auto.
  - eapply (IH _ (String (digit (n mod 10)) acc)); [|exact I]. intros b [<-|J]; auto.
Qed.
Lemma esc_utoa : forall n, escape (utoa n) = utoa n.
Proof. intros n. apply esc_digits. intros a I. left. eapply utoa_chars; [|exact I]. intros b []. Qed.
Lemma esc_itoa : forall z, escape (itoa z) = itoa z.
Proof.
  intros z. apply esc_digits. unfold itoa. destruct z as [|p|p]; cbn [list_ascii_of_string]; intros a I.
  - left. eapply utoa_chars; [|exact I]. intros b [].
  - left. eapply utoa_chars; [|exact I]. intros b [].
  - destruct I as [<-|I]; [now right|]. left. eapply utoa_chars; [|exact I]. intros b [].
Qed.

(** ** the writer *)
Lemma show_elem : forall q a l, show (Elem q a l) = element (show_name q) (show_attrs a) (shows l).
Proof.
  intros q a l. cbn [show]. unfold element, shows. do 4 f_equal. f_equal. induction l as [|t l IH]; [reflexivity|]. cbn [map sconcat]. now rewrite <- IH.
Qed.
Lemma shows_app : forall a b, shows (a ++ b)%list = shows a ++ shows b.
Proof. intros. unfold shows. now rewrite map_app, sconcat_app. Qed.
Lemma shows_one : forall t, shows [t] = show t. Proof. intros. unfold shows. cbn [map sconcat]. apply sapp_nil_r. Qed.
Lemma shows_map : forall A (f : A -> tree) l, shows (map f l) = each (fun x => show (f x)) l.
Proof. intros. unfold shows, each. now rewrite map_map. Qed.
Lemma shows_el : forall A (f : A -> tree) o, shows (el f o) = maybe (fun x => show (f x)) o.
Proof. intros A f [x|]; [apply shows_one|reflexivity]. Qed.
Lemma shows_elb : forall q b, shows (elb q b) = if b then element (show_name q) "" "" else "".
Proof. intros q [|]; [|reflexivity]. unfold elb. now rewrite shows_one, show_elem. Qed.
Lemma shows_chr : forall s, shows (chr s) = quoted (c s).
Proof.
  intros s. unfold chr. destruct (String.eqb_spec s "") as [->|N]; [|rewrite shows_one; apply esc].
  now rewrite (proj1 (cleans_empty _ _ (C "")) eq_refl).
Qed.
Lemma attrs_app : forall a b, show_attrs (a ++ b)%list = show_attrs a ++ show_attrs b.
Proof. induction a as [|[q v] a IH]; intros b; [reflexivity|]. cbn [List.app show_attrs append]. rewrite IH. repeat (rewrite <- sapp_assoc; cbn [append]). reflexivity. Qed.
Lemma attrs_at : forall q v, show_attrs (at_ q v) = attribute c (show_name q) v.
Proof. intros. unfold at_, attribute. cbn [show_attrs append]. now rewrite (esc v). Qed.
Lemma attrs_ato : forall q v, show_attrs (ato q v) = attribute' c (show_name q) v.
Proof. intros. unfold ato, attribute'. destruct (String.eqb v ""); [reflexivity|]. apply attrs_at. Qed.
Lemma attrs_ati : forall q v, show_attrs (ati q v) = number (show_name q) (iv v).
Proof. intros. unfold ati, number. cbn [show_attrs append]. now rewrite esc_itoa. Qed.
Lemma attrs_atio : forall q v, show_attrs (atio q v) = number' (show_name q) (iv v).
Proof. intros. unfold atio, number'. destruct (Z.eqb (iv v) 0); [reflexivity|]. apply attrs_ati. Qed.
Lemma each_ext : forall A (f g : A -> string) l, (forall x, f x = g x) -> each f l = each g l.
Proof. intros A f g l H. unfold each. f_equal. apply map_ext, H. Qed.
Lemma maybe_ext : forall A (f g : A -> string) o, (forall x, f x = g x) -> maybe f o = maybe g o.
Proof. intros A f g [x|] H; [apply H|reflexivity]. Qed.
Lemma maybe_map : forall A B (h : A -> B) (f : B -> string) o, maybe f (option_map h o) = maybe (fun x => f (h x)) o.
Proof. intros A B h f [x|]; reflexivity. Qed.
Lemma each_map : forall A B (h : A -> B) (f : B -> string) l, each f (map h l) = each (fun x => f (h x)) l.
Proof. intros. unfold each. now rewrite map_map. Qed.

Ltac sh := repeat rewrite ?show_elem, ?shows_app, ?shows_map, ?shows_el, ?shows_elb, ?shows_chr, ?attrs_app, ?attrs_at, ?attrs_ato, ?attrs_ati, ?attrs_atio, ?maybe_map, ?each_map.

Lemma show_val : forall q v, show (val_el q v) = value c (show_name q) v. Proof. intros. unfold val_el. sh. reflexivity. Qed.
Lemma shows_elv : forall q o, shows (el (val_el q) o) = maybe (value c (show_name q)) o. Proof. intros q [v|]; [|reflexivity]. cbn [el]. rewrite shows_one. apply show_val. Qed.
Lemma show_valo : forall q v, show (val_elo q v) = value' c (show_name q) v. Proof. intros. unfold val_elo. sh. reflexivity. Qed.

Lemma shows_elvo : forall q o, shows (el (val_elo q) o) = maybe (value' c (show_name q)) o. Proof. intros q [v|]; [|reflexivity]. cbn [el]. rewrite shows_one. apply show_valo. Qed.

(** ** the documents that are described *)
Definition is_font (x : string * string * string * string) : rfonts := let '(a, e, h, t) := x in mk_rfonts a e h t.
Definition is_shade (x : string * string * string) : shade := let '(v, co, f) := x in mk_shade v co f "" "".
Definition is_format (link : bool) (f : format) : rpr :=
  mk_rpr (option_map is_font (f_font f)) (f_bold f) false (f_italic f) (f_highlight f) (f_color f) (f_size f) (f_sizecs f)
    (option_map (fun z => set_spacing_line z spacing0) (f_spacing f)) (if link then Some HYPERLINK_STYLE else None) None
    (option_map is_shade (f_shade f)) None (f_underline f) None (option_map (fun b : bool => if b then "true" else "false") (f_strike f)).
Definition is_graphic (title : string) (ew eh : i64) (x : figure) : graphic :=
  match x with
  | Photo k n => pic_graphic k title ("rId" ++ utoa n) ew eh
  | Figure bw prst w' h' ln => shape_graphic w' h' bw prst ln
  end.
Definition is_frame (x : figure) : glocks := mk_glocks XMLNS_DRAWINGML_MAIN (match x with Photo _ _ => i64_of 1 | _ => i0 end).
Definition is_drawn (anch : bool) (n : i64) (title : string) (ew eh : i64) (x : figure) : rchild :=
  if anch then RDraw None (Some (mk_anchorR i0 i0 i0 i0 i0 i0 i0 i0 (i64_of 1) (i64_of 1) (Some xy0)
    (Some (mk_wpos "column" i0)) (Some (mk_wpos "paragraph" i0))
    (Some (mk_xy ew eh)) (Some eff0) true None (Some (mk_nonvis n title)) (Some (is_frame x)) (Some (is_graphic title ew eh x)) None))
  else RDraw (Some (mk_inlineR i0 i0 i0 i0 (Some (mk_xy ew eh)) (Some eff0) (Some (mk_nonvis n title)) (Some (is_frame x)) (Some (is_graphic title ew eh x)) None)) None.
Definition is_piece (x : piece) : rchild :=
  match x with
  | Words s => RText (mk_text "" s) | Tabulator => RTab tab0 | NewLine => RBr "" | NewPage => RBr "page"
  | Drawn anch n title ew eh g => is_drawn anch n title ew eh g
  end.
Definition is_kid (k : kid) : pchild :=
  match k with
  | SpecWrite.Run f l => PRun (mk_runR "" (Some (is_format false f)) "" (map is_piece l))
  | Link n t f l => PLink ("rId" ++ utoa n) (mk_runR "" (Some (is_format true f)) t (map is_piece l))
  end.
Definition is_mark (m : option (string * string * string * string) * option string) : rpr := set_rpr_size (snd m) (set_rpr_fonts (option_map is_font (fst m)) rpr0).
Definition is_ppr (s : sheet) : option ppr :=
  match s_num s, s_jc s, s_style s, s_mark s with
  | None, None, None, None => None
  | _, _, _, _ => Some (mk_ppr None None (option_map (fun x => mk_numpr (Some (fst x)) (Some (snd x))) (s_num s)) None (s_jc s) None None (s_style s)
      None None None None None (option_map is_mark (s_mark s)))
  end.
Definition is_sheet (s : sheet) : para := mk_para (is_ppr s) (map is_kid (s_kids s)) (Some 0).

Lemma font_ok : forall x, show (m_rfonts (is_font x)) = font_text c x.
Proof. intros [[[a e] h] t]. unfold m_rfonts. sh. reflexivity. Qed.
Lemma shade_ok : forall x, show (m_shade (is_shade x)) = shade_text c x.
Proof. intros [[v co] f]. unfold m_shade. sh. cbn [is_shade shade_val shade_color shade_fill shade_themeFill shade_themeFillTint shade_text]. unfold attribute' at 4 5. cbn [String.eqb]. now rewrite !sapp_nil_r. Qed.
Lemma fonts_ok : forall o, shows (el m_rfonts (option_map is_font o)) = maybe (font_text c) o.
Proof. intros [x|]; [|reflexivity]. cbn [option_map el]. rewrite shows_one. apply font_ok. Qed.
Lemma shades_ok : forall o, shows (el m_shade (option_map is_shade o)) = maybe (shade_text c) o.
Proof. intros [x|]; [|reflexivity]. cbn [option_map el]. rewrite shows_one. apply shade_ok. Qed.
Lemma format_ok : forall link f, show (m_rpr (is_format link f)) = format_text c link f.
Proof.
  intros link f. unfold m_rpr, is_format, format_text. rewrite show_elem. cbn [rpr_fonts rpr_bold rpr_ics rpr_italic rpr_highlight rpr_color rpr_size rpr_sizeCs rpr_spacing rpr_runStyle rpr_style rpr_shade rpr_kern rpr_underline rpr_vertAlign rpr_strike].
  rewrite !shows_app, fonts_ok, !shows_elb, !shows_elvo, !shows_elv, shades_ok. f_equal. f_equal. f_equal. cbn [append]. do 5 f_equal. f_equal.
  - destruct (f_spacing f) as [z|]; [|reflexivity]. cbn [option_map el maybe]. rewrite shows_one. unfold m_spacing. sh. cbn [spacing_val spacing_beforeLines spacing_before spacing_line spacing_lineRule set_spacing_line spacing0].
    unfold number' at 1 2 3, attribute'. cbn [iv i0 Z.eqb String.eqb append]. rewrite sapp_nil_r. reflexivity.
  - f_equal; [now destruct link|]. cbn [maybe el append]. change (shows []) with "". cbn [append]. f_equal. f_equal. now rewrite maybe_map.
Qed.

(** drawings *)
Lemma nil_l : forall s, "" ++ s = s. Proof. reflexivity. Qed.
Lemma wpos_ok : forall q r, show (m_wpos q (mk_wpos r i0)) = element (show_name q) (attribute c "relativeFrom" r) (element "wp:posOffset" "" "0").
Proof. intros q r. unfold m_wpos. rewrite show_elem, attrs_at, shows_one, show_elem, shows_one. cbn [show wpos_off wpos_rel]. now rewrite esc_itoa. Qed.
Lemma sizes_ok : forall q a b, show (m_ext q (mk_xy a b)) = size_text (show_name q) a b.
Proof. intros. unfold m_ext, size_text. sh. reflexivity. Qed.
Lemma extent_ok : forall a b, show (m_extent (mk_xy a b)) = size_text "wp:extent" a b.
Proof. intros. unfold m_extent, size_text. sh. reflexivity. Qed.
Lemma xfrm_ok : forall a b, show (m_xfrm (set_xfrm_ext (mk_xy a b) xfrm0)) = element "a:xfrm" "" (element "a:off" (number "x" 0 ++ number "y" 0) "" ++ size_text "a:ext" a b).
Proof.
  intros. unfold m_xfrm. cbn [set_xfrm_ext xfrm0 xfrm_rot xfrm_flipH xfrm_flipV xfrm_off xfrm_ext xfrm_chOff xfrm_chExt el]. rewrite show_elem, !shows_app, !shows_one, sizes_ok. unfold m_off. sh.
  change (shows []) with "". cbn [append]. rewrite !sapp_nil_r. reflexivity.
Qed.
Lemma geom_ok : forall p, show (m_geom (mk_geom p false)) = element "a:prstGeom" (attribute c "prst" p) "".
Proof. intros. unfold m_geom. sh. reflexivity. Qed.
Lemma el_ok : forall A (f : A -> tree) g (o : option A), (forall x, show (f x) = g x) -> shows (el f o) = maybe g o.
Proof. intros. rewrite shows_el. now apply maybe_ext. Qed.
Lemma solid_ok : forall o, show (m_solid o) = element "a:solidFill" "" (maybe (fun v => element "a:srgbClr" (attribute c "val" v) "") o).
Proof. intros o. unfold m_solid. rewrite show_elem. cbn [show_attrs]. f_equal. apply el_ok. intros v. sh. reflexivity. Qed.
Lemma lend_ok : forall q x, show (m_lend q x) = end_text c (show_name q) x.
Proof. intros. unfold m_lend, end_text. sh. reflexivity. Qed.
Lemma stroke_ok : forall x, show (m_aline x) = stroke_text c x.
Proof.
  intros x. unfold m_aline, stroke_text. rewrite show_elem, !shows_app, !shows_elb. rewrite (el_ok _ _ _ (aline_solid x) solid_ok), (el_ok _ _ _ (aline_head x) (lend_ok _)), (el_ok _ _ _ (aline_tail x) (lend_ok _)).
  rewrite (el_ok _ _ (fun v => element "a:prstDash" (attribute c "val" v) "") (aline_dash x)) by (intros v; sh; reflexivity).
  rewrite (el_ok _ _ (fun v => element "a:miter" (attribute c "lim" v) "") (aline_miter x)) by (intros v; sh; reflexivity).
  sh. reflexivity.
Qed.
Lemma photo_ok : forall k title n ew eh, show (m_pic (mk_pic XMLNS_DRAWINGML_PICTURE
       (Some (mk_nvpic (mk_nonvis k title) None))
       (Some (mk_picblip (mk_ablip ("rId" ++ utoa n) "print" None) false))
       (Some (mk_picsp (set_xfrm_ext (mk_xy ew eh) xfrm0) (Some (mk_geom "rect" false)))))) = photo_text c k title n ew eh.
Proof.
  intros. unfold m_pic, photo_text. cbn [pic_xmlpic pic_nvpic pic_blip pic_sp el]. rewrite show_elem, !shows_app, !shows_one, attrs_ato.
  unfold m_nvpic, m_picblip, m_picsp, place_text. cbn [nvpic_nv nvpic_locks picblip_blip picblip_stretch picsp_xfrm picsp_geom el elb]. rewrite !show_elem, !shows_app, !shows_one, xfrm_ok, geom_ok.
  unfold shows. cbn [map sconcat]. rewrite !sapp_nil_r. unfold m_nonvis, m_ablip. cbn [nonvis_id nonvis_name ablip_embed ablip_cstate ablip_alpha el]. sh. reflexivity.
Qed.
Lemma figure_ok : forall bw prst a b ln, show (m_shape (Shape (mk_shapeR None (Some true) None
       (Some (mk_sppr bw (set_xfrm_ext (mk_xy a b) xfrm0) (mk_geom prst false) None None true ln)) None (Some bodypr0)))) = figure_text c bw prst a b ln.
Proof.
  intros. cbn [m_shape]. unfold m_shapeR, figure_text. cbn [shapeR_cnvPr shapeR_cnvCn shapeR_cnvSp shapeR_sp shapeR_textBox shapeR_body el]. rewrite show_elem, !shows_app, !shows_one. change (shows []) with "". cbn [append show_attrs].
  unfold m_cnvcn, m_sppr, m_bodypr, place_text. cbn [sppr_bwMode sppr_xfrm sppr_geom sppr_solid sppr_blip sppr_noFill sppr_line el elb].
  rewrite !show_elem, !shows_app, !shows_one, xfrm_ok, geom_ok, (el_ok _ _ _ ln stroke_ok), !show_elem. change (shows []) with "". cbn [append show_attrs]. rewrite <- !sapp_assoc. sh. reflexivity.
Qed.
Lemma graphic_ok : forall title ew eh x, show (m_graphicR (m_gdataR m_shape m_canvas m_group) (is_graphic title ew eh x)) =
  element "a:graphic" (attribute c "xmlns:a" DRAWINGML)
      (match x with
       | Photo k ref => element "a:graphicData" (attribute c "uri" "http://schemas.openxmlformats.org/drawingml/2006/picture") (photo_text c k title ref ew eh)
       | Figure bw prst w' h' ln => element "a:graphicData" (attribute c "uri" "http://schemas.microsoft.com/office/word/2010/wordprocessingShape") (figure_text c bw prst w' h' ln)
       end).
Proof.
  intros title ew eh x. destruct x as [k n|bw prst a b ln]; cbn [is_graphic]; unfold pic_graphic, shape_graphic, m_graphicR; cbn [graphicR_xmla graphicR_data el]; rewrite show_elem, shows_one, attrs_ato;
  unfold m_gdataR; cbn [gdataR_uri gdataR_pic gdataR_shape gdataR_canvas gdataR_group el]; rewrite show_elem, !shows_app, shows_one, attrs_at; change (shows []) with ""; rewrite ?nil_l, ?sapp_nil_r.
  - now rewrite photo_ok.
  - now rewrite figure_ok.
Qed.
Lemma frame_ok : forall x, show (m_frame (is_frame x)) = element "wp:cNvGraphicFramePr" ""
      (element "a:graphicFrameLocks" (attribute c "xmlns:a" DRAWINGML ++ match x with Photo _ _ => number "noChangeAspect" 1 | _ => "" end) "").
Proof. intros x. unfold m_frame. rewrite show_elem, shows_one, show_elem, attrs_app, attrs_ato, attrs_atio. destruct x; reflexivity. Qed.
Lemma effect_ok : show (m_effect eff0) = element "wp:effectExtent" (number "l" 0 ++ number "t" 0 ++ number "r" 0 ++ number "b" 0) "".
Proof. unfold m_effect. sh. reflexivity. Qed.
Lemma docpr_ok : forall n t, show (m_docpr (mk_nonvis n t)) = element "wp:docPr" (number "id" (iv n) ++ attribute' c "name" t) "".
Proof. intros. unfold m_docpr. sh. reflexivity. Qed.
Lemma drawn_ok : forall anch n title ew eh x, show (m_rchild (is_drawn anch n title ew eh x)) = drawn_text c anch n title ew eh x.
Proof.
  intros anch n title ew eh x. unfold drawn_text, is_drawn. destruct anch; cbn [m_rchild el].
  - rewrite show_elem, shows_app, shows_one. change (shows []) with "". cbn [append show_attrs]. f_equal. unfold m_anchorR.
    cbn [anchorR_distT anchorR_distB anchorR_distL anchorR_distR anchorR_simplePos anchorR_relHeight anchorR_behindDoc anchorR_locked anchorR_layoutInCell anchorR_allowOverlap anchorR_simpleXY anchorR_posH anchorR_posV anchorR_extent anchorR_effect anchorR_wrapNone anchorR_wrapSquare anchorR_docPr anchorR_frame anchorR_graphic el elb].
    rewrite show_elem, !shows_app, !shows_one, graphic_ok, frame_ok, effect_ok, docpr_ok, extent_ok, !wpos_ok. rewrite !attrs_app, !attrs_ati. rewrite <- !sapp_assoc. unfold m_off. sh. reflexivity.
  - rewrite show_elem, shows_app, shows_one. change (shows []) with "". cbn [append show_attrs]. rewrite sapp_nil_r. f_equal. unfold m_inlineR.
    cbn [inlineR_distT inlineR_distB inlineR_distL inlineR_distR inlineR_extent inlineR_effect inlineR_docPr inlineR_frame inlineR_graphic el].
    rewrite show_elem, !shows_app, !shows_one, graphic_ok, frame_ok, effect_ok, docpr_ok, extent_ok. rewrite !attrs_app, !attrs_ati. rewrite <- !sapp_assoc. reflexivity.
Qed.
Lemma piece_ok : forall x, show (m_rchild (is_piece x)) = piece_text c x.
Proof.
  intros [s| | | |anch n t ew eh g]; [| | | |apply drawn_ok]; cbn [is_piece m_rchild piece_text]; [unfold m_text|unfold m_tab|unfold m_br|unfold m_br]; sh; reflexivity.
Qed.
Lemma pieces_ok : forall l, shows (map m_rchild (map is_piece l)) = each (piece_text c) l.
Proof. intros. rewrite map_map, shows_map. apply each_ext, piece_ok. Qed.
Lemma kid_ok : forall k, show (m_pchild (is_kid k)) = kid_text c k.
Proof.
  intros [f l|n t f l]; cbn [is_kid m_pchild kid_text]; unfold m_runR; cbn [runR_space runR_rpr runR_instr runR_children].
  - cbn [String.eqb el]. rewrite show_elem, !shows_app, shows_one, format_ok, pieces_ok. reflexivity.
  - rewrite show_elem, shows_one, show_elem, !shows_app. cbn [el]. rewrite shows_one, format_ok, pieces_ok, attrs_at. unfold ato. cbn [String.eqb show_attrs].
    destruct (String.eqb t "") eqn:E; [reflexivity|]. rewrite shows_one, show_elem, shows_one. cbn [show]. rewrite (esc t). reflexivity.
Qed.
Lemma sheet_ok : forall s, show (m_para (is_sheet s)) = sheet_text c s.
Proof.
  intros s. unfold is_sheet, mk_para. cbn [m_para]. unfold m_paraR. cbn [paraR_ppr paraR_children]. rewrite show_elem, shows_app, map_map, shows_map, (each_ext _ _ _ _ kid_ok).
  unfold sheet_text. do 2 f_equal. cbn [show_attrs].
  assert (P : forall o, shows (el m_rpr (option_map is_mark o)) = maybe (fun m => element "w:rPr" "" (maybe (font_text c) (fst m) ++ maybe (value c "w:sz") (snd m))) o).
  { intros [[fo si]|]; [|reflexivity]. cbn [el option_map maybe fst snd]. rewrite shows_one. unfold m_rpr, is_mark. cbn [fst snd]. rewrite show_elem, !shows_app. cbn [set_rpr_size set_rpr_fonts rpr0 rpr_fonts rpr_bold rpr_ics rpr_italic rpr_highlight rpr_color rpr_size rpr_sizeCs rpr_spacing rpr_runStyle rpr_style rpr_shade rpr_kern rpr_underline rpr_vertAlign rpr_strike].
    rewrite fonts_ok, !shows_elv. cbn [el elb maybe]. change (shows []) with "". cbn [append]. now rewrite sapp_nil_r. }
  assert (N : shows (el m_numpr (option_map (fun x => mk_numpr (Some (fst x)) (Some (snd x))) (s_num s))) = maybe (fun x => element "w:numPr" "" (value c "w:numId" (fst x) ++ value c "w:ilvl" (snd x))) (s_num s)).
  { destruct (s_num s) as [x|]; [|reflexivity]. cbn [option_map el maybe]. rewrite shows_one. unfold m_numpr. cbn [numpr_numID numpr_ilvl el List.app]. rewrite show_elem. unfold shows. cbn [map sconcat]. rewrite !show_val, sapp_nil_r. reflexivity. }
  assert (A : shows (el m_ppr (Some (mk_ppr None None (option_map (fun x => mk_numpr (Some (fst x)) (Some (snd x))) (s_num s)) None (s_jc s) None None (s_style s)
      None None None None None (option_map is_mark (s_mark s))))) =
     element "w:pPr" "" (maybe (fun x => element "w:numPr" "" (value c "w:numId" (fst x) ++ value c "w:ilvl" (snd x))) (s_num s) ++ maybe (value c "w:jc") (s_jc s) ++ maybe (value c "w:pStyle") (s_style s) ++
       maybe (fun m => element "w:rPr" "" (maybe (font_text c) (fst m) ++ maybe (value c "w:sz") (snd m))) (s_mark s))).
  { cbn [el]. rewrite shows_one. unfold m_ppr. rewrite show_elem, !shows_app. cbn [ppr_tabs ppr_spacing ppr_num ppr_ind ppr_jc ppr_shade ppr_kern ppr_style ppr_textAlignment ppr_adjustRightInd ppr_snapToGrid ppr_kinsoku ppr_overflowPunct ppr_rpr].
    rewrite N, P, !shows_elv. cbn [el maybe]. change (shows []) with "". reflexivity. }
  unfold is_ppr. destruct (s_num s), (s_jc s), (s_style s), (s_mark s); cbn [append]; try (f_equal; exact A). reflexivity.
Qed.

(** tables *)
Definition is_box (x : box) : cell := mk_cell (Some (set_tcpr_shade (option_map is_shade (b_shade x)) (set_tcpr_width (Some (mk_wtype (b_width x) (b_type x))) tcpr0))) (map is_sheet (b_sheets x)) (Some 0).
Definition is_line (x : line) : row := mk_row (Some (set_trpr_jc (l_jc x) (set_trpr_height (option_map (mk_trheight "") (l_height x)) trpr0))) (map is_box (l_boxes x)).
Definition is_border (col : string) : option border := Some (mk_border "single" (i64_of 4) i0 col).
Definition is_tblpr (g : grid) : tblpr :=
  mk_tblpr None None (Some (mk_wtype (g_width g) (g_type g))) (g_jc g)
    (Some (mk_borders (is_border (g_top g)) (is_border (g_left g)) (is_border (g_bottom g)) (is_border (g_right g)) (is_border (g_insideH g)) (is_border (g_insideV g))))
    (Some (mk_look "0000" i0 i0 i0 i0 i0 i0)).
(** the columns of a table that have a width *)
Fixpoint somes {A} (l : list (option A)) : list A := match l with [] => [] | Some x :: l' => x :: somes l' | None :: l' => somes l' end.
Definition is_block (b : block) (x : item) : Prop :=
  match b with
  | BSheet s => x = IPara (is_sheet s)
  | BGrid g => exists l, x = ITable (mk_table (Some (is_tblpr g)) (Some l) (map is_line (g_lines g))) /\ somes l = g_columns g
  | BPage w h => x = ISect (mk_sect (Some (mk_pgsz (i64_of w) (i64_of h))) None None None) /\ iv (i64_of w) = w /\ iv (i64_of h) = h
  end.

Lemma box_ok : forall x, show (m_cell (is_box x)) = box_text c x.
Proof.
  intros x. unfold m_cell, box_text, is_box. cbn [cell_props cell_paras]. rewrite show_elem, shows_app, map_map, shows_map, (each_ext _ _ _ _ sheet_ok). do 2 f_equal. f_equal.
  cbn [el]. rewrite shows_one. unfold m_tcpr. rewrite show_elem, !shows_app. cbn [set_tcpr_shade set_tcpr_width tcpr0 tcpr_width tcpr_vMerge tcpr_span tcpr_borders tcpr_shade tcpr_vAlign el].
  rewrite shades_ok. change (shows []) with "". cbn [append]. rewrite sapp_nil_r, shows_one. f_equal. f_equal. unfold m_wtype, width_text. sh. reflexivity.
Qed.
Lemma line_ok : forall x, show (m_row (is_line x)) = line_text c x.
Proof.
  intros x. unfold m_row, line_text, is_line. cbn [row_props row_cells]. rewrite show_elem, shows_app, map_map, shows_map, (each_ext _ _ _ _ box_ok). do 2 f_equal. f_equal.
  cbn [el]. rewrite shows_one. unfold m_trpr. rewrite show_elem, !shows_app. cbn [set_trpr_jc set_trpr_height trpr0 trpr_height trpr_jc].
  rewrite shows_elv. f_equal. f_equal. destruct (l_height x) as [h|]; [|reflexivity]. cbn [option_map el maybe]. rewrite shows_one. unfold m_trheight. sh. reflexivity.
Qed.
Lemma border_ok : forall q col, show (m_border q (mk_border "single" (i64_of 4) i0 col)) = border_text c (show_name q) col.
Proof. intros q col. unfold m_border, border_text. sh. reflexivity. Qed.
Lemma columns_ok : forall l, shows (flat_map (el (fun v => Elem (w "gridCol") (ati (w "w") v) [])) l) = each (fun z => element "w:gridCol" (number "w:w" (iv z)) "") (somes l).
Proof.
  induction l as [|[v|] l IH]; [reflexivity| |exact IH]. cbn [flat_map el List.app somes]. unfold shows, each in *. cbn [map sconcat]. rewrite IH. f_equal. sh. reflexivity.
Qed.
Lemma look_ok : show (m_look (mk_look "0000" i0 i0 i0 i0 i0 i0)) = element "w:tblLook" (attribute c "w:val" "0000" ++ number "w:firstRow" 0 ++ number "w:lastRow" 0 ++ number "w:firstColumn" 0 ++
          number "w:lastColumn" 0 ++ number "w:noHBand" 0 ++ number "w:noVBand" 0) "".
Proof. unfold m_look. sh. reflexivity. Qed.
Lemma block_ok : forall b x, is_block b x -> show (m_item x) = block_text c b.
Proof.
  intros [s|g|pw ph] x; cbn [is_block block_text].
  - intros ->. apply sheet_ok.
  - intros (l & -> & E). cbn [m_item]. unfold m_table, grid_text. cbn [table_props table_grid table_rows el]. rewrite show_elem, !shows_app, !shows_one, map_map, shows_map, (each_ext _ _ _ _ line_ok).
    cbn [show_attrs]. unfold m_grid. rewrite show_elem, columns_ok, E. f_equal. f_equal.
    unfold m_tblpr, is_tblpr. cbn [tblpr_pos tblpr_style tblpr_width tblpr_jc tblpr_borders tblpr_look el]. rewrite show_elem, !shows_app, shows_elv, !shows_one, look_ok. change (shows []) with "". cbn [append].
    f_equal. f_equal; [unfold m_wtype, width_text; sh; reflexivity|]. f_equal. f_equal. unfold m_borders, is_border. cbn [borders_top borders_left borders_bottom borders_right borders_insideH borders_insideV el].
    rewrite show_elem, !shows_app, !shows_one, !border_ok. reflexivity.
  - intros (-> & E1 & E2). cbn [m_item]. unfold m_sect. cbn [sect_pgSz sect_pgMar sect_cols sect_grid el List.app pgsz_w pgsz_h]. rewrite show_elem, shows_one. sh. rewrite E1, E2. reflexivity.
Qed.
Lemma document_ok : forall p l, Forall2 is_block (p_blocks p) l -> write_xml (m_document l) = document_text c p.
Proof.
  intros p l F. destruct p as [bs refs names]. cbn [p_blocks] in F. unfold write_xml, document_text, m_document, m_document_of. f_equal. rewrite show_elem, shows_one, show_elem. cbn [p_blocks].
  assert (B : shows (map m_item l) = each (block_text c) bs).
  { unfold shows, each. induction F as [|b x bs l R F IH]; [reflexivity|]. cbn [map sconcat]. now rewrite IH, (block_ok b x R). }
  rewrite B. f_equal. unfold doc_attrs, attribute. cbn [show_attrs append]. rewrite !(esc "http://schemas.openxmlformats.org/wordprocessingml/2006/main"), !(esc "http://schemas.openxmlformats.org/officeDocument/2006/relationships"), !(esc "http://schemas.openxmlformats.org/drawingml/2006/wordprocessingDrawing"),
    !(esc "http://schemas.microsoft.com/office/word/2010/wordprocessingShape"), !(esc "http://schemas.microsoft.com/office/word/2010/wordprocessingCanvas"), !(esc "http://schemas.microsoft.com/office/word/2010/wordprocessingGroup").
  cbn [show_name xmlns fst snd String.eqb append]. repeat (rewrite <- sapp_assoc; cbn [append]). reflexivity.
Qed.

(** ** the relationships *)
Fixpoint is_refs (n k : N) (l : list ref) : list rel :=
  match l with
  | [] => []
  | ToLink t :: l' => mk_rel ("rId" ++ utoa n) REL_HYPERLINK t REL_TARGETMODE :: is_refs (n + 1) k l'
  | ToImage f _ :: l' => mk_rel ("rId" ++ utoa n) REL_IMAGE ("media/" ++ image_name (k + 1) f) "" :: is_refs (n + 1) (k + 1) l'
  end.
Fixpoint is_media (k : N) (l : list ref) : list (string * string) :=
  match l with
  | [] => []
  | ToLink _ :: l' => is_media k l'
  | ToImage f data :: l' => (image_name (k + 1) f, data) :: is_media (k + 1) l'
  end.
Lemma rel_ok : forall n ty target mode, show (m_rel (mk_rel ("rId" ++ utoa n) ("http://schemas.openxmlformats.org/officeDocument/2006/relationships/" ++ ty) target mode)) = relation c n ty target (attribute' c "TargetMode" mode).
Proof. intros. unfold m_rel, relation. cbn [rel_id rel_type rel_target rel_mode]. rewrite show_elem, !attrs_app, !attrs_at, attrs_ato. reflexivity. Qed.
Lemma refs_ok : forall l n k, shows (map m_rel (is_refs n k l)) = ref_relations c n k l.
Proof.
  induction l as [|[t|f data] l IH]; intros n k; [reflexivity| |]; cbn [is_refs map ref_relations]; unfold shows in *; cbn [map sconcat]; rewrite IH; f_equal.
  - exact (rel_ok n "hyperlink" t "External").
  - exact (rel_ok n "image" ("media/" ++ image_name (k + 1) f) "").
Qed.
Lemma relations_ok : forall p g, relns g = XMLNS_REL -> rels g = (base_rels ++ is_refs 4 0 (p_refs p))%list -> write_xml (m_rels g) = relations_text c p.
Proof.
  intros p g E1 E2. unfold write_xml, relations_text, m_rels. rewrite E1, E2. f_equal. rewrite show_elem, attrs_at, map_app, shows_app, refs_ok. f_equal.
  unfold base_rels, shows. cbn [map sconcat]. rewrite sapp_nil_r, <- !sapp_assoc. 
  change (show (m_rel (mk_rel "rId1" "http://schemas.openxmlformats.org/officeDocument/2006/relationships/styles" "styles.xml" ""))) with (show (m_rel (mk_rel ("rId" ++ utoa 1) ("http://schemas.openxmlformats.org/officeDocument/2006/relationships/" ++ "styles") "styles.xml" ""))).
  change (show (m_rel (mk_rel "rId2" "http://schemas.openxmlformats.org/officeDocument/2006/relationships/theme" "theme/theme1.xml" ""))) with (show (m_rel (mk_rel ("rId" ++ utoa 2) ("http://schemas.openxmlformats.org/officeDocument/2006/relationships/" ++ "theme") "theme/theme1.xml" ""))).
  change (show (m_rel (mk_rel "rId3" "http://schemas.openxmlformats.org/officeDocument/2006/relationships/fontTable" "fontTable.xml" ""))) with (show (m_rel (mk_rel ("rId" ++ utoa 3) ("http://schemas.openxmlformats.org/officeDocument/2006/relationships/" ++ "fontTable") "fontTable.xml" ""))).
  rewrite !rel_ok. reflexivity.
Qed.
End Text.
