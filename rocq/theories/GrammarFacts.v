(** What is written follows the grammar. *)
From Coq Require Import String Ascii List Bool Arith NArith ZArith Lia Permutation.
From Verif Require Import GoStr Num Lib Types XmlTok Marshal Docx Lex Rels Pack SpecLex SpecPack SpecGrammar LexFacts LexFacts2 LexFacts3.
Import ListNotations.
Local Open Scope string_scope.
Local Open Scope list_scope.

(** ** attributes *)
Lemma fit_at : forall q v l a, attrs_fit l a -> attrs_fit ((q, Str, Always) :: l) (at_ q v ++ a).
Proof. intros. apply af_here; [exact I|assumption]. Qed.
Lemma fit_ato : forall q v l a, attrs_fit l a -> attrs_fit ((q, Str, IfSet) :: l) (ato q v ++ a).
Proof. intros. unfold ato. destruct (String.eqb_spec v ""); [now apply af_skip|]. apply af_here; assumption. Qed.
Lemma fit_ati : forall q v l a, attrs_fit l a -> attrs_fit ((q, Int, Always) :: l) (ati q v ++ a).
Proof. intros. apply af_here; [eexists; reflexivity|assumption]. Qed.
Lemma fit_atio : forall q v l a, attrs_fit l a -> attrs_fit ((q, Int, IfSet) :: l) (atio q v ++ a).
Proof. intros. unfold atio. destruct (Z.eqb_spec (iv v) 0); [now apply af_skip|]. apply af_here; [|assumption]. eexists. split; [reflexivity|assumption]. Qed.

(** ** children *)
Definition named (ns : list qname) (t : tree) : Prop := match t with Elem q _ _ => In q ns | _ => False end.
Lemma fit_el : forall A (f : A -> tree) o ns l k, (forall v, named ns (f v)) -> slots_fit l k -> slots_fit ((ns, Opt) :: l) (el f o ++ k).
Proof.
  intros A f [v|] ns l k N S; cbn [el app]; [|now apply sf_skip]. specialize (N v). destruct (f v); try destruct N; now apply sf_here; [cbn in *; auto| |].
Qed.
Lemma fit_elb : forall q b ns l k, In q ns -> slots_fit l k -> slots_fit ((ns, Opt) :: l) (elb q b ++ k).
Proof. intros q [|] ns l k N S; cbn [elb app]; [|now apply sf_skip]. now apply sf_here. Qed.
Lemma fit_one : forall t ns l k, named ns t -> slots_fit l k -> slots_fit ((ns, One) :: l) (t :: k).
Proof. intros [q a c| |] ns l k N S; try destruct N; now apply sf_here. Qed.
Lemma fit_more : forall ns l c k, Forall (named ns) c -> slots_fit ((ns, Many) :: l) k -> slots_fit ((ns, Many) :: l) (c ++ k).
Proof.
  intros ns l c k F S. induction F as [|t c N F IH]; [exact S|]. destruct t; try destruct N; cbn [app]; apply sf_more; auto; now left.
Qed.
Lemma named_el : forall A (f : A -> tree) o ns, (forall v, named ns (f v)) -> Forall (named ns) (el f o).
Proof. intros A f [v|] ns N; cbn [el]; constructor; [apply N|constructor]. Qed.
Lemma named_elb : forall q b ns, In q ns -> Forall (named ns) (elb q b).
Proof. intros q [|] ns N; cbn [elb]; constructor; [exact N|constructor]. Qed.
Lemma named_map : forall A (f : A -> tree) l ns, (forall v, named ns (f v)) -> Forall (named ns) (map f l).
Proof. intros A f l ns N. induction l; cbn [map]; constructor; auto. Qed.


(** ** the tactics *)
Ltac nm := intros; try match goal with |- named _ (_ ?v) => (is_var v; destruct v) end; hnf; repeat (first [left; reflexivity|right]); fail.
Ltac tbl := cbv [r_attrs r_content leaf node val valo vali str stro int into q_ one opt many border_rule borders_rule wtype_rule nonvis_rule off_rule ext_rule sppr_rule lend_rule wpos_rule].
Ltac ends := rewrite <- ?app_assoc; cbn [app].
Lemma att_end : forall l a, attrs_fit l (a ++ []) -> attrs_fit l a. Proof. intros l a. now rewrite app_nil_r. Qed.
Lemma kid_end : forall l a, slots_fit l (a ++ []) -> slots_fit l a. Proof. intros l a. now rewrite app_nil_r. Qed.
Ltac atts := tbl; apply att_end; ends; repeat first [apply fit_at|apply fit_ato|apply fit_ati|apply fit_atio|exact af_nil].
Ltac kid := repeat first [exact sf_nil | apply fit_el; [solve [nm]|] | apply fit_elb; [solve [hnf; repeat (first [left; reflexivity|right])]|] | apply fit_one; [solve [nm]|]
  | apply fit_more; [first [solve [apply named_el; nm] | solve [apply named_elb; hnf; repeat (first [left; reflexivity|right])] | solve [apply named_map; nm]]|] | apply sf_skip; [discriminate|]].
Lemma fit_seq : forall b l c, slots_fit l (c ++ []) -> content_fit b (Seq l) c.
Proof. intros [|] l c S; rewrite app_nil_r in S; [exists c; split; [apply Permutation_refl|exact S]|exact S]. Qed.
Lemma fit_any : forall b l c, slots_fit l (c ++ []) -> content_fit b (Any l) c.
Proof. intros b l c S; rewrite app_nil_r in S; exists c; split; [apply Permutation_refl|exact S]. Qed.
Lemma fit_chr : forall b s, content_fit b (Chars Str) (chr s).
Proof. intros b s. unfold chr. destruct (String.eqb_spec s ""); [now left|right; eauto]. Qed.
Ltac kids := tbl; first
  [ apply fit_seq; ends; kid; fail | apply fit_any; ends; kid; fail | apply fit_chr ].
Lemma sub_app : forall a b, Forall (conforms own_grammar []) a -> Forall (conforms own_grammar []) b -> Forall (conforms own_grammar []) (a ++ b).
Proof. intros. now apply Forall_app. Qed.
Lemma sub_el : forall A (f : A -> tree) o, (forall v, conforms own_grammar [] (f v)) -> Forall (conforms own_grammar []) (el f o).
Proof. intros A f [v|] H; cbn [el]; constructor; [apply H|constructor]. Qed.
Lemma sub_elb : forall q b, conforms own_grammar [] (Elem q [] []) -> Forall (conforms own_grammar []) (elb q b).
Proof. intros q [|] H; cbn [elb]; constructor; [exact H|constructor]. Qed.
Lemma sub_map : forall A (f : A -> tree) l, Forall (fun x => conforms own_grammar [] (f x)) l -> Forall (conforms own_grammar []) (map f l).
Proof. intros. now apply Forall_map. Qed.
Lemma sub_map' : forall A (f : A -> tree) l, (forall x, conforms own_grammar [] (f x)) -> Forall (conforms own_grammar []) (map f l).
Proof. intros. apply Forall_map. apply Forall_forall. auto. Qed.
Lemma sub_chr : forall s, Forall (conforms own_grammar []) (chr s).
Proof. intros s. unfold chr. destruct (String.eqb s ""); repeat constructor. Qed.
Create HintDb gram.
Ltac sub := repeat match goal with
  | |- forall _, _ => intros
  | |- Forall _ nil => exact (Forall_nil _)
  | |- Forall _ (cons _ _) => apply Forall_cons
  | |- Forall _ (app _ _) => apply sub_app
  | |- Forall _ (el _ _) => apply sub_el
  | |- Forall _ (elb _ _) => apply sub_elb
  | |- Forall _ (chr _) => apply sub_chr
  | H : Forall _ ?l |- Forall _ (map _ ?l) => apply sub_map; exact H
  | |- Forall _ (map _ _) => apply sub_map'
  | |- conforms _ _ (Elem _ _ _) => gr
  | |- conforms _ _ _ => solve [auto with gram nocore]
  end
with gr := eapply conf_elem; [reflexivity|solve [atts]|solve [kids]|sub].
Ltac gram := intros; cbv beta; gr.
Lemma g_val : forall q v, rule_of own_grammar q = Some val -> conforms own_grammar [] (val_el q v).
Proof. intros q v E. eapply conf_elem; [exact E|atts|kids|sub]. Qed.
Lemma g_valo : forall q v, rule_of own_grammar q = Some valo -> conforms own_grammar [] (val_elo q v).
Proof. intros q v E. eapply conf_elem; [exact E|atts|kids|sub]. Qed.
Lemma g_vali : forall q v, rule_of own_grammar q = Some vali -> conforms own_grammar [] (val_eli q v).
Proof. intros q v E. eapply conf_elem; [exact E|atts|kids|sub]. Qed.
#[local] Hint Extern 1 (conforms _ _ (val_el _ _)) => apply g_val; reflexivity : gram.
#[local] Hint Extern 1 (conforms _ _ (val_elo _ _)) => apply g_valo; reflexivity : gram.
#[local] Hint Extern 1 (conforms _ _ (val_eli _ _)) => apply g_vali; reflexivity : gram.
Lemma g_rfonts : forall x, conforms own_grammar [] (m_rfonts x). Proof. unfold m_rfonts. gram. Qed.
#[local] Hint Resolve g_rfonts : gram.
Lemma g_spacing : forall x, conforms own_grammar [] (m_spacing x). Proof. unfold m_spacing. gram. Qed.
#[local] Hint Resolve g_spacing : gram.
Lemma g_ind : forall x, conforms own_grammar [] (m_ind x). Proof. unfold m_ind. gram. Qed.
#[local] Hint Resolve g_ind : gram.
Lemma g_shade : forall x, conforms own_grammar [] (m_shade x). Proof. unfold m_shade. gram. Qed.
#[local] Hint Resolve g_shade : gram.
Lemma g_rpr : forall x, conforms own_grammar [] (m_rpr x). Proof. unfold m_rpr. gram. Qed.
#[local] Hint Resolve g_rpr : gram.
Lemma g_tab : forall x, conforms own_grammar [] (m_tab x). Proof. unfold m_tab. gram. Qed.
#[local] Hint Resolve g_tab : gram.
Lemma g_tabs : forall x, conforms own_grammar [] (m_tabs x). Proof. unfold m_tabs. gram. Qed.
#[local] Hint Resolve g_tabs : gram.
Lemma g_numpr : forall x, conforms own_grammar [] (m_numpr x). Proof. unfold m_numpr. gram. Qed.
#[local] Hint Resolve g_numpr : gram.
Lemma g_ppr : forall x, conforms own_grammar [] (m_ppr x). Proof. unfold m_ppr. gram. Qed.
#[local] Hint Resolve g_ppr : gram.
Lemma g_text : forall x, conforms own_grammar [] (m_text x). Proof. unfold m_text. gram. Qed.
#[local] Hint Resolve g_text : gram.
Lemma g_br : forall x, conforms own_grammar [] (m_br x). Proof. unfold m_br. gram. Qed.
#[local] Hint Resolve g_br : gram.
Lemma g_extent : forall x, conforms own_grammar [] (m_extent x). Proof. unfold m_extent. gram. Qed.
#[local] Hint Resolve g_extent : gram.
Lemma g_effect : forall x, conforms own_grammar [] (m_effect x). Proof. unfold m_effect. gram. Qed.
#[local] Hint Resolve g_effect : gram.
Lemma g_docpr : forall x, conforms own_grammar [] (m_docpr x). Proof. unfold m_docpr. gram. Qed.
#[local] Hint Resolve g_docpr : gram.
Lemma g_frame : forall x, conforms own_grammar [] (m_frame x). Proof. unfold m_frame. gram. Qed.
#[local] Hint Resolve g_frame : gram.
Lemma g_nonvis : forall q x, rule_of own_grammar q = Some nonvis_rule -> conforms own_grammar [] (m_nonvis q x).
Proof. intros q x E. unfold m_nonvis. eapply conf_elem; [exact E|solve [atts]|solve [kids]|sub]. Qed.
#[local] Hint Extern 1 (conforms _ _ (m_nonvis _ _)) => apply g_nonvis; reflexivity : gram.
Lemma g_nvpic : forall x, conforms own_grammar [] (m_nvpic x). Proof. unfold m_nvpic. gram. Qed.
#[local] Hint Resolve g_nvpic : gram.
Lemma g_ablip : forall x, conforms own_grammar [] (m_ablip x). Proof. unfold m_ablip. gram. Qed.
#[local] Hint Resolve g_ablip : gram.
Lemma g_picblip : forall x, conforms own_grammar [] (m_picblip x). Proof. unfold m_picblip. gram. Qed.
#[local] Hint Resolve g_picblip : gram.
Lemma g_off : forall q x, rule_of own_grammar q = Some off_rule -> conforms own_grammar [] (m_off q x).
Proof. intros q x E. unfold m_off. eapply conf_elem; [exact E|solve [atts]|solve [kids]|sub]. Qed.
#[local] Hint Extern 1 (conforms _ _ (m_off _ _)) => apply g_off; reflexivity : gram.
Lemma g_ext : forall q x, rule_of own_grammar q = Some ext_rule -> conforms own_grammar [] (m_ext q x).
Proof. intros q x E. unfold m_ext. eapply conf_elem; [exact E|solve [atts]|solve [kids]|sub]. Qed.
#[local] Hint Extern 1 (conforms _ _ (m_ext _ _)) => apply g_ext; reflexivity : gram.
Lemma g_xfrm : forall x, conforms own_grammar [] (m_xfrm x). Proof. unfold m_xfrm. gram. Qed.
#[local] Hint Resolve g_xfrm : gram.
Lemma g_geom : forall x, conforms own_grammar [] (m_geom x). Proof. unfold m_geom. gram. Qed.
#[local] Hint Resolve g_geom : gram.
Lemma g_picsp : forall x, conforms own_grammar [] (m_picsp x). Proof. unfold m_picsp. gram. Qed.
#[local] Hint Resolve g_picsp : gram.
Lemma g_pic : forall x, conforms own_grammar [] (m_pic x). Proof. unfold m_pic. gram. Qed.
#[local] Hint Resolve g_pic : gram.
Lemma g_solid : forall x, conforms own_grammar [] (m_solid x). Proof. unfold m_solid. gram. Qed.
#[local] Hint Resolve g_solid : gram.
Lemma g_lend : forall q x, rule_of own_grammar q = Some lend_rule -> conforms own_grammar [] (m_lend q x).
Proof. intros q x E. unfold m_lend. eapply conf_elem; [exact E|solve [atts]|solve [kids]|sub]. Qed.
#[local] Hint Extern 1 (conforms _ _ (m_lend _ _)) => apply g_lend; reflexivity : gram.
Lemma g_aline : forall x, conforms own_grammar [] (m_aline x). Proof. unfold m_aline. gram. Qed.
#[local] Hint Resolve g_aline : gram.
Lemma g_tile : forall x, conforms own_grammar [] (m_tile x). Proof. unfold m_tile. gram. Qed.
#[local] Hint Resolve g_tile : gram.
Lemma g_blipfill : forall x, conforms own_grammar [] (m_blipfill x). Proof. unfold m_blipfill. gram. Qed.
#[local] Hint Resolve g_blipfill : gram.
Lemma g_sppr : forall q x, rule_of own_grammar q = Some sppr_rule -> conforms own_grammar [] (m_sppr q x).
Proof. intros q x E. unfold m_sppr. eapply conf_elem; [exact E|solve [atts]|solve [kids]|sub]. Qed.
#[local] Hint Extern 1 (conforms _ _ (m_sppr _ _)) => apply g_sppr; reflexivity : gram.
Lemma g_cnvcn : forall x, conforms own_grammar [] (m_cnvcn x). Proof. unfold m_cnvcn. gram. Qed.
#[local] Hint Resolve g_cnvcn : gram.
Lemma g_cnvsp : forall x, conforms own_grammar [] (m_cnvsp x). Proof. unfold m_cnvsp. gram. Qed.
#[local] Hint Resolve g_cnvsp : gram.
Lemma g_bodypr : forall x, conforms own_grammar [] (m_bodypr x). Proof. unfold m_bodypr. gram. Qed.
#[local] Hint Resolve g_bodypr : gram.
Lemma g_gcnv : forall x, conforms own_grammar [] (m_gcnv x). Proof. unfold m_gcnv. gram. Qed.
#[local] Hint Resolve g_gcnv : gram.
Lemma g_border : forall q x, rule_of own_grammar q = Some border_rule -> conforms own_grammar [] (m_border q x).
Proof. intros q x E. unfold m_border. eapply conf_elem; [exact E|solve [atts]|solve [kids]|sub]. Qed.
#[local] Hint Extern 1 (conforms _ _ (m_border _ _)) => apply g_border; reflexivity : gram.
Lemma g_borders : forall q x, rule_of own_grammar q = Some borders_rule -> conforms own_grammar [] (m_borders q x).
Proof. intros q x E. unfold m_borders. eapply conf_elem; [exact E|solve [atts]|solve [kids]|sub]. Qed.
#[local] Hint Extern 1 (conforms _ _ (m_borders _ _)) => apply g_borders; reflexivity : gram.
Lemma g_wtype : forall q x, rule_of own_grammar q = Some wtype_rule -> conforms own_grammar [] (m_wtype q x).
Proof. intros q x E. unfold m_wtype. eapply conf_elem; [exact E|solve [atts]|solve [kids]|sub]. Qed.
#[local] Hint Extern 1 (conforms _ _ (m_wtype _ _)) => apply g_wtype; reflexivity : gram.
Lemma g_tblpos : forall x, conforms own_grammar [] (m_tblpos x). Proof. unfold m_tblpos. gram. Qed.
#[local] Hint Resolve g_tblpos : gram.
Lemma g_look : forall x, conforms own_grammar [] (m_look x). Proof. unfold m_look. gram. Qed.
#[local] Hint Resolve g_look : gram.
Lemma g_tblpr : forall x, conforms own_grammar [] (m_tblpr x). Proof. unfold m_tblpr. gram. Qed.
#[local] Hint Resolve g_tblpr : gram.
Lemma g_grid : forall x, conforms own_grammar [] (m_grid x).
Proof.
  intros x. unfold m_grid. eapply conf_elem; [reflexivity|solve [atts]| |].
  - tbl. apply fit_seq. apply fit_more; [|now apply sf_skip; [|exact sf_nil]]. induction x as [|[v|] x IH]; cbn [flat_map el app]; [constructor| |exact IH]. constructor; [now left|exact IH].
  - induction x as [|o x IH]; cbn [flat_map]; [constructor|]. apply sub_app; [sub|exact IH].
Qed.
#[local] Hint Resolve g_grid : gram.
Lemma g_trheight : forall x, conforms own_grammar [] (m_trheight x). Proof. unfold m_trheight. gram. Qed.
#[local] Hint Resolve g_trheight : gram.
Lemma g_trpr : forall x, conforms own_grammar [] (m_trpr x). Proof. unfold m_trpr. gram. Qed.
#[local] Hint Resolve g_trpr : gram.
Lemma g_tcpr : forall x, conforms own_grammar [] (m_tcpr x). Proof. unfold m_tcpr. gram. Qed.
#[local] Hint Resolve g_tcpr : gram.
Lemma g_sect : forall x, conforms own_grammar [] (m_sect x). Proof. unfold m_sect. gram. Qed.
#[local] Hint Resolve g_sect : gram.
Lemma g_wpos : forall q x, rule_of own_grammar q = Some wpos_rule -> conforms own_grammar [] (m_wpos q x).
Proof.
  intros q x E. unfold m_wpos. eapply conf_elem; [exact E|solve [atts]|solve [kids]|]. constructor; [|constructor].
  eapply conf_elem; [reflexivity|solve [atts]|eexists; reflexivity|]. constructor; [apply conf_chr|constructor].
Qed.
#[local] Hint Extern 1 (conforms _ _ (m_wpos _ _)) => apply g_wpos; reflexivity : gram.

(** ** the recursive types *)
Notation cf := (conforms own_grammar []).
Lemma n_para : forall x, named [("w", "p")] (m_para x). Proof. nm. Qed.
Lemma sub_el' : forall A (f : A -> tree) o, (forall v, o = Some v -> cf (f v)) -> Forall cf (el f o).
Proof. intros A f [v|] H; cbn [el]; constructor; [now apply H|constructor]. Qed.
Lemma g_shapeR : forall P (m : P -> tree) x, (forall p, named [("w", "p")] (m p)) ->
  (forall ps, shapeR_textBox x = Some (Some ps) -> Forall (fun p => cf (m p)) ps) -> cf (m_shapeR m x).
Proof.
  intros P m x N H. unfold m_shapeR. eapply conf_elem; [reflexivity|solve [atts]|solve [kids]|]. repeat apply sub_app; try (sub; fail).
  apply sub_el'. intros [ps|] E; (eapply conf_elem; [reflexivity|solve [atts]|solve [kids]|]); [|constructor]. cbn [el]. constructor; [|constructor].
  eapply conf_elem; [reflexivity|solve [atts]| |now apply sub_map, H]. tbl. apply fit_seq. apply fit_more; [now apply named_map|]. kid.
Qed.
Definition citems : list qname := [("wps", "wsp"); ("pic", "pic"); ("wpg", "wgp")].
Definition gelems : list qname := [("pic", "pic"); ("wps", "wsp"); ("wpc", "wpc"); ("wpg", "grpSp")].
Ltac rest N := tbl; apply fit_seq; ends; kid; apply fit_more; [now apply named_map|kid].
Lemma g_canvasR : forall E (m : E -> tree) x, (forall e, named citems (m e)) -> Forall (fun e => cf (m e)) (canvasR_items x) -> cf (m_canvasR m x).
Proof.
  intros E m x N H. unfold m_canvasR. eapply conf_elem; [reflexivity|solve [atts]| |sub]. tbl. apply fit_seq. ends.
  apply fit_el; [nm|]. apply fit_el; [nm|]. apply fit_more; [now apply named_map|kid].
Qed.
Lemma g_groupR : forall E (m : E -> tree) x, (forall e, named gelems (m e)) -> Forall (fun e => cf (m e)) (groupR_elems x) -> cf (m_groupR m x).
Proof.
  intros E m x N H. unfold m_groupR. eapply conf_elem; [reflexivity|solve [atts]| |sub]. tbl. apply fit_seq. ends.
  apply fit_el; [nm|]. apply fit_el; [nm|]. apply fit_more; [now apply named_map|kid].
Qed.
Lemma g_gshapeR : forall E (m : E -> tree) x, (forall e, named gelems (m e)) -> Forall (fun e => cf (m e)) (gshapeR_elems x) -> cf (m_gshapeR m x).
Proof.
  intros E m x N H. unfold m_gshapeR. eapply conf_elem; [reflexivity|solve [atts]| |sub]. tbl. apply fit_seq. ends.
  apply fit_el; [nm|]. apply fit_el; [nm|]. apply fit_el; [nm|]. apply fit_more; [now apply named_map|kid].
Qed.
Lemma g_gdataR : forall x : gdataR shape canvas group,
  (forall s, gdataR_shape x = Some s -> cf (m_shape s)) -> (forall s, gdataR_canvas x = Some s -> cf (m_canvas s)) ->
  (forall s, gdataR_group x = Some s -> cf (m_group s)) -> cf (m_gdataR m_shape m_canvas m_group x).
Proof.
  intros x H1 H2 H3. unfold m_gdataR. eapply conf_elem; [reflexivity|solve [atts]|solve [kids]|].
  repeat apply sub_app; [sub|now apply sub_el'|now apply sub_el'|now apply sub_el'].
Qed.
Notation mgd := (m_gdataR m_shape m_canvas m_group).
Lemma g_graphicR : forall x : graphicR (gdataR shape canvas group), (forall d, graphicR_data x = Some d -> cf (mgd d)) -> cf (m_graphicR mgd x).
Proof. intros x H. unfold m_graphicR. eapply conf_elem; [reflexivity|solve [atts]|solve [kids]|now apply sub_el']. Qed.
Lemma g_inlineR : forall x : inlineR (graphicR (gdataR shape canvas group)), (forall g, inlineR_graphic x = Some g -> cf (m_graphicR mgd g)) -> cf (m_inlineR (m_graphicR mgd) x).
Proof. intros x H. unfold m_inlineR. eapply conf_elem; [reflexivity|solve [atts]|solve [kids]|]. repeat apply sub_app; try (sub; fail). now apply sub_el'. Qed.
Lemma g_anchorR : forall x : anchorR (graphicR (gdataR shape canvas group)), (forall g, anchorR_graphic x = Some g -> cf (m_graphicR mgd g)) -> cf (m_anchorR (m_graphicR mgd) x).
Proof. intros x H. unfold m_anchorR. eapply conf_elem; [reflexivity|solve [atts]|solve [kids]|]. repeat apply sub_app; try (sub; fail). now apply sub_el'. Qed.
Definition rchildren : list qname := [("w", "t"); ("w", "tab"); ("w", "br"); ("w", "drawing")].
Lemma g_runR : forall C (m : C -> tree) x, (forall c, named rchildren (m c)) -> Forall (fun c => cf (m c)) (runR_children x) -> cf (m_runR m x).
Proof.
  intros C m x N H. unfold m_runR. eapply conf_elem; [reflexivity|solve [atts]| |].
  - tbl. apply fit_seq. ends. apply fit_el; [nm|]. destruct (String.eqb (runR_instr x) ""); cbn [app]; [apply sf_skip; [discriminate|]|apply sf_here; [now left|discriminate|]];
      (apply fit_more; [now apply named_map|kid]).
  - repeat apply sub_app; [sub| |now apply sub_map]. destruct (String.eqb_spec (runR_instr x) "") as [|K]; [constructor|]. constructor; [|constructor].
    eapply conf_elem; [reflexivity|solve [atts]|right; eauto|]. constructor; [apply conf_chr|constructor].
Qed.
Lemma g_paraR : forall C (m : C -> tree) x, (forall c, named [("w", "r"); ("w", "hyperlink"); ("w", "rPr")] (m c)) -> Forall (fun c => cf (m c)) (paraR_children x) -> cf (m_paraR m x).
Proof.
  intros C m x N H. unfold m_paraR. eapply conf_elem; [reflexivity|solve [atts]| |sub]. tbl. apply fit_seq. ends. apply fit_el; [nm|].
  apply fit_more; [now apply named_map|kid].
Qed.
Fixpoint g_para (x : para) : cf (m_para x)
with g_pchild (x : pchild) : cf (m_pchild x)
with g_rchild (x : rchild) : cf (m_rchild x)
with g_shape (x : shape) : cf (m_shape x)
with g_canvas (x : canvas) : cf (m_canvas x)
with g_citem (x : citem) : cf (m_citem x)
with g_group (x : group) : cf (m_group x)
with g_gelem (x : gelem) : cf (m_gelem x).
Proof.
  - destruct x as [[p c f]]. cbn [m_para]. apply g_paraR; [nm|]. cbn [paraR_children].
    clear -g_pchild. revert c. fix go 1. intros [|y c]; constructor; [apply g_pchild|apply go].
  - assert (R : forall c, Forall (fun x => cf (m_rchild x)) c).
    { clear -g_rchild. fix go 1. intros [|y c]; constructor; [apply g_rchild|apply go]. }
    destruct x as [[sp rp ins c]|id [sp rp ins c]|r]; cbn [m_pchild].
    + apply g_runR; [nm|]. apply R.
    + eapply conf_elem; [reflexivity|apply att_end, fit_at, af_nil|apply fit_one; [now left|exact sf_nil]|]. constructor; [|constructor]. apply g_runR; [nm|]. apply R.
    + apply g_rpr.
  - destruct x as [t|t|ty|i a]; cbn [m_rchild]; [apply g_text|apply g_tab|apply g_br|].
    eapply conf_elem; [reflexivity|solve [atts]|solve [kids]|]. apply sub_app.
    + destruct i as [[? ? ? ? ? ? ? ? [[xa [[uri pc [s|] [cv|] [g|]]|]]|] ?]|]; cbn [el]; try (exact (Forall_nil _)); (apply Forall_cons; [|exact (Forall_nil _)]);
      apply g_inlineR; cbn [inlineR_graphic]; try discriminate; intros ? E; injection E as <-;
      apply g_graphicR; cbn [graphicR_data]; try discriminate; intros ? E; injection E as <-;
      apply g_gdataR; cbn [gdataR_shape gdataR_canvas gdataR_group]; try discriminate; intros ? E; injection E as <-; auto with nocore.
    + destruct a as [[? ? ? ? ? ? ? ? ? ? ? ? ? ? ? ? ? ? ? [[xa [[uri pc [s|] [cv|] [g|]]|]]|] ?]|]; cbn [el]; try (exact (Forall_nil _)); (apply Forall_cons; [|exact (Forall_nil _)]);
      apply g_anchorR; cbn [anchorR_graphic]; try discriminate; intros ? E; injection E as <-;
      apply g_graphicR; cbn [graphicR_data]; try discriminate; intros ? E; injection E as <-;
      apply g_gdataR; cbn [gdataR_shape gdataR_canvas gdataR_group]; try discriminate; intros ? E; injection E as <-; auto with nocore.
  - destruct x as [[? ? ? ? [[ps|]|] ?]]; cbn [m_shape]; (apply g_shapeR; [exact n_para|]); cbn [shapeR_textBox]; try discriminate.
    intros ps' E. injection E as <-. clear -g_para. revert ps. fix go 1. intros [|y c]; constructor; [apply g_para|apply go].
  - destruct x as [[? ? c]]. cbn [m_canvas]. apply g_canvasR; [intros [[?]|?|[?]]; nm|]. cbn [canvasR_items].
    clear -g_citem. revert c. fix go 1. intros [|y c]; constructor; [apply g_citem|apply go].
  - destruct x as [s|p|g]; cbn [m_citem]; [apply g_shape|apply g_pic|apply g_group].
  - destruct x as [[? ? c]]. cbn [m_group]. apply g_groupR; [intros [?|[?]|[?]|?]; nm|]. cbn [groupR_elems].
    clear -g_gelem. revert c. fix go 1. intros [|y c]; constructor; [apply g_gelem|apply go].
  - destruct x as [p|s|c|[? ? ? c]]; cbn [m_gelem]; [apply g_pic|apply g_shape|apply g_canvas|].
    apply g_gshapeR; [intros [?|[?]|[?]|?]; nm|]. cbn [gshapeR_elems]. clear -g_gelem. revert c. fix go 1. intros [|y c]; constructor; [apply g_gelem|apply go].
Qed.
#[local] Hint Resolve g_para : gram.
Lemma g_cell : forall x, cf (m_cell x). Proof. unfold m_cell. gram. Qed.
#[local] Hint Resolve g_cell : gram.
Lemma g_row : forall x, cf (m_row x). Proof. unfold m_row. gram. Qed.
#[local] Hint Resolve g_row : gram.
Lemma g_table : forall x, cf (m_table x). Proof. unfold m_table. gram. Qed.
Lemma g_item : forall x, cf (m_item x).
Proof. intros [p|t|s]; cbn [m_item]; [apply g_para|apply g_table|apply g_sect]. Qed.
#[local] Hint Resolve g_item : gram.
Lemma g_document : forall (b : bool) l, cf (m_document_of (if b then doc_attrs else no_attrs) l).
Proof.
  intros b l. unfold m_document_of. eapply conf_elem; [reflexivity| |solve [kids]|].
  - destruct b; tbl.
    + unfold doc_attrs. repeat (apply af_here; [try exact I; try discriminate|]). exact af_nil.
    + unfold no_attrs. apply af_here; [exact I|]. repeat apply af_skip. exact af_nil.
  - constructor; [|constructor]. eapply conf_elem; [reflexivity|solve [atts]| |sub]. tbl. apply fit_seq. apply fit_more; [|kid]. apply named_map. intros [[?]|?|?]; nm.
Qed.
