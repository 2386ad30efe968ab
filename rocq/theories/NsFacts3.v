(** Exactly which documents are saved with all prefixes declared. *)
From Coq Require Import String Ascii List Bool Arith NArith ZArith Lia.
From Verif Require Import GoStr Num Lib Types XmlTok Marshal Unmarshal DecLemmas RoundTrip2 Reload Lex SpecLex LexFacts LexFacts3 LexFacts2 Docx Api Pack SpecPack SpecNs SpecNs2 NsFacts NsFacts2.
Import ListNotations.
Local Open Scope list_scope.
Local Open Scope string_scope.

Lemma bool_iff : forall a b, (a = true -> b = true) -> (b = true -> a = true) -> a = b.
Proof. intros [] [] A B; auto. symmetry. auto. Qed.
Lemma ok_ext : forall t s s', (forall p, s p = s' p) -> ns_ok s t = ns_ok s' t.
Proof. intros t s s' E. apply bool_iff; apply ok_wider; intros p K; congruence. Qed.
Lemma okl_ext : forall l s s', (forall p, s p = s' p) -> okl s l = okl s' l.
Proof. intros l s s' E. induction l as [|t l IH]; [reflexivity|]. cbn. unfold okt. rewrite (ok_ext t s s' E). f_equal. exact IH. Qed.
Lemma okl_app_eq : forall s a b, okl s (a ++ b)%list = (okl s a && okl s b)%bool.
Proof. intros. apply forallb_app. Qed.
Lemma okl_el_eq : forall s A (f : A -> tree) o, okl s (el f o) = opt (fun v => okt s (f v)) o.
Proof. intros s A f [v|]; [|reflexivity]. cbn. apply andb_true_r. Qed.
Lemma okl_map_eq : forall s A (f : A -> tree) l, okl s (map f l) = forallb (fun x => okt s (f x)) l.
Proof. intros s A f l. induction l; [reflexivity|]. cbn. f_equal. exact IHl. Qed.
Lemma elem_eq : forall s q a c, plain s q -> oka s a = true -> okt s (Elem q a c) = okl s c.
Proof.
  intros s q a c G A. unfold okt. rewrite ns_elem.
  assert (E : forall p, inside a s p = s p) by (intros p; unfold inside; now rewrite (nodecl s a p A)).
  assert (W : wider s (inside a s)) by (intros p K; now rewrite E).
  apply andb_prop in G as [_ G]. rewrite (usable_wider _ _ _ W G). cbn [andb].
  assert (A' : forallb (ns_attr (inside a s)) a = true).
  { eapply forallb_imp; [|exact A]. intros x _ X. now apply (plain_attr s). }
  rewrite A'. cbn [andb]. apply (okl_ext c _ _ E).
Qed.
Lemma decl_eq : forall s p l v a c, p <> "xmlns" -> p <> "" -> p <> "xml" -> oka s a = true ->
  okt s (Elem (p, l) (ato (xmlns p) v ++ a)%list c) = ((s p || named v) && okl (also p s) c)%bool.
Proof.
  intros s p l v a c N N0 N1 A. destruct (named v) eqn:V.
  - rewrite orb_true_r. cbn [andb]. apply bool_iff.
    + intros K. unfold okt in K. rewrite ns_elem in K. apply andb_prop in K as [_ K]. unfold okl. eapply forallb_imp; [|exact K]. intros x _. unfold okt.
      rewrite (ok_ext x _ (also p s)); [auto|]. intros y. unfold inside, also. unfold named in V. apply negb_true_iff in V. unfold ato. rewrite V.
      cbn [app]. unfold declares. cbn [existsb]. fold (declares a y). rewrite (nodecl s a y A). unfold xmlns. cbn [fst snd]. rewrite String.eqb_refl. cbn [andb].
      rewrite (String.eqb_sym p y). now rewrite orb_false_r.
    + intros K. now apply ok_decl.
  - unfold ato, named in *. apply negb_false_iff in V. rewrite V. cbn [app]. rewrite orb_false_r. destruct (s p) eqn:E; cbn [andb].
    + rewrite elem_eq; [|now apply plain_has|exact A]. apply okl_ext. intros x. unfold also. destruct (String.eqb x p) eqn:X; [|reflexivity].
      apply String.eqb_eq in X. subst x. now rewrite E.
    + unfold okt. rewrite ns_elem. cbn [fst]. unfold usable, inside. rewrite (nodecl s a p A), E.
      apply String.eqb_neq in N0, N1. now rewrite N0, N1.
Qed.
Ltac pl := match goal with
  | |- plain _ (nn _) => apply plain_nn
  | |- plain _ (xml_ _) => apply plain_xml
  | |- plain _ _ => assumption
  | |- plain _ (a_ _) => apply plain_has; [discriminate|assumption]
  | |- plain _ (pic_ _) => apply plain_has; [discriminate|assumption]
  | |- plain _ _ => apply plain_has; [discriminate|apply base_has; [assumption|cbn; tauto]]
  end.
Ltac oka := repeat first [exact eq_refl | apply oka_app | apply oka_at; pl | apply oka_ato; pl | apply oka_ati; pl | apply oka_atio; pl].
Lemma opt_true : forall A (f : A -> bool) o, (forall v, f v = true) -> opt f o = true.
Proof. intros A f [v|] K; [apply K|reflexivity]. Qed.
Lemma opt_ext : forall A (f g : A -> bool) o, (forall v, o = Some v -> f v = g v) -> opt f o = opt g o.
Proof. intros A f g [v|] K; [now apply K|reflexivity]. Qed.

Lemma e_frame : forall s x, base s -> okt s (m_frame x) = (s "a" || named (glocks_xmla x))%bool.
Proof.
  intros s x B. unfold m_frame. rewrite elem_eq; [|pl|reflexivity]. cbn [okl forallb]. rewrite andb_true_r. unfold a_.
  rewrite decl_eq; [|discriminate|discriminate|discriminate|oka]. apply andb_true_r.
Qed.
Lemma e_pic : forall s x, base s -> has s "a" -> s "pic" = false -> okt s (m_pic x) = nd_pic x.
Proof.
  intros s x B A P. apply bool_iff; [|now apply n_pic]. unfold m_pic. rewrite <- (app_nil_r (ato _ _)). unfold pic_ at 1.
  rewrite decl_eq; [|discriminate|discriminate|discriminate|reflexivity]. rewrite P. intros K. now apply andb_prop in K as [K _].
Qed.
Lemma e_shapeR : forall s P (m : P -> tree) x, base s -> has s "a" ->
  okt s (m_shapeR m x) = opt (opt (forallb (fun p => okt s (m p)))) (shapeR_textBox x).
Proof.
  intros s P m x B A. unfold m_shapeR. rewrite elem_eq; [|pl|reflexivity]. rewrite !okl_app_eq, !okl_el_eq.
  rewrite (opt_true _ _ (shapeR_cnvPr x)) by (intros; apply n_nonvis; first [assumption|pl]).
  rewrite (opt_true _ _ (shapeR_cnvCn x)) by (intros; now apply n_cnvcn).
  rewrite (opt_true _ _ (shapeR_cnvSp x)) by (intros; now apply n_cnvsp).
  rewrite (opt_true _ _ (shapeR_sp x)) by (intros; apply n_sppr; first [assumption|pl]).
  rewrite (opt_true _ _ (shapeR_body x)) by (intros; now apply n_bodypr).
  cbn [andb]. rewrite andb_true_r. apply opt_ext. intros v _. rewrite elem_eq; [|pl|reflexivity]. rewrite okl_el_eq. apply opt_ext. intros ps _.
  rewrite elem_eq; [|pl|reflexivity]. apply okl_map_eq.
Qed.
Lemma e_canvasR : forall s E (m : E -> tree) x, base s -> has s "a" -> okt s (m_canvasR m x) = forallb (fun e => okt s (m e)) (canvasR_items x).
Proof.
  intros s E m x B A. unfold m_canvasR. rewrite elem_eq; [|pl|reflexivity]. rewrite !okl_app_eq, !okl_el_eq, okl_map_eq.
  rewrite (opt_true _ _ (canvasR_bg x)) by (intros; apply ok_elem; [pl|reflexivity|apply okl_elb; pl]).
  rewrite (opt_true _ _ (canvasR_whole x)) by (intros; apply ok_elem; [pl|reflexivity|apply okl_el; intros; now apply n_aline]).
  reflexivity.
Qed.
Lemma e_groupR : forall s E (m : E -> tree) x, base s -> has s "a" -> okt s (m_groupR m x) = forallb (fun e => okt s (m e)) (groupR_elems x).
Proof.
  intros s E m x B A. unfold m_groupR. rewrite elem_eq; [|pl|reflexivity]. rewrite !okl_app_eq, !okl_el_eq, okl_map_eq.
  rewrite (opt_true _ _ (groupR_cnv x)) by (intros; now apply n_gcnv).
  rewrite (opt_true _ _ (groupR_sp x)) by (intros; apply n_sppr; first [assumption|pl]).
  reflexivity.
Qed.
Lemma e_gshapeR : forall s E (m : E -> tree) x, base s -> has s "a" -> okt s (m_gshapeR m x) = forallb (fun e => okt s (m e)) (gshapeR_elems x).
Proof.
  intros s E m x B A. unfold m_gshapeR. rewrite elem_eq; [|pl|reflexivity]. rewrite !okl_app_eq, !okl_el_eq, okl_map_eq.
  rewrite (opt_true _ _ (gshapeR_cnvPr x)) by (intros; apply n_nonvis; first [assumption|pl]).
  rewrite (opt_true _ _ (gshapeR_cnv x)) by (intros; now apply n_gcnv).
  rewrite (opt_true _ _ (gshapeR_sp x)) by (intros; apply n_sppr; first [assumption|pl]).
  reflexivity.
Qed.
Lemma e_gdataR : forall s Sh Ca Gr (ms : Sh -> tree) (mc : Ca -> tree) (mg : Gr -> tree) x, base s -> has s "a" -> s "pic" = false ->
  okt s (m_gdataR ms mc mg x) = (opt nd_pic (gdataR_pic x) && opt (fun y => okt s (ms y)) (gdataR_shape x) && opt (fun y => okt s (mc y)) (gdataR_canvas x) && opt (fun y => okt s (mg y)) (gdataR_group x))%bool.
Proof.
  intros s Sh Ca Gr ms mc mg x B A P. unfold m_gdataR. rewrite elem_eq; [|pl|oka]. rewrite !okl_app_eq, !okl_el_eq, <- !andb_assoc. f_equal.
  apply opt_ext. intros. now apply e_pic.
Qed.
Lemma e_graphicR : forall s D (m : D -> tree) x, okt s (m_graphicR m x) = ((s "a" || named (graphicR_xmla x)) && opt (fun d => okt (also "a" s) (m d)) (graphicR_data x))%bool.
Proof.
  intros s D m x. unfold m_graphicR. rewrite <- (app_nil_r (ato _ _)). unfold a_. rewrite decl_eq; [|discriminate|discriminate|discriminate|reflexivity]. now rewrite okl_el_eq.
Qed.
Lemma e_inlineR : forall s G (m : G -> tree) x, base s -> okt s (m_inlineR m x) =
  (opt (fun l => s "a" || named (glocks_xmla l)) (inlineR_frame x) && opt (fun g => okt s (m g)) (inlineR_graphic x))%bool.
Proof.
  intros s G m x B. unfold m_inlineR. rewrite elem_eq; [|pl|oka]. rewrite !okl_app_eq, !okl_el_eq.
  rewrite (opt_true _ _ (inlineR_extent x)) by (intros; now apply n_extent).
  rewrite (opt_true _ _ (inlineR_effect x)) by (intros; now apply n_effect).
  rewrite (opt_true _ _ (inlineR_docPr x)) by (intros; now apply n_docpr).
  cbn [andb]. f_equal. apply opt_ext. intros. now apply e_frame.
Qed.
Lemma e_anchorR : forall s G (m : G -> tree) x, base s -> okt s (m_anchorR m x) =
  (opt (fun l => s "a" || named (glocks_xmla l)) (anchorR_frame x) && opt (fun g => okt s (m g)) (anchorR_graphic x))%bool.
Proof.
  intros s G m x B. unfold m_anchorR. rewrite elem_eq; [|pl|oka]. rewrite !okl_app_eq, !okl_el_eq.
  rewrite (opt_true _ _ (anchorR_simpleXY x)) by (intros; apply n_off; first [assumption|pl]).
  rewrite (opt_true _ _ (anchorR_posH x)) by (intros; apply n_wpos; first [assumption|pl]).
  rewrite (opt_true _ _ (anchorR_posV x)) by (intros; apply n_wpos; first [assumption|pl]).
  rewrite (opt_true _ _ (anchorR_extent x)) by (intros; now apply n_extent).
  rewrite (opt_true _ _ (anchorR_effect x)) by (intros; now apply n_effect).
  rewrite (okl_elb _ _ (anchorR_wrapNone x)) by pl.
  rewrite (opt_true _ _ (anchorR_wrapSquare x)) by (intros; apply ok_elem; [pl|oka|reflexivity]).
  rewrite (opt_true _ _ (anchorR_docPr x)) by (intros; now apply n_docpr).
  cbn [andb]. f_equal. apply opt_ext. intros. now apply e_frame.
Qed.
Lemma e_runR : forall s C (m : C -> tree) x, base s -> okt s (m_runR m x) = forallb (fun c => okt s (m c)) (runR_children x).
Proof.
  intros s C m x B. unfold m_runR. rewrite elem_eq; [|pl|oka]. rewrite !okl_app_eq, okl_el_eq, okl_map_eq.
  rewrite (opt_true _ _ (runR_rpr x)) by (intros; now apply n_rpr). cbn [andb].
  destruct (String.eqb (runR_instr x) ""); [reflexivity|]. cbn [okl forallb]. rewrite ok_elem; [reflexivity|pl|reflexivity|reflexivity].
Qed.
Lemma e_paraR : forall s C (m : C -> tree) x, base s -> okt s (m_paraR m x) = forallb (fun c => okt s (m c)) (paraR_children x).
Proof.
  intros s C m x B. unfold m_paraR. rewrite elem_eq; [|pl|reflexivity]. rewrite okl_app_eq, okl_el_eq, okl_map_eq.
  rewrite (opt_true _ _ (paraR_ppr x)) by (intros; now apply n_ppr). reflexivity.
Qed.
Lemma base_also' : forall p s, base s -> base (also p s).
Proof. apply base_also. Qed.

Fixpoint e_para (x : para) : forall s, base s -> s "pic" = false -> okt s (m_para x) = dp_para x (s "a")
with e_pchild (x : pchild) : forall s, base s -> s "pic" = false -> okt s (m_pchild x) = dp_pchild x (s "a")
with e_rchild (x : rchild) : forall s, base s -> s "pic" = false -> okt s (m_rchild x) = dp_rchild x (s "a")
with e_shape (x : shape) : forall s, base s -> has s "a" -> s "pic" = false -> okt s (m_shape x) = dp_shape x
with e_canvas (x : canvas) : forall s, base s -> has s "a" -> s "pic" = false -> okt s (m_canvas x) = dp_canvas x
with e_citem (x : citem) : forall s, base s -> has s "a" -> s "pic" = false -> okt s (m_citem x) = dp_citem x
with e_group (x : group) : forall s, base s -> has s "a" -> s "pic" = false -> okt s (m_group x) = dp_group x
with e_gelem (x : gelem) : forall s, base s -> has s "a" -> s "pic" = false -> okt s (m_gelem x) = dp_gelem x.
Proof.
  - destruct x as [[p c f]]. intros s B P. cbn [m_para dp_para]. rewrite e_paraR by exact B. cbn [paraR_children].
    clear -e_pchild P B. revert c. fix go 1. intros [|y c]; [reflexivity|]. cbn [forallb]. rewrite e_pchild by assumption. f_equal. apply go.
  - intros s B P. assert (R : forall c, forallb (fun x => okt s (m_rchild x)) c = forallb (fun x => dp_rchild x (s "a")) c).
    { clear -e_rchild B P. fix go 1. intros [|y c]; [reflexivity|]. cbn [forallb]. rewrite e_rchild by assumption. f_equal. apply go. }
    destruct x as [[sp rp ins c]|id [sp rp ins c]|r]; cbn [m_pchild dp_pchild runR_children].
    + rewrite e_runR by exact B. apply R.
    + rewrite elem_eq; [|pl|oka]. cbn [okl forallb]. rewrite andb_true_r, e_runR by exact B. apply R.
    + now apply n_rpr.
  - destruct x as [t|t|ty|i a]; intros s B P; cbn [m_rchild dp_rchild]; [now apply n_text|now apply n_tab|now apply n_br|].
    assert (BA := base_also "a" s B). assert (HA := has_also "a" s). assert (PA : also "a" s "pic" = false) by exact P.
    rewrite elem_eq; [|pl|reflexivity]. rewrite okl_app_eq, !okl_el_eq. f_equal.
    + destruct i as [[d1 d2 d3 d4 d5 d6 d7 fr [[xa [[uri pc sh cv g]|]]|] fi]|]; cbn [opt]; [| | |reflexivity]; rewrite e_inlineR by exact B;
        cbn [opt inlineR_frame inlineR_graphic]; f_equal; rewrite ?e_graphicR; cbn [opt graphicR_xmla graphicR_data]; try reflexivity. f_equal.
      rewrite e_gdataR by assumption. cbn [gdataR_pic gdataR_shape gdataR_canvas gdataR_group]. f_equal; [f_equal; [f_equal|]|].
      * destruct sh as [sh|]; [|reflexivity]. cbn [opt]. now apply e_shape.
      * destruct cv as [cv|]; [|reflexivity]. cbn [opt]. now apply e_canvas.
      * destruct g as [g|]; [|reflexivity]. cbn [opt]. now apply e_group.
    + destruct a as [[d1 d2 d3 d4 d5 d6 d7 d8 d9 d10 d11 d12 d13 d14 d15 d16 d17 d18 d19 [[xa [[uri pc sh cv g]|]]|] fi]|]; cbn [opt]; [| | |reflexivity]; rewrite e_anchorR by exact B;
        cbn [opt anchorR_frame anchorR_graphic]; f_equal; rewrite ?e_graphicR; cbn [opt graphicR_xmla graphicR_data]; try reflexivity. f_equal.
      rewrite e_gdataR by assumption. cbn [gdataR_pic gdataR_shape gdataR_canvas gdataR_group]. f_equal; [f_equal; [f_equal|]|].
      * destruct sh as [sh|]; [|reflexivity]. cbn [opt]. now apply e_shape.
      * destruct cv as [cv|]; [|reflexivity]. cbn [opt]. now apply e_canvas.
      * destruct g as [g|]; [|reflexivity]. cbn [opt]. now apply e_group.
  - destruct x as [[? ? ? ? [[ps|]|] ?]]; intros s B A P; cbn [m_shape dp_shape shapeR_textBox opt]; rewrite e_shapeR by assumption; cbn [shapeR_textBox opt]; try reflexivity.
    clear -e_para A B P. revert ps. fix go 1. intros [|y c]; [reflexivity|]. cbn [forallb]. rewrite e_para by assumption. rewrite A. f_equal. apply go.
  - destruct x as [[? ? c]]; intros s B A P; cbn [m_canvas dp_canvas canvasR_items]. rewrite e_canvasR by assumption. cbn [canvasR_items].
    clear -e_citem B A P. revert c. fix go 1. intros [|y c]; [reflexivity|]. cbn [forallb]. rewrite e_citem by assumption. f_equal. apply go.
  - destruct x as [sh|p|g]; intros s B A P; cbn [m_citem dp_citem]; [now apply e_shape|now apply e_pic|now apply e_group].
  - destruct x as [[? ? c]]; intros s B A P; cbn [m_group dp_group groupR_elems]. rewrite e_groupR by assumption. cbn [groupR_elems].
    clear -e_gelem B A P. revert c. fix go 1. intros [|y c]; [reflexivity|]. cbn [forallb]. rewrite e_gelem by assumption. f_equal. apply go.
  - destruct x as [p|sh|c|[? ? ? c]]; intros s B A P; cbn [m_gelem dp_gelem gshapeR_elems]; [now apply e_pic|now apply e_shape|now apply e_canvas|].
    rewrite e_gshapeR by assumption. cbn [gshapeR_elems]. clear -e_gelem B A P. revert c. fix go 1. intros [|y c]; [reflexivity|]. cbn [forallb]. rewrite e_gelem by assumption. f_equal. apply go.
Qed.
Lemma e_item : forall x s, base s -> s "pic" = false -> s "a" = false -> okt s (m_item x) = dp_item x.
Proof.
  intros [p|t|x] s B P A; cbn [m_item dp_item]; [rewrite <- A; now apply e_para| |now apply n_sect].
  unfold m_table. rewrite elem_eq; [|pl|reflexivity]. rewrite !okl_app_eq, !okl_el_eq, okl_map_eq.
  rewrite (opt_true _ _ (table_props t)) by (intros; now apply n_tblpr). rewrite (opt_true _ _ (table_grid t)) by (intros; now apply n_grid). cbn [andb].
  induction (table_rows t) as [|r l IH]; [reflexivity|]. cbn [forallb]. f_equal; [|exact IH]. clear IH.
  unfold m_row. rewrite elem_eq; [|pl|reflexivity]. rewrite !okl_app_eq, !okl_el_eq, okl_map_eq. rewrite (opt_true _ _ (row_props r)) by (intros; now apply n_trpr). cbn [andb].
  induction (row_cells r) as [|c k IH]; [reflexivity|]. cbn [forallb]. f_equal; [|exact IH]. clear IH.
  unfold m_cell. rewrite elem_eq; [|pl|reflexivity]. rewrite !okl_app_eq, !okl_el_eq, okl_map_eq. rewrite (opt_true _ _ (cell_props c)) by (intros; now apply n_tcpr). cbn [andb].
  induction (cell_paras c) as [|p k' IH]; [reflexivity|]. cbn [forallb]. f_equal; [|exact IH]. rewrite <- A. now apply e_para.
Qed.
Lemma e_document : forall (b : bool) l, ns_ok nowhere (m_document_of (if b then doc_attrs else no_attrs) l) = (b && forallb dp_item l)%bool.
Proof.
  intros b l. unfold m_document_of. destruct b; [|reflexivity]. rewrite ns_elem. set (s := inside doc_attrs nowhere).
  assert (B : base s) by (repeat constructor).
  change (usable s (fst (w "document"))) with true. change (forallb (ns_attr s) doc_attrs) with true. cbn [andb].
  change (okl s [Elem (w "body") [] (map m_item l)] = forallb dp_item l). cbn [okl forallb]. rewrite andb_true_r, elem_eq; [|pl|reflexivity]. rewrite okl_map_eq.
  induction l as [|x l IH]; [reflexivity|]. cbn [forallb]. f_equal; [|exact IH]. now apply e_item.
Qed.

(** ** bytes *)
Lemma clean_back : forall t t', cleaned_tree t t' -> forall s, ns_ok s t' = true -> ns_ok s t = true.
Proof.
  induction t as [q a c F|x|] using tree_ind'; intros t' C s N; [|reflexivity|reflexivity]. inversion C as [? ? a' ? c' FA FC|]; subst.
  rewrite ns_elem in *. assert (W : wider (inside a' s) (inside a s)) by (intros p; unfold inside; now rewrite (clean_declares _ _ FA)).
  apply andb_prop in N as [N N3]. apply andb_prop in N as [N1 N2]. rewrite (usable_wider _ _ _ W N1). cbn [andb]. apply andb_true_intro. split.
  - clear - FA N2 W. set (s1 := inside a s) in *. set (s2 := inside a' s) in *. clearbody s1 s2. induction FA as [|x y a a' [E K] FA IH]; [reflexivity|]. cbn [forallb] in *.
    apply andb_prop in N2 as [N N2]. rewrite IH by exact N2. rewrite andb_true_r. destruct x as [q v], y as [q' v']. cbn [fst snd] in *. subst q'. unfold ns_attr in *. cbn [fst snd] in *.
    destruct (String.eqb (fst q) "xmlns"); [|now apply (usable_wider s2)]. destruct K as (_ & K & _). apply negb_true_iff in N. apply negb_true_iff. apply String.eqb_neq in N. apply String.eqb_neq.
    intros ->. apply N. apply K. exists []; auto.
  - clear - F FC N3 W. set (s1 := inside a s) in *. set (s2 := inside a' s) in *. clearbody s1 s2. induction FC as [|x y c c' K FC IH]; [reflexivity|]. cbn [forallb] in *.
    apply andb_prop in N3 as [N N3]. inversion F as [|? ? F1 F2]; subst. rewrite (ok_wider _ _ _ W (F1 _ K _ N)). now apply IH.
Qed.
Lemma declared_exactly : forall d s, part_of d DOC_NAME s -> (ns_tokens [] (lex s) = true <-> d_ns d = true /\ forallb dp_item (d_items d) = true).
Proof.
  intros d s P. inversion P; subst; try congruence. rewrite <- andb_true_iff, <- e_document.
  destruct (lex_write_any (m_document_of (if d_ns d then doc_attrs else no_attrs) (d_items d))) as (t' & C & E); [unfold m_document_of; eauto|apply ok_document_of|].
  rewrite E. cbn [ns_tokens]. rewrite <- (ns_bottom _ []). cbn [app]. rewrite <- (app_nil_r (toks t')). split.
  - intros K. apply (clean_back _ _ C). now apply ns_toks_conv in K as [K _].
  - intros K. rewrite (ns_toks t' nowhere [] (clean_ns _ _ C _ K)). reflexivity.
Qed.
