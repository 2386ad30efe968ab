(** What the encoder produces can be written and read back as XML. *)
From Coq Require Import String Ascii List Bool Arith NArith ZArith Lia.
From Verif Require Import GoStr Num Lib Types XmlTok Marshal Unmarshal DecLemmas RoundTrip2 Reload Lex SpecLex LexFacts LexFacts3.
Import ListNotations.
Local Open Scope list_scope.
Local Open Scope string_scope.

Definition oka (l : list attr) : bool := forallb (fun x => good_name (fst x)) l.
Definition okt (t : tree) : bool := (match t with Elem _ _ _ => true | _ => false end) && good_shape t.
Definition okl (l : list tree) : bool := forallb okt l.
Definition okk (l : list tree) : bool := texts_apart l && forallb good_shape l.

Lemma okl_okk : forall l, okl l = true -> okk l = true.
Proof.
  unfold okl, okk. induction l as [|t l IH]; intros H; [reflexivity|]. cbn [forallb] in *. apply andb_prop in H as [H1 H2].
  unfold okt in H1. apply andb_prop in H1 as [E G]. destruct t; try discriminate E. cbn [texts_apart]. apply IH in H2. apply andb_prop in H2 as [A B].
  now rewrite A, B, G.
Qed.
Lemma ok_elem : forall q a c, good_name q = true -> oka a = true -> okk c = true -> okt (Elem q a c) = true.
Proof.
  intros q a c G A K. unfold okt. rewrite shape_elem. unfold okk in K. apply andb_prop in K as [K1 K2].
  rewrite G, K1, K2. unfold oka in A. now rewrite A.
Qed.
Lemma okl_app : forall a b, okl a = true -> okl b = true -> okl (a ++ b)%list = true.
Proof. intros. unfold okl in *. rewrite forallb_app. now rewrite H, H0. Qed.
Lemma okl_cons : forall a b, okt a = true -> okl b = true -> okl (a :: b)%list = true.
Proof. intros. unfold okl in *. cbn [forallb]. now rewrite H, H0. Qed.
Lemma okl_el : forall A (f : A -> tree) x, (forall v, okt (f v) = true) -> okl (el f x) = true.
Proof. intros A f [v|] H; [|reflexivity]. cbn [el]. apply okl_cons; auto. Qed.
Lemma okl_elb : forall q b, good_name q = true -> okl (elb q b) = true.
Proof. intros q [] G; [|reflexivity]. cbn [elb]. apply okl_cons; auto. apply ok_elem; auto. Qed.
Lemma okl_map : forall A (f : A -> tree) l, Forall (fun x => okt (f x) = true) l -> okl (map f l) = true.
Proof. intros A f l F. induction F; [reflexivity|]. cbn [map]. apply okl_cons; auto. Qed.
Lemma okl_map' : forall A (f : A -> tree) l, (forall x, okt (f x) = true) -> okl (map f l) = true.
Proof. intros A f l F. apply okl_map. induction l; auto. Qed.
Lemma okl_flat : forall A (f : A -> list tree) l, (forall x, okl (f x) = true) -> okl (flat_map f l) = true.
Proof. intros A f l F. induction l; [reflexivity|]. cbn [flat_map]. apply okl_app; auto. Qed.
Lemma okk_chr : forall s, okk (chr s) = true.
Proof. intros s. unfold chr. destruct (String.eqb s "") eqn:E; [reflexivity|]. unfold okk. cbn. now rewrite E. Qed.
Lemma okk_one : forall s, s <> "" -> okk [Chr s] = true.
Proof. intros s N. unfold okk. cbn. apply String.eqb_neq in N. now rewrite N. Qed.
Lemma oka_app : forall a b, oka a = true -> oka b = true -> oka (a ++ b)%list = true.
Proof. intros. unfold oka in *. rewrite forallb_app. apply andb_true_intro. split; assumption. Qed.
Lemma oka_at : forall q v, good_name q = true -> oka (at_ q v) = true.
Proof. intros q v G. unfold oka, at_. cbn. now rewrite G. Qed.
Lemma oka_ato : forall q v, good_name q = true -> oka (ato q v) = true.
Proof. intros q v G. unfold oka, ato. destruct (String.eqb v ""); cbn; now rewrite ?G. Qed.
Lemma oka_ati : forall q v, good_name q = true -> oka (ati q v) = true.
Proof. intros q v G. unfold oka, ati. cbn. now rewrite G. Qed.
Lemma oka_atio : forall q v, good_name q = true -> oka (atio q v) = true.
Proof. intros q v G. unfold oka, atio. destruct (Z.eqb (iv v) 0); cbn; now rewrite ?G. Qed.
#[local] Hint Extern 1 (good_name _ = true) => reflexivity : oks.
#[local] Hint Opaque oka okt okl okk good_name : oks.
Ltac oks := intros; cbv beta; repeat match goal with
  | |- forall _, _ => intros
  | |- good_name _ = true => first [assumption | reflexivity]
  | |- okt (Elem _ _ _) = true => apply ok_elem
  | |- okt _ = true => solve [auto with oks nocore]
  | |- okl nil = true => exact eq_refl
  | |- okl (cons _ _) = true => apply okl_cons
  | |- okl (app _ _) = true => apply okl_app
  | |- okl (el _ _) = true => apply okl_el
  | |- okl (elb _ _) = true => apply okl_elb
  | H : Forall _ ?l |- okl (map _ ?l) = true => apply okl_map; exact H
  | |- okl (map _ _) = true => apply okl_map'
  | |- okl (flat_map _ _) = true => apply okl_flat
  | |- okk nil = true => exact eq_refl
  | |- okk (chr _) = true => apply okk_chr
  | |- okk (cons (Chr _) nil) = true => apply okk_one, itoa_nonempty
  | |- okk _ = true => apply okl_okk
  | |- oka nil = true => exact eq_refl
  | |- oka (app _ _) = true => apply oka_app
  | |- oka (at_ _ _) = true => apply oka_at
  | |- oka (ato _ _) = true => apply oka_ato
  | |- oka (ati _ _) = true => apply oka_ati
  | |- oka (atio _ _) = true => apply oka_atio
  end.
Lemma ok_val_el : forall q v, good_name q = true -> okt (val_el q v) = true. Proof. unfold val_el. oks. Qed.
Lemma ok_val_elo : forall q v, good_name q = true -> okt (val_elo q v) = true. Proof. unfold val_elo. oks. Qed.
Lemma ok_val_eli : forall q v, good_name q = true -> okt (val_eli q v) = true. Proof. unfold val_eli. oks. Qed.
#[local] Hint Resolve ok_val_el ok_val_elo ok_val_eli : oks.
Lemma ok_rfonts : forall x, okt (m_rfonts x) = true. Proof. unfold m_rfonts. oks. Qed.
#[local] Hint Resolve ok_rfonts : oks.
Lemma ok_spacing : forall x, okt (m_spacing x) = true. Proof. unfold m_spacing. oks. Qed.
#[local] Hint Resolve ok_spacing : oks.
Lemma ok_ind : forall x, okt (m_ind x) = true. Proof. unfold m_ind. oks. Qed.
#[local] Hint Resolve ok_ind : oks.
Lemma ok_shade : forall x, okt (m_shade x) = true. Proof. unfold m_shade. oks. Qed.
#[local] Hint Resolve ok_shade : oks.
Lemma ok_rpr : forall x, okt (m_rpr x) = true. Proof. unfold m_rpr. oks. Qed.
#[local] Hint Resolve ok_rpr : oks.
Lemma ok_tab : forall x, okt (m_tab x) = true. Proof. unfold m_tab. oks. Qed.
#[local] Hint Resolve ok_tab : oks.
Lemma ok_tabs : forall x, okt (m_tabs x) = true. Proof. unfold m_tabs. oks. Qed.
#[local] Hint Resolve ok_tabs : oks.
Lemma ok_numpr : forall x, okt (m_numpr x) = true. Proof. unfold m_numpr. oks. Qed.
#[local] Hint Resolve ok_numpr : oks.
Lemma ok_ppr : forall x, okt (m_ppr x) = true. Proof. unfold m_ppr. oks. Qed.
#[local] Hint Resolve ok_ppr : oks.
Lemma ok_text : forall x, okt (m_text x) = true. Proof. unfold m_text. oks. Qed.
#[local] Hint Resolve ok_text : oks.
Lemma ok_br : forall x, okt (m_br x) = true. Proof. unfold m_br. oks. Qed.
#[local] Hint Resolve ok_br : oks.
Lemma ok_extent : forall x, okt (m_extent x) = true. Proof. unfold m_extent. oks. Qed.
#[local] Hint Resolve ok_extent : oks.
Lemma ok_effect : forall x, okt (m_effect x) = true. Proof. unfold m_effect. oks. Qed.
#[local] Hint Resolve ok_effect : oks.
Lemma ok_docpr : forall x, okt (m_docpr x) = true. Proof. unfold m_docpr. oks. Qed.
#[local] Hint Resolve ok_docpr : oks.
Lemma ok_frame : forall x, okt (m_frame x) = true. Proof. unfold m_frame. oks. Qed.
#[local] Hint Resolve ok_frame : oks.
Lemma ok_nonvis : forall q x, good_name q = true -> okt (m_nonvis q x) = true. Proof. unfold m_nonvis. oks. Qed.
#[local] Hint Resolve ok_nonvis : oks.
Lemma ok_nvpic : forall x, okt (m_nvpic x) = true. Proof. unfold m_nvpic. oks. Qed.
#[local] Hint Resolve ok_nvpic : oks.
Lemma ok_ablip : forall x, okt (m_ablip x) = true. Proof. unfold m_ablip. oks. Qed.
#[local] Hint Resolve ok_ablip : oks.
Lemma ok_picblip : forall x, okt (m_picblip x) = true. Proof. unfold m_picblip. oks. Qed.
#[local] Hint Resolve ok_picblip : oks.
Lemma ok_off : forall q x, good_name q = true -> okt (m_off q x) = true. Proof. unfold m_off. oks. Qed.
#[local] Hint Resolve ok_off : oks.
Lemma ok_ext : forall q x, good_name q = true -> okt (m_ext q x) = true. Proof. unfold m_ext. oks. Qed.
#[local] Hint Resolve ok_ext : oks.
Lemma ok_xfrm : forall x, okt (m_xfrm x) = true. Proof. unfold m_xfrm. oks. Qed.
#[local] Hint Resolve ok_xfrm : oks.
Lemma ok_geom : forall x, okt (m_geom x) = true. Proof. unfold m_geom. oks. Qed.
#[local] Hint Resolve ok_geom : oks.
Lemma ok_picsp : forall x, okt (m_picsp x) = true. Proof. unfold m_picsp. oks. Qed.
#[local] Hint Resolve ok_picsp : oks.
Lemma ok_pic : forall x, okt (m_pic x) = true. Proof. unfold m_pic. oks. Qed.
#[local] Hint Resolve ok_pic : oks.
Lemma ok_solid : forall x, okt (m_solid x) = true. Proof. unfold m_solid. oks. Qed.
#[local] Hint Resolve ok_solid : oks.
Lemma ok_lend : forall q x, good_name q = true -> okt (m_lend q x) = true. Proof. unfold m_lend. oks. Qed.
#[local] Hint Resolve ok_lend : oks.
Lemma ok_aline : forall x, okt (m_aline x) = true. Proof. unfold m_aline. oks. Qed.
#[local] Hint Resolve ok_aline : oks.
Lemma ok_tile : forall x, okt (m_tile x) = true. Proof. unfold m_tile. oks. Qed.
#[local] Hint Resolve ok_tile : oks.
Lemma ok_blipfill : forall x, okt (m_blipfill x) = true. Proof. unfold m_blipfill. oks. Qed.
#[local] Hint Resolve ok_blipfill : oks.
Lemma ok_sppr : forall q x, good_name q = true -> okt (m_sppr q x) = true. Proof. unfold m_sppr. oks. Qed.
#[local] Hint Resolve ok_sppr : oks.
Lemma ok_cnvcn : forall x, okt (m_cnvcn x) = true. Proof. unfold m_cnvcn. oks. Qed.
#[local] Hint Resolve ok_cnvcn : oks.
Lemma ok_cnvsp : forall x, okt (m_cnvsp x) = true. Proof. unfold m_cnvsp. oks. Qed.
#[local] Hint Resolve ok_cnvsp : oks.
Lemma ok_bodypr : forall x, okt (m_bodypr x) = true. Proof. unfold m_bodypr. oks. Qed.
#[local] Hint Resolve ok_bodypr : oks.
Lemma ok_gcnv : forall x, okt (m_gcnv x) = true. Proof. unfold m_gcnv. oks. Qed.
#[local] Hint Resolve ok_gcnv : oks.
Lemma ok_border : forall q x, good_name q = true -> okt (m_border q x) = true. Proof. unfold m_border. oks. Qed.
#[local] Hint Resolve ok_border : oks.
Lemma ok_borders : forall q x, good_name q = true -> okt (m_borders q x) = true. Proof. unfold m_borders. oks. Qed.
#[local] Hint Resolve ok_borders : oks.
Lemma ok_wtype : forall q x, good_name q = true -> okt (m_wtype q x) = true. Proof. unfold m_wtype. oks. Qed.
#[local] Hint Resolve ok_wtype : oks.
Lemma ok_tblpos : forall x, okt (m_tblpos x) = true. Proof. unfold m_tblpos. oks. Qed.
#[local] Hint Resolve ok_tblpos : oks.
Lemma ok_look : forall x, okt (m_look x) = true. Proof. unfold m_look. oks. Qed.
#[local] Hint Resolve ok_look : oks.
Lemma ok_tblpr : forall x, okt (m_tblpr x) = true. Proof. unfold m_tblpr. oks. Qed.
#[local] Hint Resolve ok_tblpr : oks.
Lemma ok_grid : forall x, okt (m_grid x) = true. Proof. unfold m_grid. oks. Qed.
#[local] Hint Resolve ok_grid : oks.
Lemma ok_trheight : forall x, okt (m_trheight x) = true. Proof. unfold m_trheight. oks. Qed.
#[local] Hint Resolve ok_trheight : oks.
Lemma ok_trpr : forall x, okt (m_trpr x) = true. Proof. unfold m_trpr. oks. Qed.
#[local] Hint Resolve ok_trpr : oks.
Lemma ok_tcpr : forall x, okt (m_tcpr x) = true. Proof. unfold m_tcpr. oks. Qed.
#[local] Hint Resolve ok_tcpr : oks.
Lemma ok_sect : forall x, okt (m_sect x) = true. Proof. unfold m_sect. oks. Qed.
#[local] Hint Resolve ok_sect : oks.
Lemma ok_wpos : forall q x, good_name q = true -> okt (m_wpos q x) = true. Proof. unfold m_wpos. oks. Qed.
#[local] Hint Resolve ok_wpos : oks.

(** ** the recursive types *)
Lemma ok_shapeR : forall P (m : P -> tree) x, (forall ps, shapeR_textBox x = Some (Some ps) -> Forall (fun p => okt (m p) = true) ps) -> okt (m_shapeR m x) = true.
Proof.
  intros P m x H. unfold m_shapeR. apply ok_elem; [reflexivity|reflexivity|]. apply okl_okk.
  repeat apply okl_app; try (oks; fail).
  destruct (shapeR_textBox x) as [[ps|]|] eqn:E; cbn [el]; [|reflexivity|reflexivity].
  apply okl_cons; [|reflexivity]. apply ok_elem; [reflexivity|reflexivity|]. apply okl_okk. apply okl_cons; [|reflexivity].
  apply ok_elem; [reflexivity|reflexivity|]. apply okl_okk. apply okl_map. now apply H.
Qed.
Lemma ok_canvasR : forall E (m : E -> tree) x, Forall (fun e => okt (m e) = true) (canvasR_items x) -> okt (m_canvasR m x) = true.
Proof. intros E m x H. unfold m_canvasR. oks. Qed.
Lemma ok_groupR : forall E (m : E -> tree) x, Forall (fun e => okt (m e) = true) (groupR_elems x) -> okt (m_groupR m x) = true.
Proof. intros E m x H. unfold m_groupR. oks. Qed.
Lemma ok_gshapeR : forall E (m : E -> tree) x, Forall (fun e => okt (m e) = true) (gshapeR_elems x) -> okt (m_gshapeR m x) = true.
Proof. intros E m x H. unfold m_gshapeR. oks. Qed.
Lemma ok_gdataR : forall Sh Ca Gr (ms : Sh -> tree) (mc : Ca -> tree) (mg : Gr -> tree) x,
  (forall s, gdataR_shape x = Some s -> okt (ms s) = true) -> (forall s, gdataR_canvas x = Some s -> okt (mc s) = true) ->
  (forall s, gdataR_group x = Some s -> okt (mg s) = true) -> okt (m_gdataR ms mc mg x) = true.
Proof.
  intros Sh Ca Gr ms mc mg x H1 H2 H3. unfold m_gdataR. apply ok_elem; [reflexivity|oks|]. apply okl_okk.
  repeat apply okl_app; [oks|destruct (gdataR_shape x)|destruct (gdataR_canvas x)|destruct (gdataR_group x)]; cbn [el]; auto; apply okl_cons; auto.
Qed.
Lemma ok_graphicR : forall D (m : D -> tree) x, (forall d, graphicR_data x = Some d -> okt (m d) = true) -> okt (m_graphicR m x) = true.
Proof.
  intros D m x H. unfold m_graphicR. apply ok_elem; [reflexivity|oks|]. apply okl_okk. destruct (graphicR_data x); cbn [el]; auto. apply okl_cons; auto.
Qed.
Lemma ok_inlineR : forall G (m : G -> tree) x, (forall g, inlineR_graphic x = Some g -> okt (m g) = true) -> okt (m_inlineR m x) = true.
Proof.
  intros D m x H. unfold m_inlineR. apply ok_elem; [reflexivity|oks|]. apply okl_okk. repeat apply okl_app; try (oks; fail).
  destruct (inlineR_graphic x); cbn [el]; auto. apply okl_cons; auto.
Qed.
Lemma ok_anchorR : forall G (m : G -> tree) x, (forall g, anchorR_graphic x = Some g -> okt (m g) = true) -> okt (m_anchorR m x) = true.
Proof.
  intros D m x H. unfold m_anchorR. apply ok_elem; [reflexivity|oks|]. apply okl_okk. repeat apply okl_app; try (oks; fail).
  destruct (anchorR_graphic x); cbn [el]; auto. apply okl_cons; auto.
Qed.
Lemma ok_runR : forall C (m : C -> tree) x, Forall (fun c => okt (m c) = true) (runR_children x) -> okt (m_runR m x) = true.
Proof.
  intros C m x H. unfold m_runR. apply ok_elem; [reflexivity|oks|]. apply okl_okk. repeat apply okl_app; [oks| |now apply okl_map].
  destruct (String.eqb (runR_instr x) "") eqn:E; [reflexivity|]. apply okl_cons; [|reflexivity]. apply ok_elem; [reflexivity|reflexivity|].
  apply okk_one. now apply String.eqb_neq.
Qed.
Lemma ok_paraR : forall C (m : C -> tree) x, Forall (fun c => okt (m c) = true) (paraR_children x) -> okt (m_paraR m x) = true.
Proof. intros C m x H. unfold m_paraR. oks. Qed.

Lemma ok_gd : forall x : gdataR shape canvas group,
  (forall s, okt (m_shape s) = true) -> (forall s, okt (m_canvas s) = true) -> (forall s, okt (m_group s) = true) ->
  okt (m_gdataR m_shape m_canvas m_group x) = true.
Proof. intros. apply ok_gdataR; auto. Qed.

Fixpoint ok_para (x : para) : okt (m_para x) = true
with ok_pchild (x : pchild) : okt (m_pchild x) = true
with ok_rchild (x : rchild) : okt (m_rchild x) = true
with ok_shape (x : shape) : okt (m_shape x) = true
with ok_canvas (x : canvas) : okt (m_canvas x) = true
with ok_citem (x : citem) : okt (m_citem x) = true
with ok_group (x : group) : okt (m_group x) = true
with ok_gelem (x : gelem) : okt (m_gelem x) = true.
Proof.
  - destruct x as [[p c f]]. cbn [m_para]. apply ok_paraR. cbn [paraR_children].
    clear -ok_pchild. revert c. fix go 1. intros [|y c]; constructor; [apply ok_pchild|apply go].
  - assert (R : forall c, Forall (fun x => okt (m_rchild x) = true) c).
    { clear -ok_rchild. fix go 1. intros [|y c]; constructor; [apply ok_rchild|apply go]. }
    destruct x as [[sp rp ins c]|id [sp rp ins c]|r]; cbn [m_pchild].
    + apply ok_runR. apply R.
    + oks. apply ok_runR. apply R.
    + apply ok_rpr.
  - destruct x as [t|t|ty|i a]; cbn [m_rchild]; [apply ok_text|apply ok_tab|apply ok_br|].
    apply ok_elem; [reflexivity|reflexivity|]. apply okl_okk. apply okl_app.
    + destruct i as [[? ? ? ? ? ? ? ? [[xa [[uri pc [s|] [cv|] [g|]]|]]|] ?]|]; cbn [el]; try reflexivity; (apply okl_cons; [|reflexivity]);
      apply ok_inlineR; cbn [inlineR_graphic]; try discriminate; intros ? E; injection E as <-;
      apply ok_graphicR; cbn [graphicR_data]; try discriminate; intros ? E; injection E as <-;
      apply ok_gdataR; cbn [gdataR_shape gdataR_canvas gdataR_group]; try discriminate; intros ? E; injection E as <-; auto with nocore.
    + destruct a as [[? ? ? ? ? ? ? ? ? ? ? ? ? ? ? ? ? ? ? [[xa [[uri pc [s|] [cv|] [g|]]|]]|] ?]|]; cbn [el]; try reflexivity; (apply okl_cons; [|reflexivity]);
      apply ok_anchorR; cbn [anchorR_graphic]; try discriminate; intros ? E; injection E as <-;
      apply ok_graphicR; cbn [graphicR_data]; try discriminate; intros ? E; injection E as <-;
      apply ok_gdataR; cbn [gdataR_shape gdataR_canvas gdataR_group]; try discriminate; intros ? E; injection E as <-; auto with nocore.
  - destruct x as [[? ? ? ? [[ps|]|] ?]]; cbn [m_shape]; apply ok_shapeR; cbn [shapeR_textBox]; try discriminate.
    intros ps' E. injection E as <-. clear -ok_para. revert ps. fix go 1. intros [|y c]; constructor; [apply ok_para|apply go].
  - destruct x as [[? ? c]]. cbn [m_canvas]. apply ok_canvasR. cbn [canvasR_items].
    clear -ok_citem. revert c. fix go 1. intros [|y c]; constructor; [apply ok_citem|apply go].
  - destruct x as [s|p|g]; cbn [m_citem]; [apply ok_shape|apply ok_pic|apply ok_group].
  - destruct x as [[? ? c]]. cbn [m_group]. apply ok_groupR. cbn [groupR_elems].
    clear -ok_gelem. revert c. fix go 1. intros [|y c]; constructor; [apply ok_gelem|apply go].
  - destruct x as [p|s|c|[? ? ? c]]; cbn [m_gelem]; [apply ok_pic|apply ok_shape|apply ok_canvas|].
    apply ok_gshapeR. cbn [gshapeR_elems]. clear -ok_gelem. revert c. fix go 1. intros [|y c]; constructor; [apply ok_gelem|apply go].
Qed.

#[local] Hint Resolve ok_para : oks.
Lemma ok_cell : forall x, okt (m_cell x) = true. Proof. unfold m_cell. oks. Qed.
#[local] Hint Resolve ok_cell : oks.
Lemma ok_row : forall x, okt (m_row x) = true. Proof. unfold m_row. oks. Qed.
#[local] Hint Resolve ok_row : oks.
Lemma ok_table : forall x, okt (m_table x) = true. Proof. unfold m_table. oks. Qed.
Lemma ok_item : forall x, okt (m_item x) = true.
Proof. intros [p|t|s]; cbn [m_item]; [apply ok_para|apply ok_table|apply ok_sect]. Qed.
#[local] Hint Resolve ok_item : oks.
Lemma ok_document_of : forall (b : bool) l, good_shape (m_document_of (if b then doc_attrs else no_attrs) l) = true.
Proof.
  intros b l. assert (K : okt (m_document_of (if b then doc_attrs else no_attrs) l) = true).
  { unfold m_document_of. apply ok_elem; [reflexivity|destruct b; reflexivity|]. oks. }
  unfold okt in K. now apply andb_prop in K as [_ K].
Qed.
Lemma ok_document : forall l, good_shape (m_document l) = true.
Proof. exact (ok_document_of true). Qed.
Lemma write_document : forall l, exists t', cleaned_tree (m_document l) t' /\ lex (write_xml (m_document l)) = (TMisc :: TChar (String "010" "") :: toks t')%list.
Proof. intros l. apply lex_write_any; [unfold m_document, m_document_of; eauto|apply ok_document]. Qed.
Lemma read_document_of : forall (L : GoLib) f (b : bool) l, Forall xml_string (values (m_document_of (if b then doc_attrs else no_attrs) l)) ->
  parse_document f (lex (write_xml (m_document_of (if b then doc_attrs else no_attrs) l))) = (map (reload_item f) l, SOk).
Proof.
  intros L f b l V. rewrite lex_write; [|unfold m_document_of; eauto|apply ok_document_of|assumption].
  pose proof (parse_marshal_around f (if b then doc_attrs else no_attrs) l [TMisc; TChar (String "010" "")] [] ltac:(constructor; [now left|]; constructor; [right; eexists; reflexivity|constructor])) as E.
  rewrite app_nil_r in E. exact E.
Qed.
Lemma read_document : forall (L : GoLib) f l, Forall xml_string (values (m_document l)) ->
  parse_document f (lex (write_xml (m_document l))) = (map (reload_item f) l, SOk).
Proof. intros L f l. exact (read_document_of L f true l). Qed.
