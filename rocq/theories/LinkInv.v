(** No call puts a drawing into a hyperlink. *)
From Coq Require Import String Ascii List Bool Arith NArith ZArith.
From Verif Require Import GoStr Num Lib Types Docx Api Keep Copy Pack History RegFacts SpecApi ApiFacts HistFacts HistFacts2 DrawIds.
Import ListNotations.
Local Open Scope list_scope.
Local Open Scope string_scope.

Section Inv.
Context `{GoLib}.
Definition P (c : rchild) : Prop := match c with RDraw _ _ => False | _ => True end.
Definition run_all (r : run) : Prop := Forall P (runR_children r).
Definition pchild_all (c : pchild) : Prop := match c with PRun r => True | PLink _ r => run_all r | PRPr _ => True end.
Definition para_all (p : para) : Prop := Forall pchild_all (para_children p).
Definition cell_all (c : cell) : Prop := Forall para_all (cell_paras c).
Definition row_all (r : row) : Prop := Forall cell_all (row_cells r).
Definition item_all (x : item) : Prop := match x with IPara p => para_all p | ITable t => Forall row_all (table_rows t) | ISect _ => True end.
Definition docx_all (d : docx) : Prop := Forall item_all (d_items d).
Definition world_all (w : world) : Prop := Forall docx_all w.
(** what a call brings in from outside *)
Definition brings (o : op) : Prop :=
  match o with
  | OLoad l _ => Forall item_all l
  | OParse a => forall n d, unpack n a = Ok d -> docx_all d
  | _ => True
  end.

Lemma P_text : forall t, P (RText t). Proof. exact (fun _ => I). Qed.
Lemma P_tab : forall t, P (RTab t). Proof. exact (fun _ => I). Qed.
Lemma P_br : forall t, P (RBr t). Proof. exact (fun _ => I). Qed.
Lemma P_size : forall anch sw sh c c', child_size anch sw sh c = Ok c' -> P c -> P c'.
Proof. intros anch sw sh [t|t|t|i a] c' E K; try contradiction; cbn in E; inversion E; exact I. Qed.
Lemma P_copy : forall to c w w' c', copy_rchild to c w = Ok (w', c') -> P c -> P c'.
Proof. intros to [t|t|t|i a] w w' c' E K; try contradiction; cbn in E; inversion E; exact I. Qed.
Lemma set_nth_all : forall A (Q : A -> Prop) l k x, Forall Q l -> Q x -> Forall Q (set_nth l k x).
Proof. induction l as [|y l IH]; intros [|k] x F q; cbn [set_nth]; inversion F; subst; auto. Qed.
Lemma nth_all : forall A (Q : A -> Prop) l k x, Forall Q l -> nth_error l k = Some x -> Q x.
Proof. intros A Q l k x F E. rewrite Forall_forall in F. apply F. eapply nth_error_In; eauto. Qed.
Lemma keep_all : forall A (Q : A -> Prop) ty names l, Forall Q l -> Forall Q (keep_named ty names l).
Proof. intros A Q ty names l F. induction F as [|x l q F IH]; cbn [keep_named]; [constructor|]. destruct (existsb _ _); auto. Qed.
Lemma filter_all : forall A (Q : A -> Prop) f l, Forall Q l -> Forall Q (filter f l).
Proof. intros A Q f l F. induction F as [|x l q F IH]; cbn [filter]; [constructor|]. destruct (f x); auto. Qed.
Lemma map_all : forall A B (Q : A -> Prop) (R : B -> Prop) f l, (forall x, Q x -> R (f x)) -> Forall Q l -> Forall R (map f l).
Proof. intros A B Q R f l K F. induction F; cbn [map]; auto. Qed.
Lemma add_child_all : forall c p, pchild_all c -> para_all p -> para_all (add_child c p).
Proof. intros c [[pp ch f]] C Q. unfold para_all, add_child in *. cbn in *. apply Forall_app. auto. Qed.

Lemma exec_rop_all : forall o r r', exec_rop o r = Ok r' -> run_all r -> run_all r'.
Proof.
  intros o r r' E Q. destruct o; cbn [exec_rop] in E;
    try (unfold run_color, run_size, run_sizecs, run_shade, run_spacing, run_bold, run_italic, run_underline, run_highlight, run_strike, run_font, on_rpr in E;
         destruct (runR_rpr r); inversion E; subst; exact Q).
  - inversion E; subst. unfold run_all in *. cbn. apply Forall_app. split; [assumption|]. repeat constructor.
  - inversion E; subst. unfold run_all in *. cbn. now apply keep_all.
  - destruct (nth_error (runR_children r) k) as [c|] eqn:K; [|discriminate]. bok E. inversion E; subst. unfold run_all in *. cbn.
    apply set_nth_all; auto. eapply P_size; eauto. eapply nth_all; eauto.
Qed.
Lemma para_drop_all : forall n p, para_all p -> para_all (para_drop n p).
Proof.
  intros n [[pp ch f]] Q. unfold para_drop. destruct (drop_test n) as [t|]; [|exact Q]. unfold para_all, drop_in_para in *. cbn in *.
  eapply map_all; [|exact Q]. intros [r|id r|r] K; cbn in *; auto.
Qed.
Lemma exec_pop_all : forall o w p w' p', exec_pop o w p = Ok (w', p') -> para_all p -> para_all p'.
Proof.
  intros o w p w' p' E Q.
  assert (S : forall q, para_children q = para_children p -> para_all q) by (intros q K; unfold para_all; now rewrite K).
  destruct o; cbn [exec_pop] in E; try (match type of E with Ok _ = Ok _ => inversion E; subst; clear E end).
  - unfold add_text. destruct (String.eqb t _); apply add_child_all; auto; exact I.
  - apply add_child_all; auto. exact I.
  - apply add_child_all; auto. exact I.
  - unfold add_link in E. bok E. destruct v as [id w1]. inversion E; subst. apply add_child_all; auto. constructor.
  - unfold add_drawing in E. destruct (lib_imgsize data) as [[[sw sh] fmt]|]; [|discriminate]. bok E. destruct v as [[[a b] c] w1]. bok E. destruct v as [ew eh].
    inversion E; subst. apply add_child_all; auto. destruct anch; exact I.
  - unfold add_shape in E. bok E. destruct v as [[a b] w1]. inversion E; subst. apply add_child_all; auto. destruct anch; exact I.
  - apply S. now destruct p as [[pp ch f]].
  - apply S. now destruct p as [[pp ch f]].
  - apply S. now destruct p as [[pp ch f]].
  - apply S. now destruct p as [[pp ch f]].
  - apply S. now destruct p as [[pp ch f]].
  - destruct p as [[pp ch f]]. unfold para_all in *. cbn in *. now apply keep_all.
  - now apply para_drop_all.
  - destruct (nth_error (para_children p) k) as [[r|id r|r]|] eqn:K; try discriminate.
    + bok E. inversion E; subst. destruct p as [[pp ch f]]. unfold para_all in *. cbn in *. apply set_nth_all; auto. exact I.
    + bok E. inversion E; subst. destruct p as [[pp ch f]]. unfold para_all in *. cbn in *. apply set_nth_all; auto.
      eapply exec_rop_all; eauto. exact (nth_all _ _ _ _ _ Q K).
Qed.

(** ** copying *)
Lemma copy_list_all : forall A B (Q : A -> Prop) (R : B -> Prop) (f : A -> world -> res (world * B)),
  (forall x w w' y, f x w = Ok (w', y) -> Q x -> R y) -> forall l w w' l', copy_list f l w = Ok (w', l') -> Forall Q l -> Forall R l'.
Proof.
  intros A B Q R f K. induction l as [|x l IH]; intros w w' l' E F; cbn [copy_list] in E; [inversion E; subst; constructor|].
  inversion F; subst. bok E. destruct v as [w1 y]. bok E. destruct v as [w2 l2]. inversion E; subst. constructor; [eapply K; eauto|eapply IH; eauto].
Qed.
Lemma copy_run_all : forall to r w w' r', copy_run to r w = Ok (w', r') -> run_all r -> run_all r'.
Proof.
  intros to r w w' r' E Q. unfold copy_run in E. bok E. destruct v as [w1 c]. inversion E; subst. unfold run_all in *. cbn.
  eapply copy_list_all; [|exact E0|exact Q]. intros; eapply P_copy; eauto.
Qed.
Definition opt_all {A} (Q : A -> Prop) (o : option A) : Prop := match o with Some x => Q x | None => True end.
Lemma somes_all : forall A (Q : A -> Prop) l, Forall (opt_all Q) l -> Forall Q (somes l).
Proof. intros A Q l F. induction F as [|[x|] l q F IH]; cbn [somes]; auto. Qed.
Lemma copy_pchild_all : forall to f c w w' c', copy_pchild to f c w = Ok (w', c') -> pchild_all c -> opt_all pchild_all c'.
Proof.
  intros to f c w w' c' E Q. destruct c as [r|id r|r]; cbn [copy_pchild] in E.
  - bok E. destruct v as [w1 y]. inversion E; subst. exact I.
  - bok E. destruct (refer_target v id); try discriminate; [|inversion E; subst; exact I].
    bok E. destruct v0 as [rid w1]. bok E. destruct v0 as [w2 y]. inversion E; subst. eapply copy_run_all; eauto.
  - inversion E; subst. exact I.
Qed.
Lemma copy_para_all : forall to c w w' c', copy_para to c w = Ok (w', c') -> para_all c -> para_all c'.
Proof.
  intros to c w w' c' E Q. unfold copy_para in E. bok E. destruct v as [w1 l]. inversion E; subst. unfold para_all. cbn.
  apply somes_all. eapply copy_list_all; [|exact E0|exact Q]. intros; eapply copy_pchild_all; eauto.
Qed.
Lemma copy_cell_all : forall to c w w' c', copy_cell to c w = Ok (w', c') -> cell_all c -> cell_all c'.
Proof.
  intros to c w w' c' E Q. unfold copy_cell in E. bok E. destruct v as [w1 l]. inversion E; subst. unfold cell_all. cbn.
  eapply copy_list_all; [|exact E0|exact Q]. intros; eapply copy_para_all; eauto.
Qed.
Lemma copy_row_all : forall to c w w' c', copy_row to c w = Ok (w', c') -> row_all c -> row_all c'.
Proof.
  intros to c w w' c' E Q. unfold copy_row in E. bok E. destruct v as [w1 l]. inversion E; subst. unfold row_all. cbn.
  eapply copy_list_all; [|exact E0|exact Q]. intros; eapply copy_cell_all; eauto.
Qed.
Lemma copy_item_all : forall to c w w' c', copy_item to c w = Ok (w', c') -> item_all c -> item_all c'.
Proof.
  intros to c w w' c' E Q. destruct c as [p|t|s]; cbn [copy_item] in E.
  - bok E. destruct v as [w1 p']. inversion E; subst. eapply copy_para_all; eauto.
  - bok E. destruct v as [w1 t']. inversion E; subst. unfold copy_table in E0. bok E0. destruct v as [w2 l]. inversion E0; subst. cbn in *.
    eapply copy_list_all; [|exact E1|exact Q]. intros; eapply copy_row_all; eauto.
  - inversion E; subst. exact I.
Qed.

(** ** documents and worlds *)
Lemma on_file_all : forall A w f (k : reg -> A * reg) x w', on_file w f k = Ok (x, w') -> world_all w -> world_all w'.
Proof.
  intros A w f k x w' E F. unfold on_file in E. destruct f as [i|]; [|discriminate]. destruct (nth_error w i) as [d|] eqn:D; [|discriminate].
  destruct (k (d_reg d)). inversion E; subst. apply set_nth_all; auto. exact (nth_all _ _ _ _ _ F D).
Qed.
Lemma exec_pop_world : forall o w p w' p', exec_pop o w p = Ok (w', p') -> world_all w -> world_all w'.
Proof.
  intros o w p w' p' E F. destruct o; cbn [exec_pop] in E; try (inversion E; subst; exact F).
  - unfold add_link in E. bok E. destruct v as [id w1]. inversion E; subst. eapply on_file_all; eauto.
  - unfold add_drawing in E. destruct (lib_imgsize data) as [[[sw sh] fmt]|]; [|discriminate]. bok E. destruct v as [[[a b] c] w1]. bok E. destruct v as [ew eh].
    inversion E; subst. eapply on_file_all; eauto.
  - unfold add_shape in E. bok E. destruct v as [[a b] w1]. inversion E; subst. eapply on_file_all; eauto.
  - destruct (nth_error (para_children p) k) as [[r|id r|r]|]; try discriminate; bok E; inversion E; subst; exact F.
Qed.
Lemma copy_graphic_world : forall to f og w w' c, copy_graphic to f og w = Ok (w', c) -> world_all w -> world_all w'.
Proof.
  intros to f og w w' c E F. unfold copy_graphic in E. destruct og as [g|]; [|discriminate]. destruct (graphicR_data g) as [d|]; [|discriminate].
  destruct (gdataR_pic d) as [p|].
  - destruct (pic_blip p) as [b|]; [|inversion E; subst; auto].
    bok E. destruct (refer_target v _) as [tgt|e|]; [|inversion E; subst; auto|discriminate].
    bok E. destruct v0 as [idn w1]. bok E. destruct v0 as [idu w2].
    assert (G : world_all w2) by (eapply on_file_all; eauto; eapply on_file_all; eauto).
    destruct (drop 6 tgt); [|discriminate]. bok E. bok E. destruct v1 as [[? data]|]; [|inversion E; subst; auto].
    bok E. destruct v1 as [rid w3]. destruct (pic_nvpic p); [|discriminate]. inversion E; subst. eapply on_file_all; eauto.
  - destruct (gdataR_shape d), (gdataR_canvas d); inversion E; subst; auto.
Qed.
Lemma copy_list_world : forall A B (f : A -> world -> res (world * B)), (forall x w w' y, f x w = Ok (w', y) -> world_all w -> world_all w') ->
  forall l w w' l', copy_list f l w = Ok (w', l') -> world_all w -> world_all w'.
Proof.
  intros A B f K. induction l as [|x l IH]; intros w w' l' E F; cbn [copy_list] in E; [inversion E; subst; auto|].
  bok E. destruct v as [w1 y]. bok E. destruct v as [w2 l2]. inversion E; subst. eapply IH; eauto.
Qed.
Lemma copy_rchild_world : forall to c w w' c', copy_rchild to c w = Ok (w', c') -> world_all w -> world_all w'.
Proof.
  intros to c w w' c' E F. destruct c as [t|t|t|[x|] [y|]]; cbn [copy_rchild] in E; try (inversion E; subst; exact F);
    bok E; destruct v as [w1 r]; inversion E; subst; eapply copy_graphic_world; eauto.
Qed.
Lemma copy_run_world : forall to c w w' c', copy_run to c w = Ok (w', c') -> world_all w -> world_all w'.
Proof. intros to c w w' c' E F. unfold copy_run in E. bok E. destruct v as [w1 l]. inversion E; subst. eapply copy_list_world; eauto. intros; eapply copy_rchild_world; eauto. Qed.
Lemma copy_pchild_world : forall to f c w w' c', copy_pchild to f c w = Ok (w', c') -> world_all w -> world_all w'.
Proof.
  intros to f c w w' c' E F. destruct c as [r|id r|r]; cbn [copy_pchild] in E.
  - bok E. destruct v as [w1 y]. inversion E; subst. eapply copy_run_world; eauto.
  - bok E. destruct (refer_target v id); try discriminate; [|inversion E; subst; auto].
    bok E. destruct v0 as [rid w1]. bok E. destruct v0 as [w2 y]. inversion E; subst. eapply copy_run_world; eauto. eapply on_file_all; eauto.
  - inversion E; subst. exact F.
Qed.
Lemma copy_para_world : forall to c w w' c', copy_para to c w = Ok (w', c') -> world_all w -> world_all w'.
Proof. intros to c w w' c' E F. unfold copy_para in E. bok E. destruct v as [w1 l]. inversion E; subst. eapply copy_list_world; eauto. intros; eapply copy_pchild_world; eauto. Qed.
Lemma copy_cell_world : forall to c w w' c', copy_cell to c w = Ok (w', c') -> world_all w -> world_all w'.
Proof. intros to c w w' c' E F. unfold copy_cell in E. bok E. destruct v as [w1 l]. inversion E; subst. eapply copy_list_world; eauto. intros; eapply copy_para_world; eauto. Qed.
Lemma copy_row_world : forall to c w w' c', copy_row to c w = Ok (w', c') -> world_all w -> world_all w'.
Proof. intros to c w w' c' E F. unfold copy_row in E. bok E. destruct v as [w1 l]. inversion E; subst. eapply copy_list_world; eauto. intros; eapply copy_cell_world; eauto. Qed.
Lemma copy_item_world : forall to c w w' c', copy_item to c w = Ok (w', c') -> world_all w -> world_all w'.
Proof.
  intros to c w w' c' E F. destruct c as [p|t|s]; cbn [copy_item] in E.
  - bok E. destruct v as [w1 p']. inversion E; subst. eapply copy_para_world; eauto.
  - bok E. destruct v as [w1 t']. inversion E; subst. unfold copy_table in E0. bok E0. destruct v as [w2 l]. inversion E0; subst.
    eapply copy_list_world; eauto. intros; eapply copy_row_world; eauto.
  - inversion E; subst. exact F.
Qed.
Lemma add_item_all : forall x d, item_all x -> docx_all d -> docx_all (add_item x d).
Proof. intros x d X F. cbn. apply Forall_app. auto. Qed.
Lemma copy_push_world : forall to x w w', copy_push to x w = Ok w' -> item_all x -> world_all w -> world_all w'.
Proof.
  intros to x w w' E X F. unfold copy_push in E. bok E. destruct v as [w1 y]. unfold push_item in E. destruct (nth_error w1 to) as [d|] eqn:D; [|discriminate].
  inversion E; subst. pose proof (copy_item_world _ _ _ _ _ E0 F) as F1. apply set_nth_all; auto. apply add_item_all; [eapply copy_item_all; eauto|exact (nth_all _ _ _ _ _ F1 D)].
Qed.
Lemma append_items_world : forall to l w w', append_items to l w = Ok w' -> Forall item_all l -> world_all w -> world_all w'.
Proof.
  intros to. induction l as [|x l IH]; intros w w' E X F; cbn [append_items] in E; [inversion E; subst; auto|]. inversion X; subst. bok E.
  eapply IH; eauto. eapply copy_push_world; eauto.
Qed.
Lemma new_part_all : forall t w, world_all w -> world_all (new_part t w).
Proof. intros t w F. unfold new_part. apply Forall_app. split; [exact F|]. constructor; [|constructor]. constructor. Qed.
Lemma split_items_world : forall t sep l cur fresh w w', split_items t sep l cur fresh w = Ok w' -> Forall item_all l -> world_all w -> world_all w'.
Proof.
  intros t sep. induction l as [|x l IH]; intros cur fresh w w' E X F; cbn [split_items] in E; [inversion E; subst; auto|]. inversion X; subst.
  assert (K : forall c v, bind (copy_push c x v) (fun w1 => split_items t sep l c false w1) = Ok w' -> world_all v -> world_all w').
  { intros c v E' V. bok E'. eapply IH; eauto. eapply copy_push_world; eauto. }
  destruct x as [p|tb|s]; try (eapply K; eauto; fail). bok E. destruct (_ && _)%bool; [|eapply K; eauto]. eapply K; eauto. now apply new_part_all.
Qed.
Lemma on_doc_all : forall w i k w', on_doc w i k = Ok w' -> (forall d d', k d = Ok d' -> docx_all d -> docx_all d') -> world_all w -> world_all w'.
Proof.
  intros w i k w' E K F. destruct (on_doc_inv _ _ _ _ E) as [d [d' [D [D' ->]]]]. apply set_nth_all; auto. eapply K; eauto. exact (nth_all _ _ _ _ _ F D).
Qed.
Lemma get_cell_all : forall l i r c v, get_cell l i r c = Some v -> Forall item_all l -> cell_all v.
Proof.
  intros l i r c v E F. unfold get_cell in E. destruct (nth_error l i) as [[p|t|s]|] eqn:I; try discriminate.
  destruct (nth_error (table_rows t) r) as [x|] eqn:R; [|discriminate]. pose proof (nth_all _ _ _ _ _ F I) as K. cbn in K.
  exact (nth_all _ _ _ _ _ (nth_all _ _ _ _ _ K R) E).
Qed.
Lemma put_cell_all : forall l i r c v, cell_all v -> Forall item_all l -> Forall item_all (put_cell l i r c v).
Proof.
  intros l i r c v V F. unfold put_cell. destruct (nth_error l i) as [[p|t|s]|] eqn:I; auto.
  destruct (nth_error (table_rows t) r) as [x|] eqn:R; auto. pose proof (nth_all _ _ _ _ _ F I) as K. cbn in K. apply set_nth_all; auto. cbn.
  apply set_nth_all; auto. unfold row_all. cbn. apply set_nth_all; auto. exact (nth_all _ _ _ _ _ K R).
Qed.
Lemma get_para_all : forall l a p, get_para l a = Some p -> Forall item_all l -> para_all p.
Proof.
  intros l [i|i r c k] p E F; cbn [get_para] in E.
  - destruct (nth_error l i) as [[q|t|s]|] eqn:I; try discriminate. inversion E; subst. exact (nth_all _ _ _ _ _ F I).
  - destruct (get_cell l i r c) as [x|] eqn:C; [|discriminate]. exact (nth_all _ _ _ _ _ (get_cell_all _ _ _ _ _ C F) E).
Qed.
Lemma put_para_all : forall l a p, para_all p -> Forall item_all l -> Forall item_all (put_para l a p).
Proof.
  intros l [i|i r c k] p Q F; cbn [put_para]; [now apply set_nth_all|].
  destruct (get_cell l i r c) as [x|] eqn:C; auto. apply put_cell_all; auto. unfold cell_all. cbn. apply set_nth_all; auto. exact (get_cell_all _ _ _ _ _ C F).
Qed.
Lemma repeat_all : forall A (Q : A -> Prop) x n, Q x -> Forall Q (repeat x n).
Proof. induction n; cbn; auto. Qed.

Lemma exec_all : forall o w w', exec o w = Ok w' -> brings o -> world_all w -> world_all w'.
Proof.
  intros o w w' E B F. destruct o; cbn [exec] in E.
  - inversion E; subst. apply Forall_app. split; [exact F|]. constructor; [|constructor]. constructor.
  - inversion E; subst. apply Forall_app. split; [exact F|]. constructor; [|constructor]. exact B.
  - destruct (nth_error w d) as [x|] eqn:D; [|discriminate]. destruct (get_para (d_items x) a) as [p|] eqn:G; [|discriminate]. bok E. destruct v as [w1 p1].
    pose proof (nth_all _ _ _ _ _ F D) as FX. pose proof (exec_pop_all _ _ _ _ _ E0 (get_para_all _ _ _ G FX)) as Q.
    eapply on_doc_all; [exact E| |eapply exec_pop_world; eauto]. intros y y' [=<-] FY. cbn. now apply put_para_all.
  - bok E. destruct v as [w1 p1]. inversion E; subst. eapply exec_pop_world; eauto.
  - eapply on_doc_all; eauto. intros y y' [=<-] Y. apply add_item_all; auto. constructor.
  - eapply on_doc_all; eauto. intros y y' K FY. cbv beta in K. destruct (get_cell (d_items y) i r c) as [v|] eqn:C; [|discriminate]. injection K as <-.
    cbn. apply put_cell_all; auto. unfold cell_all. cbn. apply Forall_app. split; [exact (get_cell_all _ _ _ _ _ C FY)|repeat constructor].
  - eapply on_doc_all; eauto. intros y y' K Y. cbv beta in K. unfold add_table in K. destruct (iv r <? 0)%Z; [discriminate|]. destruct (_ && _)%bool; [discriminate|].
    destruct (use_colors col) as [cs col']. cbn [bind fst] in K. injection K as <-. apply add_item_all; auto. cbn. apply repeat_all. unfold row_all. cbn. apply repeat_all. constructor.
  - eapply on_doc_all; eauto. intros y y' K Y. cbv beta in K. unfold add_table_twips in K. destruct (use_colors col) as [cs col']. cbn [bind fst] in K. injection K as <-.
    apply add_item_all; auto. cbn. apply Forall_forall. intros x I. apply in_map_iff in I. destruct I as [h [<- _]]. unfold row_all. cbn.
    apply Forall_forall. intros c I. apply in_map_iff in I. destruct I as [z [<- _]]. repeat constructor.
  - eapply on_doc_all; eauto. intros y y' K FY. cbv beta in K. destruct (nth_error (d_items y) i) as [[p|t|s]|] eqn:T; try discriminate. bok K. injection K as <-.
    cbn. apply set_nth_all; auto. unfold table_justification in E0. destruct (table_props t); [|discriminate]. injection E0 as <-. exact (nth_all _ _ _ _ _ FY T).
  - eapply on_doc_all; eauto. intros y y' K FY. cbv beta in K. destruct (nth_error (d_items y) i) as [[p|t|s]|] eqn:T; try discriminate.
    destruct (nth_error (table_rows t) r) as [x|] eqn:R; [|discriminate]. bok K. injection K as <-. cbn. apply set_nth_all; auto. cbn.
    pose proof (nth_all _ _ _ _ _ FY T) as Q. cbn in Q. apply set_nth_all; auto. unfold row_justification in E0. destruct (row_props x); [|discriminate]. injection E0 as <-.
    exact (nth_all _ _ _ _ _ Q R).
  - eapply on_doc_all; eauto. intros y y' K FY. cbv beta in K. destruct (get_cell (d_items y) i r c) as [x|] eqn:C; [|discriminate]. bok K. injection K as <-.
    cbn. apply put_cell_all; auto. unfold cell_shade in E0. destruct (cell_props x); [|discriminate]. injection E0 as <-. exact (get_cell_all _ _ _ _ _ C FY).
  - eapply on_doc_all; eauto. intros y y' [=<-] Y. destruct a3; (apply add_item_all; [exact I|exact Y]).
  - eapply on_doc_all; eauto. intros y y' [=<-] Y. exact Y.
  - eapply on_doc_all; eauto. intros y y' [=<-] FY. cbn. now apply keep_all.
  - eapply on_doc_all; eauto. intros y y' [=<-] FY. cbn. unfold drop_drawing_of. eapply map_all; [|exact FY].
    intros [p|t|s] X; cbn in *; auto; [now apply para_drop_all|]. eapply map_all; [|exact X]. intros r R. unfold row_all in *. cbn.
    eapply map_all; [|exact R]. intros c C. unfold cell_all in *. cbn. eapply map_all; [|exact C]. intros p. apply para_drop_all.
  - destruct (nth_error w d); [|discriminate]. unfold append_file in E. destruct (nth_error w from) as [x|] eqn:D; [|discriminate].
    eapply append_items_world; eauto. exact (nth_all _ _ _ _ _ F D).
  - unfold split_by_paragraph in E. destruct (nth_error w d) as [x|] eqn:D; [|discriminate]. pose proof (nth_all _ _ _ _ _ F D) as FX. unfold docx_all in FX.
    destruct (d_items x) as [|y l]; [inversion E; subst; auto|]. eapply split_items_world; eauto. now apply new_part_all.
  - unfold parse in E. bok E. inversion E; subst. apply Forall_app. split; [exact F|]. constructor; [|constructor]. eapply B; eauto.
Qed.
Lemma run_all_ops : forall l w w', run_ops l w = Some w' -> Forall brings l -> world_all w -> world_all w'.
Proof.
  induction l as [|o l IH]; intros w w' E B F; cbn [run_ops] in E; [inversion E; subst; auto|]. inversion B; subst.
  destruct (exec o w) as [w1|e|] eqn:X; [|eauto|discriminate]. eapply IH; eauto. eapply exec_all; eauto.
Qed.
End Inv.
