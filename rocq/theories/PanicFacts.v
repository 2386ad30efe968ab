(** Which calls on documents made from scratch panic: an invariant of such
    documents. *)
From Coq Require Import String Ascii List Bool Arith NArith ZArith Lia.
From Verif Require Import GoStr Num Lib Types Docx Api Keep Copy Pack Text History SpecPanic RegFacts HistFacts HistFacts2 HistInv DrawIds.
Import ListNotations.
Local Open Scope list_scope.
Local Open Scope string_scope.

Section P.
Context `{GoLib}.
(** drawings made by the API: no file pointer; a picture with a blip, or a shape *)
Definition api_graphic (o : option graphic) : Prop :=
  exists g d, o = Some g /\ graphicR_data g = Some d /\
    ((exists p b, gdataR_pic d = Some p /\ pic_blip p = Some b) \/ (gdataR_pic d = None /\ gdataR_shape d <> None)).
Definition sturdy_child (c : rchild) : Prop :=
  match c with
  | RDraw (Some i) None => inlineR_file i = None /\ inlineR_docPr i <> None /\ api_graphic (inlineR_graphic i)
  | RDraw None (Some a) => anchorR_file a = None /\ anchorR_docPr a <> None /\ api_graphic (anchorR_graphic a)
  | RDraw _ _ => False
  | _ => True
  end.
Definition sturdy_run (r : run) : Prop := runR_rpr r <> None /\ Forall sturdy_child (runR_children r).
Definition sturdy_pchild (c : pchild) : Prop := match c with PRun r | PLink _ r => sturdy_run r | PRPr _ => False end.
Definition sturdy_para (d : nat) (p : para) : Prop := para_file p = Some d /\ Forall sturdy_pchild (para_children p).
Definition sturdy_cell (d : nat) (c : cell) : Prop := cell_props c <> None /\ cell_file c = Some d /\ Forall (sturdy_para d) (cell_paras c).
Definition sturdy_row (d : nat) (r : row) : Prop := row_props r <> None /\ Forall (sturdy_cell d) (row_cells r).
Definition sturdy_item (d : nat) (x : item) : Prop :=
  match x with
  | IPara p => sturdy_para d p
  | ITable t => table_props t <> None /\ Forall (sturdy_row d) (table_rows t)
  | ISect _ => True
  end.
Definition sturdy (w : world) : Prop := forall d x, nth_error w d = Some x -> Forall (sturdy_item d) (d_items x).

(** ** runs *)
Lemma line_sturdy : forall l b, Forall sturdy_child (line_children b l).
Proof. apply line_all; intros; exact I. Qed.
Lemma texts_sturdy : forall l b, Forall sturdy_child (text_children b l).
Proof. apply texts_all; intros; exact I. Qed.
Lemma size_sturdy : forall anch sw sh c c', child_size anch sw sh c = Ok c' -> sturdy_child c -> sturdy_child c'.
Proof.
  assert (G : forall sw sh o, api_graphic o -> api_graphic (option_map (graphic_size sw sh) o)).
  { intros sw sh o [g [d [-> [D K]]]]. cbn. unfold graphic_size. rewrite D. destruct K as [[p [b [P B]]]|[P S]]; rewrite P.
    - destruct (pic_sp p) as [s|].
      + eexists _, _. split; [reflexivity|]. split; [reflexivity|]. left. eexists _, _. split; [reflexivity|]. cbn. exact B.
      + exists g, d. eauto 10.
    - exists g, d. auto. }
  intros anch sw sh [t|t|t|[i|] [a|]] c' E S; destruct anch; cbn in E; try discriminate; try contradiction; injection E as <-; cbn in *; destruct S as [S1 [S2 S3]]; auto.
Qed.
Lemma child_size_panics : forall anch sw sh c, child_size anch sw sh c = Panic <-> ~ exists i a, c = RDraw i a /\ (if anch then a <> None else i <> None).
Proof.
  intros anch sw sh [t|t|t|[i|] [a|]]; destruct anch; cbn; (split; [intros E K|intros K]); try discriminate; auto;
    try (destruct K as [i' [a' [K1 K2]]]; congruence);
    exfalso; apply K; eexists _, _; (split; [reflexivity|discriminate]).
Qed.
Lemma rop_sturdy : forall o r r', exec_rop o r = Ok r' -> sturdy_run r -> sturdy_run r'.
Proof.
  intros o r r' E [S1 S2]. destruct o; cbn [exec_rop] in E;
    try (unfold run_color, run_size, run_sizecs, run_shade, run_spacing, run_bold, run_italic, run_underline, run_highlight, run_strike, run_font, on_rpr in E;
         destruct (runR_rpr r); inversion E; subst; split; [discriminate|exact S2]).
  - inversion E; subst. split; auto. cbn. apply Forall_app. split; auto. repeat constructor.
  - inversion E; subst. split; auto. cbn. now apply keep_all.
  - destruct (nth_error (runR_children r) k) as [c|] eqn:K; [|discriminate]. bok E. inversion E; subst. split; auto. cbn.
    apply set_nth_all; auto. eapply size_sturdy; eauto. eapply nth_all; eauto.
Qed.
Lemma rop_panics : forall o r, sturdy_run r -> (exec_rop o r = Panic <-> run_misuse o r).
Proof.
  intros o r [S1 S2]. destruct o; cbn [exec_rop run_misuse];
    try (unfold run_color, run_size, run_sizecs, run_shade, run_spacing, run_bold, run_italic, run_underline, run_highlight, run_strike, run_font, on_rpr;
         destruct (runR_rpr r); [split; [discriminate|tauto]|congruence]); try (split; [discriminate|tauto]).
  unfold drawing_at. destruct (nth_error (runR_children r) k) as [c|].
  - destruct (child_size anch w h c) as [c'|e|] eqn:C; cbn [bind].
    + split; [discriminate|]. intros K. exfalso. assert (X := proj2 (child_size_panics anch w h c)). rewrite C in X. discriminate X.
      intros [i [a [-> Q]]]. apply K. eauto.
    + exfalso. destruct c as [t|t|t|[i|] [a|]], anch; discriminate.
    + split; auto. intros _ [i [a [K Q]]]. injection K as ->. apply (proj1 (child_size_panics anch w h _) C). eauto.
  - split; auto. intros _ [i [a [K _]]]. discriminate.
Qed.

(** ** paragraphs *)
Lemma on_file_at : forall A w d x (k : reg -> A * reg), nth_error w d = Some x ->
  on_file w (Some d) k = Ok (fst (k (d_reg x)), set_nth w d (set_d_reg (snd (k (d_reg x))) x)).
Proof. intros A w d x k E. unfold on_file. rewrite E. now destruct (k (d_reg x)). Qed.
Lemma sturdy_reg : forall w d x g, sturdy w -> nth_error w d = Some x -> sturdy (set_nth w d (set_d_reg g x)).
Proof.
  intros w d x g S E k y K. destruct (Nat.eq_dec k d) as [->|D].
  - rewrite set_nth_same in K by (apply nth_error_Some; congruence). injection K as <-. cbn. now apply S.
  - rewrite set_nth_other in K by auto. eauto.
Qed.
Lemma add_sturdy : forall d c p, sturdy_pchild c -> sturdy_para d p -> sturdy_para d (add_child c p).
Proof. intros d c [[pp ch f]] C [F S]. unfold add_child. split; cbn in *; auto. apply Forall_app. auto. Qed.
Lemma para_drop_sturdy : forall d n p, sturdy_para d p -> sturdy_para d (para_drop n p).
Proof.
  intros d n [[pp ch f]] [F S]. unfold para_drop. destruct (drop_test n) as [t|]; [|split; auto]. split; [exact F|]. cbn in *.
  eapply map_all; [|exact S]. intros [r|id r|r] K; cbn in *; auto. destruct K as [K1 K2]. split; auto. cbn. now apply filter_all.
Qed.
Lemma pic_sturdy : forall idn id nm r ew eh (anch : bool),
  sturdy_child (if anch then RDraw None (Some (pic_anchor idn id nm r ew eh)) else RDraw (Some (pic_inline idn id nm r ew eh)) None).
Proof. intros. destruct anch; (split; [reflexivity|split; [discriminate|]]); eexists _, _; (split; [reflexivity|split; [reflexivity|]]); left; eexists _, _; split; reflexivity. Qed.
Lemma pop_sturdy : forall o w p w' p' d x, exec_pop o w p = Ok (w', p') -> nth_error w d = Some x -> sturdy w -> sturdy_para d p -> sturdy w' /\ sturdy_para d p'.
Proof.
  intros o w p w' p' d x E N W Q.
  assert (F := proj1 Q).
  destruct o; cbn [exec_pop] in E; try (match type of E with Ok _ = Ok _ => inversion E; subst; clear E; split; [exact W|] end).
  - unfold add_text. destruct (String.eqb t _); apply add_sturdy; auto; (split; [discriminate|]); cbn; [repeat constructor|apply texts_sturdy].
  - apply add_sturdy; auto. split; [discriminate|]. repeat constructor.
  - apply add_sturdy; auto. split; [discriminate|]. repeat constructor.
  - unfold add_link in E. rewrite F, (on_file_at _ _ _ _ _ N) in E. cbn [bind] in E. inversion E; subst. split; [now apply sturdy_reg|].
    apply add_sturdy; auto. split; [discriminate|constructor].
  - unfold add_drawing in E. destruct (lib_imgsize data) as [[[sw sh] fmt]|]; [|discriminate]. rewrite F, (on_file_at _ _ _ _ _ N) in E. cbn [bind] in E.
    destruct (fst (new_image fmt data (d_reg x))) as [[idn id] r]. bok E. destruct v as [ew eh]. inversion E; subst. split; [now apply sturdy_reg|].
    apply add_sturdy; auto. split; [discriminate|]. constructor; [|constructor]. apply pic_sturdy.
  - unfold add_shape in E. rewrite F, (on_file_at _ _ _ _ _ N) in E. cbn [bind] in E. destruct (fst (new_shape_ids name (d_reg x))) as [idn ids].
    inversion E; subst. split; [now apply sturdy_reg|]. apply add_sturdy; auto. split; [discriminate|]. constructor; [|constructor].
    destruct anch; (split; [reflexivity|split; [discriminate|]]); eexists _, _; (split; [reflexivity|split; [reflexivity|]]); right; (split; [reflexivity|discriminate]).
  - destruct p as [[pp ch f]]. exact Q.
  - destruct p as [[pp ch f]]. exact Q.
  - destruct p as [[pp ch f]]. exact Q.
  - destruct p as [[pp ch f]]. exact Q.
  - destruct p as [[pp ch f]]. exact Q.
  - destruct p as [[pp ch f]]. destruct Q as [Q1 Q2]. split; auto. cbn in *. now apply keep_all.
  - now apply para_drop_sturdy.
  - destruct Q as [Q1 Q2]. destruct (nth_error (para_children p) k) as [[r|id r|r]|] eqn:K; try discriminate.
    + bok E. inversion E; subst. split; [exact W|]. destruct p as [[pp ch f]]. split; auto. cbn in *. apply set_nth_all; auto.
      eapply rop_sturdy; eauto. exact (nth_all _ _ _ _ _ Q2 K).
    + bok E. inversion E; subst. split; [exact W|]. destruct p as [[pp ch f]]. split; auto. cbn in *. apply set_nth_all; auto.
      eapply rop_sturdy; eauto. exact (nth_all _ _ _ _ _ Q2 K).
Qed.
Lemma pic_size_panics : forall sw sh, pic_size sw sh = Panic <-> iv sw = 0%Z.
Proof.
  intros sw sh. unfold pic_size, i64_eqb. destruct (Z.eqb_spec (iv sw) (iv i0)) as [E|E]; cbn in E.
  - tauto.
  - split; [destruct (wide sw sh); discriminate|tauto].
Qed.
Lemma pop_panics : forall o w p d x, nth_error w d = Some x -> sturdy_para d p -> (exec_pop o w p = Panic <-> para_misuse o p).
Proof.
  intros o w p d x N [F Q]. destruct o; cbn [exec_pop para_misuse]; try (split; [discriminate|tauto]).
  - unfold add_link. rewrite F, (on_file_at _ _ _ _ _ N). cbn. split; [discriminate|tauto].
  - unfold add_drawing. destruct (lib_imgsize data) as [[[sw sh] fmt]|].
    + rewrite F, (on_file_at _ _ _ _ _ N). cbn [bind]. destruct (fst (new_image fmt data (d_reg x))) as [[idn id] r].
      destruct (pic_size sw sh) as [[ew eh]|e|] eqn:P; cbn [bind].
      * split; [discriminate|]. intros [w0 [h0 [f0 [K Z]]]]. injection K as <- <- <-. apply (pic_size_panics sw sh) in Z. congruence.
      * exfalso. unfold pic_size in P. destruct (i64_eqb sw i0); [discriminate|]. destruct (wide sw sh); discriminate.
      * split; auto. intros _. apply pic_size_panics in P. eauto 10.
    + split; [discriminate|]. intros [w0 [h0 [f0 [K _]]]]. discriminate.
  - unfold add_shape. rewrite F, (on_file_at _ _ _ _ _ N). cbn [bind]. destruct (fst (new_shape_ids name (d_reg x))). split; [discriminate|tauto].
  - unfold run_at. destruct (nth_error (para_children p) k) as [[r|id r|r]|] eqn:K; try tauto.
    + rewrite <- (rop_panics o r) by exact (nth_all _ _ _ _ _ Q K). destruct (exec_rop o r); cbn [bind]; split; congruence.
    + rewrite <- (rop_panics o r) by exact (nth_all _ _ _ _ _ Q K). destruct (exec_rop o r); cbn [bind]; split; congruence.
Qed.

(** ** documents *)
Lemma get_cell_sturdy : forall d l i r c x, Forall (sturdy_item d) l -> get_cell l i r c = Some x -> sturdy_cell d x.
Proof.
  intros d l i r c x F E. unfold get_cell in E. destruct (nth_error l i) as [[p|t|s]|] eqn:K; try discriminate.
  destruct (nth_error (table_rows t) r) as [y|] eqn:R; [|discriminate]. destruct (nth_all _ _ _ _ _ F K) as [_ T].
  destruct (nth_all _ _ _ _ _ T R) as [_ C]. eapply nth_all; eauto.
Qed.
Lemma put_cell_sturdy : forall d l i r c x, Forall (sturdy_item d) l -> sturdy_cell d x -> Forall (sturdy_item d) (put_cell l i r c x).
Proof.
  intros d l i r c x F S. unfold put_cell. destruct (nth_error l i) as [[p|t|s]|] eqn:K; auto.
  destruct (nth_error (table_rows t) r) as [y|] eqn:R; auto. destruct (nth_all _ _ _ _ _ F K) as [T1 T2].
  destruct (nth_all _ _ _ _ _ T2 R) as [R1 R2]. apply set_nth_all; auto. split; auto. cbn. apply set_nth_all; auto. split; auto. cbn. apply set_nth_all; auto.
Qed.
Lemma get_para_sturdy : forall d l a p, Forall (sturdy_item d) l -> get_para l a = Some p -> sturdy_para d p.
Proof.
  intros d l [i|i r c k] p F E; cbn in E.
  - destruct (nth_error l i) as [[q|t|s]|] eqn:K; try discriminate. injection E as ->. exact (nth_all _ _ _ _ _ F K).
  - destruct (get_cell l i r c) as [x|] eqn:K; [|discriminate]. destruct (get_cell_sturdy _ _ _ _ _ _ F K) as [_ [_ C]]. eapply nth_all; eauto.
Qed.
Lemma put_para_sturdy : forall d l a p, Forall (sturdy_item d) l -> sturdy_para d p -> Forall (sturdy_item d) (put_para l a p).
Proof.
  intros d l [i|i r c k] p F S; cbn.
  - now apply set_nth_all.
  - destruct (get_cell l i r c) as [x|] eqn:K; auto. destruct (get_cell_sturdy _ _ _ _ _ _ F K) as [C1 [C2 C3]].
    apply put_cell_sturdy; auto. split; auto. split; auto. cbn. now apply set_nth_all.
Qed.
Lemma sturdy_set : forall w d y, sturdy w -> Forall (sturdy_item d) (d_items y) -> sturdy (set_nth w d y).
Proof.
  intros w d y S F k z K. destruct (Nat.eq_dec k d) as [->|D].
  - destruct (Nat.lt_ge_cases d (length w)) as [L|L].
    + rewrite set_nth_same in K by auto. injection K as <-. exact F.
    + assert (nth_error (set_nth w d y) d = None) by (apply nth_error_None; rewrite set_nth_length; auto). congruence.
  - rewrite set_nth_other in K by auto. eauto.
Qed.
Lemma on_doc_sturdy : forall w d k w', sturdy w -> on_doc w d k = Ok w' ->
  (forall x y, k x = Ok y -> Forall (sturdy_item d) (d_items x) -> Forall (sturdy_item d) (d_items y)) -> sturdy w'.
Proof.
  intros w d k w' S E K. destruct (on_doc_inv _ _ _ _ E) as [x [y [N [Ky ->]]]]. apply sturdy_set; auto. eapply K; eauto.
Qed.
Lemma repeat_all : forall A (Q : A -> Prop) x n, Q x -> Forall Q (repeat x n).
Proof. induction n; cbn; auto. Qed.
Lemma exec_sturdy : forall o w w', from_scratch o -> exec o w = Ok w' -> sturdy w -> sturdy w'.
Proof.
  intros o w w' FS E S. destruct o; try contradiction; cbn [exec] in E.
  - inversion E; subst. intros d x K. destruct (Nat.lt_ge_cases d (length w)) as [L|L].
    + rewrite nth_error_app1 in K by auto. eauto.
    + rewrite nth_error_app2 in K by auto. destruct (d - length w) as [|[|n]]; cbn in K; try discriminate. injection K as <-. constructor.
  - destruct (nth_error w d) as [x|] eqn:N; [|discriminate]. destruct (get_para (d_items x) a) as [p|] eqn:G; [|discriminate].
    bok E. destruct v as [w1 p']. destruct (pop_sturdy _ _ _ _ _ _ _ E0 N S (get_para_sturdy _ _ _ _ (S _ _ N) G)) as [S1 P1].
    eapply on_doc_sturdy; [exact S1|exact E|]. intros y z K F. injection K as <-. cbn. now apply put_para_sturdy.
  - eapply on_doc_sturdy; eauto. intros y z K F. injection K as <-. cbn. apply Forall_app. split; auto. repeat constructor.
  - eapply on_doc_sturdy; eauto. intros y z K F. cbv beta in K. destruct (get_cell (d_items y) i r c) as [v|] eqn:G; [|discriminate]. injection K as <-. cbn.
    destruct (get_cell_sturdy _ _ _ _ _ _ F G) as [C1 [C2 C3]]. apply put_cell_sturdy; auto. split; auto. split; auto. cbn. apply Forall_app. split; auto.
    repeat constructor. exact C2.
  - eapply on_doc_sturdy; eauto. intros y z K F. cbv beta in K. bok K. destruct v as [y' col']. injection K as <-. unfold add_table in E0.
    destruct (Z.ltb (iv r) 0); [discriminate|]. destruct (_ && _)%bool; [discriminate|]. destruct (use_colors col). injection E0 as <- _. cbn. apply Forall_app. split; auto.
    constructor; [|constructor]. split; [discriminate|]. cbn. apply repeat_all. split; [discriminate|]. cbn. apply repeat_all. split; [discriminate|]. split; [reflexivity|constructor].
  - eapply on_doc_sturdy; eauto. intros y z K F. injection K as <-. unfold add_table_twips. destruct (use_colors col). cbn. apply Forall_app. split; auto.
    constructor; [|constructor]. split; [discriminate|]. cbn. apply Forall_forall. intros rw I. apply in_map_iff in I. destruct I as [h [<- _]].
    split; [discriminate|]. cbn. apply Forall_forall. intros ce I. apply in_map_iff in I. destruct I as [u [<- _]]. split; [discriminate|]. split; [reflexivity|constructor].
  - eapply on_doc_sturdy; eauto. intros y z K F. cbv beta in K. destruct (nth_error (d_items y) i) as [[p|t|s]|] eqn:G; try discriminate. bok K. injection K as <-.
    destruct (nth_all _ _ _ _ _ F G) as [T1 T2]. cbn. apply set_nth_all; auto. unfold table_justification in E0. destruct (table_props t); [|discriminate]. injection E0 as <-. split; [discriminate|exact T2].
  - eapply on_doc_sturdy; eauto. intros y z K F. cbv beta in K. destruct (nth_error (d_items y) i) as [[p|t|s]|] eqn:G; try discriminate.
    destruct (nth_error (table_rows t) r) as [rw|] eqn:R; [|discriminate]. bok K. injection K as <-.
    destruct (nth_all _ _ _ _ _ F G) as [T1 T2]. destruct (nth_all _ _ _ _ _ T2 R) as [R1 R2]. cbn. apply set_nth_all; auto. split; auto. cbn. apply set_nth_all; auto.
    unfold row_justification in E0. destruct (row_props rw); [|discriminate]. injection E0 as <-. split; [discriminate|exact R2].
  - eapply on_doc_sturdy; eauto. intros y z K F. cbv beta in K. destruct (get_cell (d_items y) i r c) as [q|] eqn:G; [|discriminate]. bok K. injection K as <-.
    destruct (get_cell_sturdy _ _ _ _ _ _ F G) as [C1 [C2 C3]]. cbn. apply put_cell_sturdy; auto. unfold cell_shade in E0. destruct (cell_props q); [|discriminate]. injection E0 as <-.
    split; [discriminate|]. split; auto.
  - eapply on_doc_sturdy; eauto. intros y z K F. injection K as <-. destruct a3; cbn; apply Forall_app; split; auto; repeat constructor.
  - eapply on_doc_sturdy; eauto. intros y z K F. injection K as <-. exact F.
  - eapply on_doc_sturdy; eauto. intros y z K F. injection K as <-. cbn. now apply keep_all.
  - eapply on_doc_sturdy; eauto. intros y z K F. injection K as <-. cbn. eapply map_all; [|exact F]. intros [p|t|s] Q; cbn in *; auto.
    + now apply para_drop_sturdy.
    + destruct Q as [T1 T2]. split; auto. cbn. eapply map_all; [|exact T2]. intros rw [R1 R2]. split; auto. cbn. eapply map_all; [|exact R2].
      intros ce [C1 [C2 C3]]. split; auto. split; auto. cbn. eapply map_all; [|exact C3]. intros; now apply para_drop_sturdy.
Qed.
Lemma run_sturdy : forall l w w', Forall from_scratch l -> run_ops l w = Some w' -> sturdy w -> sturdy w'.
Proof.
  induction l as [|o l IH]; intros w w' F E S; cbn in E; [injection E as <-; auto|]. inversion F; subst.
  destruct (exec o w) as [w1|e|] eqn:X; [|eauto|discriminate]. eapply IH; eauto. eapply exec_sturdy; eauto.
Qed.
Lemma on_doc_panics : forall w d k, on_doc w d k = Panic <-> (nth_error w d = None \/ exists x, nth_error w d = Some x /\ k x = Panic).
Proof.
  intros w d k. unfold on_doc. destruct (nth_error w d) as [x|].
  - split.
    + intros E. right. exists x. split; auto. destruct (k x); cbn in E; try discriminate. reflexivity.
    + intros [K|[y [K1 K2]]]; [discriminate|]. injection K1 as <-. now rewrite K2.
  - split; auto.
Qed.
Lemma bind_panics : forall A B (x : res A) (k : A -> B), bind x (fun v => Ok (k v)) = Panic <-> x = Panic.
Proof. intros A B [v|e|] k; cbn; split; congruence. Qed.
Lemma on_doc_sure : forall w d k, (forall x, k x <> Panic) -> (on_doc w d k = Panic <-> nth_error w d = None).
Proof. intros w d k K. rewrite on_doc_panics. split; auto. intros [E|[x [_ E]]]; auto. exfalso. eapply K; eauto. Qed.
Lemma pop_reg_length : forall o w p w' p', exec_pop o w p = Ok (w', p') -> length w' = length w.
Proof.
  assert (X : forall A w f (k : reg -> A * reg) v w', on_file w f k = Ok (v, w') -> length w' = length w).
  { intros A w f k v w' E. unfold on_file in E. destruct f as [i|]; [|discriminate]. destruct (nth_error w i); [|discriminate]. destruct (k _). inversion E. apply set_nth_length. }
  intros o w p w' p' E. destruct o; cbn [exec_pop] in E; try (inversion E; subst; reflexivity).
  - unfold add_link in E. bok E. destruct v as [id w1]. inversion E; subst. eapply X; eauto.
  - unfold add_drawing in E. destruct (lib_imgsize data) as [[[sw sh] fmt]|]; [|discriminate]. bok E. destruct v as [[[a b] c] w1]. bok E. destruct v as [ew eh].
    inversion E; subst. eapply X; eauto.
  - unfold add_shape in E. bok E. destruct v as [[a b] w1]. inversion E; subst. eapply X; eauto.
  - destruct (nth_error (para_children p) k) as [[r|id r|r]|]; try discriminate; bok E; inversion E; subst; reflexivity.
Qed.
Lemma exec_panics : forall o w, from_scratch o -> sturdy w -> (exec o w = Panic <-> misuse o w).
Proof.
  intros o w FS S. destruct o; try contradiction; cbn [exec misuse].
  - split; [discriminate|tauto].
  - unfold para_at. destruct (nth_error w d) as [x|] eqn:N; [|tauto]. destruct (get_para (d_items x) a) as [p|] eqn:G; [|tauto].
    rewrite <- (pop_panics o w p d x N (get_para_sturdy _ _ _ _ (S _ _ N) G)).
    destruct (exec_pop o w p) as [[w1 p']|e|] eqn:E; cbn [bind]; [|split; congruence|tauto].
    split; [|discriminate]. rewrite on_doc_sure by discriminate. intros K. apply nth_error_None in K. rewrite (pop_reg_length _ _ _ _ _ E) in K.
    apply nth_error_None in K. congruence.
  - apply on_doc_sure. discriminate.
  - rewrite on_doc_panics. unfold cell_at. destruct (nth_error w d) as [x|]; [|tauto]. split.
    + intros [K|[y [K1 K2]]]; [discriminate|]. injection K1 as <-. destruct (get_cell (d_items x) i r c); [discriminate|reflexivity].
    + intros K. right. exists x. now rewrite K.
  - rewrite on_doc_panics. destruct (nth_error w d) as [x|]; [|tauto]. split.
    + intros [K|[y [K1 K2]]]; [discriminate|]. injection K1 as <-. right. unfold add_table in K2.
      destruct (Z.ltb_spec (iv r) 0); [auto|]. destruct (Z.ltb_spec (iv c) 0), (Z.ltb_spec 0 (iv r)); cbn in K2; try (destruct (use_colors col); discriminate). right. lia.
    + intros [K|K]; [discriminate|]. right. exists x. split; auto. unfold add_table. destruct (Z.ltb_spec (iv r) 0); [reflexivity|].
      destruct (Z.ltb_spec (iv c) 0), (Z.ltb_spec 0 (iv r)); cbn; try reflexivity; lia.
  - apply on_doc_sure. discriminate.
  - rewrite on_doc_panics. unfold table_at. destruct (nth_error w d) as [x|] eqn:N; [|tauto]. split.
    + intros [K|[y [K1 K2]]]; [discriminate|]. injection K1 as <-. destruct (nth_error (d_items x) i) as [[p|t|s]|] eqn:G; auto.
      rewrite bind_panics in K2. destruct (nth_all _ _ _ _ _ (S _ _ N) G) as [T _]. unfold table_justification in K2. destruct (table_props t); [discriminate|congruence].
    + intros K. right. exists x. split; auto. destruct (nth_error (d_items x) i) as [[p|t|s]|]; auto. discriminate.
  - rewrite on_doc_panics. unfold row_at, table_at. destruct (nth_error w d) as [x|] eqn:N; [|tauto]. split.
    + intros [K|[y [K1 K2]]]; [discriminate|]. injection K1 as <-. destruct (nth_error (d_items x) i) as [[p|t|s]|] eqn:G; auto.
      destruct (nth_error (table_rows t) r) as [rw|] eqn:R; auto. rewrite bind_panics in K2. destruct (nth_all _ _ _ _ _ (S _ _ N) G) as [_ T].
      destruct (nth_all _ _ _ _ _ T R) as [Q _]. unfold row_justification in K2. destruct (row_props rw); [discriminate|congruence].
    + intros K. right. exists x. split; auto. destruct (nth_error (d_items x) i) as [[p|t|s]|]; auto. now rewrite K.
  - rewrite on_doc_panics. unfold cell_at. destruct (nth_error w d) as [x|] eqn:N; [|tauto]. split.
    + intros [K|[y [K1 K2]]]; [discriminate|]. injection K1 as <-. destruct (get_cell (d_items x) i r c) as [q|] eqn:G; auto.
      rewrite bind_panics in K2. destruct (get_cell_sturdy _ _ _ _ _ _ (S _ _ N) G) as [Q _]. unfold cell_shade in K2. destruct (cell_props q); [discriminate|congruence].
    + intros K. right. exists x. now rewrite K.
  - apply on_doc_sure. discriminate.
  - apply on_doc_sure. discriminate.
  - apply on_doc_sure. discriminate.
  - apply on_doc_sure. discriminate.
Qed.
Lemma sturdy_nil : sturdy [].
Proof. intros [|d] x K; discriminate. Qed.
Lemma scratch_panics : forall l w o, Forall from_scratch l -> run_ops l [] = Some w -> from_scratch o -> (exec o w = Panic <-> misuse o w).
Proof. intros l w o F E FS. apply exec_panics; auto. eapply run_sturdy; eauto. exact sturdy_nil. Qed.

(** ** String *)
Lemma rconcat_panics : forall A (f : A -> res string) l, (forall x e, In x l -> f x <> Err e) -> (rconcat f l = Panic <-> exists x, In x l /\ f x = Panic).
Proof.
  induction l as [|x l IH]; intros E; cbn; [split; [discriminate|intros [x [[] _]]]|].
  assert (IH' := IH (fun y e I => E y e (or_intror I))). clear IH.
  destruct (f x) as [v|e|] eqn:X; cbn [bind].
  - rewrite bind_panics, IH'. split; intros [y [I Y]]; exists y; auto. destruct I as [->|I]; auto. congruence.
  - exfalso. eapply E; [now left|exact X].
  - split; auto. intros _. exists x. auto.
Qed.
Lemma rconcat_no_err : forall A (f : A -> res string) l e, (forall x e, In x l -> f x <> Err e) -> rconcat f l <> Err e.
Proof.
  induction l as [|x l IH]; intros e E K; cbn in K; [discriminate|]. destruct (f x) as [v|e'|] eqn:X; cbn [bind] in K; try discriminate.
  - destruct (rconcat f l) as [u|e'|] eqn:R; cbn in K; try discriminate. eapply IH; [|reflexivity]. intros y e1 I. apply E. now right.
  - eapply E; [now left|exact X].
Qed.
Lemma gdata_panics : forall w k dp d, dp <> None ->
  ((exists p b, gdataR_pic d = Some p /\ pic_blip p = Some b) \/ (gdataR_pic d = None /\ gdataR_shape d <> None)) ->
  (gdata_string w k None dp d = Panic <-> exists p, gdataR_pic d = Some p) /\ (forall e, gdata_string w k None dp d <> Err e).
Proof.
  intros w k [n|] d D K; [|congruence]. unfold gdata_string. destruct K as [[p [b [P B]]]|[P S]]; rewrite P.
  - unfold pic_hash. rewrite B. cbn. split; [split; eauto|discriminate].
  - destruct (gdataR_shape d); [|congruence]. split; [|discriminate]. split; [discriminate|intros [p K]; discriminate].
Qed.
Lemma inline_string_at : forall w (i : inline) g d, inlineR_graphic i = Some g -> graphicR_data g = Some d -> inlineR_file i = None ->
  inline_string w i = gdata_string w "inln" None (inlineR_docPr i) d.
Proof. intros w i g d G Q F. unfold inline_string. now rewrite G, Q, F. Qed.
Lemma anchor_string_at : forall w (a : anchor) g d, anchorR_graphic a = Some g -> graphicR_data g = Some d -> anchorR_file a = None ->
  anchor_string w a = gdata_string w "anch" None (anchorR_docPr a) d.
Proof. intros w a g d G Q F. unfold anchor_string. now rewrite G, Q, F. Qed.
Lemma rchild_panics : forall w c, sturdy_child c -> (rchild_string w c = Panic <-> is_picture c) /\ (forall e, rchild_string w c <> Err e).
Proof.
  intros w [t|t|t|[i|] [a|]] S; cbn [rchild_string is_picture sturdy_child] in *; try contradiction; try (split; [split; [discriminate|tauto]|discriminate]).
  - destruct S as [F [D [g [d [G [Q K]]]]]]. rewrite (inline_string_at w i g d G Q F). destruct (gdata_panics w "inln" _ d D K) as [A B]. split; auto. rewrite A. split.
    + intros [p P]. eauto 10.
    + intros [g' [d' [p [G' [Q' P]]]]]. assert (g' = g) by (unfold graphic, gdata in *; congruence). subst g'. assert (d' = d) by (unfold graphic, gdata in *; congruence). subst d'. eauto.
  - destruct S as [F [D [g [d [G [Q K]]]]]]. rewrite (anchor_string_at w a g d G Q F). destruct (gdata_panics w "anch" _ d D K) as [A B]. split; auto. rewrite A. split.
    + intros [p P]. eauto 10.
    + intros [g' [d' [p [G' [Q' P]]]]]. assert (g' = g) by (unfold graphic, gdata in *; congruence). subst g'. assert (d' = d) by (unfold graphic, gdata in *; congruence). subst d'. eauto.
Qed.
Lemma pchild_panics : forall w d x c, nth_error w d = Some x -> sturdy_pchild c ->
  (pchild_string w (Some d) c = Panic <-> exists r k, c = PRun r /\ In k (runR_children r) /\ is_picture k) /\ (forall e, pchild_string w (Some d) c <> Err e).
Proof.
  intros w d x [r|id r|r] N S; cbn [pchild_string sturdy_pchild] in *; try contradiction.
  - destruct S as [_ S]. rewrite Forall_forall in S. assert (NE : forall k e, In k (runR_children r) -> rchild_string w k <> Err e) by (intros k e I; apply rchild_panics; auto).
    split; [|intros e; now apply rconcat_no_err]. rewrite rconcat_panics by auto. split.
    + intros [k [I K]]. exists r, k. split; auto. split; auto. now apply (rchild_panics w k (S k I)).
    + intros [r' [k [E [I K]]]]. injection E as <-. exists k. split; auto. now apply (rchild_panics w k (S k I)).
  - unfold file_reg. rewrite N. cbn. split; [|discriminate]. split; [discriminate|intros [r' [k [E _]]]; discriminate].
Qed.
Lemma para_string_panics : forall w d x p, nth_error w d = Some x -> sturdy_para d p ->
  (para_string w p = Panic <-> has_picture p) /\ (forall e, para_string w p <> Err e).
Proof.
  intros w d x p N [F S]. unfold para_string. rewrite F. rewrite Forall_forall in S.
  assert (NE : forall c e, In c (para_children p) -> pchild_string w (Some d) c <> Err e) by (intros c e I; eapply pchild_panics; eauto).
  split; [|intros e; now apply rconcat_no_err]. rewrite rconcat_panics by auto. unfold has_picture. split.
  - intros [c [I K]]. apply (proj1 (pchild_panics w d x c N (S c I))) in K. destruct K as [r [k [-> [K1 K2]]]]. eauto.
  - intros [r [k [I [K1 K2]]]]. exists (PRun r). split; auto. apply (proj1 (pchild_panics w d x _ N (S _ I))). eauto.
Qed.
Lemma cell_string_panics : forall w d x c, nth_error w d = Some x -> sturdy_cell d c ->
  (cell_string w c = Panic <-> exists p l, cell_paras c = p :: l /\ has_picture p) /\ (forall e, cell_string w c <> Err e).
Proof.
  intros w d x c N [_ [_ S]]. unfold cell_string. destruct (cell_paras c) as [|p l].
  - split; [|discriminate]. split; [discriminate|intros [q [l [E _]]]; discriminate].
  - inversion S; subst. destruct (para_string_panics w d x p N H2) as [A B].
    assert (G : (para_string w p = Panic <-> (exists q m, p :: l = q :: m /\ has_picture q))).
    { rewrite A. split; [eauto|]. intros [q [m [E K]]]. injection E as <- <-. exact K. }
    destruct (para_children p) as [|a b] eqn:C.
    + split; [|discriminate]. rewrite <- G. unfold para_string. rewrite C. cbn. split; discriminate.
    + split; [now rewrite bind_panics|]. intros e K. destruct (para_string w p) as [v|e'|]; cbn in K; try discriminate. eapply B; reflexivity.
Qed.
Lemma table_string_panics : forall w d x t, nth_error w d = Some x -> Forall (sturdy_row d) (table_rows t) ->
  (table_string w t = Panic <-> table_picture t).
Proof.
  intros w d x t N S. unfold table_string, table_picture. destruct (table_rows t) as [|r0 l] eqn:R.
  - split; [discriminate|intros [[r [m [E _]]] _]; discriminate].
  - destruct (row_cells r0) as [|c0 cl] eqn:C.
    + split; [discriminate|]. intros [[r [m [E K]]] _]. injection E as <- <-. congruence.
    + rewrite bind_panics. rewrite Forall_forall in S.
      assert (NC : forall r c e, In r (r0 :: l) -> In c (row_cells r) -> cell_string w c <> Err e).
      { intros r c e I J. destruct (S r I) as [_ S']. rewrite Forall_forall in S'. eapply cell_string_panics; eauto. }
      rewrite rconcat_panics.
      * split.
        -- intros [r [I K]]. split; [exists r0, l; split; auto; congruence|]. rewrite bind_panics in K. rewrite rconcat_panics in K by eauto.
           destruct K as [c [J K]]. destruct (S r I) as [_ S']. rewrite Forall_forall in S'. apply (proj1 (cell_string_panics w d x c N (S' c J))) in K.
           destruct K as [p [m [K1 K2]]]. exists r, c, p, m. auto.
        -- intros [_ [r [c [p [m [I [J [K1 K2]]]]]]]]. exists r. split; auto. rewrite bind_panics. rewrite rconcat_panics by eauto. exists c. split; auto.
           destruct (S r I) as [_ S']. rewrite Forall_forall in S'. apply (proj1 (cell_string_panics w d x c N (S' c J))). eauto.
      * intros r e I K. destruct (rconcat (cell_string w) (row_cells r)) as [v|e'|] eqn:X; cbn in K; try discriminate.
        apply (rconcat_no_err _ (cell_string w) (row_cells r) e') in X; auto. eauto.
Qed.
Lemma scratch_strings : forall l w d x, Forall from_scratch l -> run_ops l [] = Some w -> nth_error w d = Some x ->
  (forall a p, get_para (d_items x) a = Some p -> (para_string w p = Panic <-> has_picture p)) /\
  (forall i t, nth_error (d_items x) i = Some (ITable t) -> (table_string w t = Panic <-> table_picture t)).
Proof.
  intros l w d x F E N. assert (S : sturdy w) by (eapply run_sturdy; eauto using sturdy_nil). split.
  - intros a p G. apply (para_string_panics w d x p N). exact (get_para_sturdy _ _ _ _ (S _ _ N) G).
  - intros i t G. apply (table_string_panics w d x t N). exact (proj2 (nth_all _ _ _ _ _ (S _ _ N) G)).
Qed.
End P.
