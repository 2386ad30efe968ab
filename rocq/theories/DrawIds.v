(** Drawing ids stay unique without AppendFile. *)
From Coq Require Import String Ascii List Bool Arith NArith ZArith Lia.
From Verif Require Import GoStr Num Lib Types Docx Text Api Keep Copy History RegFacts IdFacts SpecApi SpecEdit ApiFacts HistFacts HistFacts2.
Import ListNotations.
Local Open Scope list_scope.
Local Open Scope string_scope.

(** subsequences *)
Inductive sub {A} : list A -> list A -> Prop :=
| sub_nil : sub [] []
| sub_skip x a b : sub a b -> sub a (x :: b)
| sub_take x a b : sub a b -> sub (x :: a) (x :: b).
Lemma sub_refl : forall A (l : list A), sub l l.
Proof. induction l; [constructor|apply sub_take; auto]. Qed.
Lemma sub_empty : forall A (l : list A), sub [] l.
Proof. induction l; constructor; auto. Qed.
Lemma sub_in : forall A (a b : list A) x, sub a b -> In x a -> In x b.
Proof. induction 1; cbn; intuition. Qed.
Lemma sub_nodup : forall A (a b : list A), sub a b -> NoDup b -> NoDup a.
Proof.
  induction 1; intros N; auto.
  - inversion N; auto.
  - inversion N; subst. constructor; auto. intro I. apply H2. eapply sub_in; eauto.
Qed.
Lemma sub_app : forall A (a b c d : list A), sub a b -> sub c d -> sub (a ++ c)%list (b ++ d)%list.
Proof. induction 1; cbn; intros; auto; [apply sub_skip|apply sub_take]; auto. Qed.
Lemma sub_flat : forall A B (f : A -> list B) a b, sub a b -> sub (flat_map f a) (flat_map f b).
Proof.
  induction 1; cbn; [constructor| |].
  - change (flat_map f a) with ([] ++ flat_map f a)%list. apply sub_app; auto. apply sub_empty.
  - apply sub_app; auto. apply sub_refl.
Qed.
Lemma sub_filter : forall A f (l : list A), sub (filter f l) l.
Proof. induction l; cbn; [constructor|]. destruct (f a); [apply sub_take|apply sub_skip]; auto. Qed.
Lemma sub_keep : forall A ty names (l : list A), sub (keep_named ty names l) l.
Proof. induction l; cbn; [constructor|]. destruct (existsb _ _); [apply sub_take|apply sub_skip]; auto. Qed.
Lemma sub_map_flat : forall A B (f : A -> list B) (g : A -> A) l, (forall x, In x l -> sub (f (g x)) (f x)) -> sub (flat_map f (map g l)) (flat_map f l).
Proof. induction l; cbn; intros; [constructor|]. apply sub_app; auto. Qed.
Lemma sub_trans : forall A (a b c : list A), sub a b -> sub b c -> sub a c.
Proof.
  intros A a b c H1 H2; revert a H1. induction H2; intros a0 H1; auto.
  - constructor; auto.
  - inversion H1; subst; [apply sub_skip|apply sub_take]; auto.
Qed.

Definition body_cells (l : list item) : list cell :=
  flat_map (fun x => match x with ITable t => flat_map row_cells (table_rows t) | _ => [] end) l.
Definition attached (i : nat) (l : list item) : Prop :=
  (forall p, In p (body_paras l) -> para_file p = Some i) /\ (forall c, In c (body_cells l) -> cell_file c = Some i).

Definition ids_ok (n : N) (l : list i64) : Prop := NoDup l /\ forall x, In x l -> (1 <= iv x <= Z.of_N n)%Z.
Lemma ids_ok_sub : forall n n' a b, sub a b -> ids_ok n b -> (n <= n')%N -> ids_ok n' a.
Proof.
  intros n n' a b S [N B] L. split; [eapply sub_nodup; eauto|]. intros x I. assert (1 <= iv x <= Z.of_N n)%Z by (eapply B, sub_in; eauto). lia.
Qed.
Lemma ids_ok_new : forall n A B C x, ids_ok n (A ++ B ++ C)%list -> iv x = Z.of_N (n + 1) -> ids_ok (n + 1) (A ++ (B ++ [x]) ++ C)%list.
Proof.
  intros n A B C x [N K] E. split.
  - rewrite <- app_assoc. cbn. rewrite app_assoc. apply (NoDup_Add (Add_app x (A ++ B)%list C)). rewrite <- app_assoc.
    split; auto. intro I. specialize (K x I). lia.
  - intros y I. rewrite !in_app_iff in I. cbn in I.
    assert (D : y = x \/ In y (A ++ B ++ C)%list) by (rewrite !in_app_iff; intuition).
    destruct D as [->|D]; [lia|]. specialize (K y D). lia.
Qed.

Section D.
Context `{GoLib}.

(** the ids after a call on a run *)
Lemma set_nth_flat : forall A B (f : A -> list B) l k x y, nth_error l k = Some x -> sub (f y) (f x) -> sub (flat_map f (set_nth l k y)) (flat_map f l).
Proof.
  induction l as [|z l IH]; intros [|k] x y E S; cbn in *; try discriminate.
  - injection E as ->. apply sub_app; auto. apply sub_refl.
  - apply sub_app; [apply sub_refl|]. eauto.
Qed.
Lemma exec_rop_ids : forall o r r', exec_rop o r = Ok r' ->
  sub (flat_map drawing_ids (runR_children r')) (flat_map drawing_ids (runR_children r)).
Proof.
  intros o r r' E. destruct o; cbn [exec_rop] in E;
    try (unfold run_color, run_size, run_sizecs, run_shade, run_spacing, run_bold, run_italic, run_underline, run_highlight, run_strike, run_font, on_rpr in E;
         destruct (runR_rpr r); inversion E; subst; apply sub_refl).
  - inversion E; subst. cbn. rewrite flat_map_app. cbn. rewrite app_nil_r. apply sub_refl.
  - inversion E; subst. cbn. apply sub_flat, sub_keep.
  - destruct (nth_error (runR_children r) k) as [c|] eqn:K; [|discriminate]. bok E. inversion E; subst. cbn.
    eapply set_nth_flat; eauto. destruct c as [?|?|?|[x|] [y|]], anch; cbn in E0; inversion E0; subst; cbn; apply sub_refl.
Qed.

Definition plain_ids (p p' : para) : Prop := sub (para_ids p') (para_ids p) /\ para_file p' = para_file p.

Lemma drop_in_para_ids : forall t p, plain_ids p (drop_in_para t p).
Proof.
  intros t [[pp ch f]]. split; auto. unfold para_ids, drop_in_para. cbn. apply sub_map_flat. intros c _.
  destruct c as [r|id r|r]; cbn; try apply sub_refl. unfold pchild_ids; cbn. apply sub_flat, sub_filter.
Qed.
Lemma para_drop_ids : forall n p, plain_ids p (para_drop n p).
Proof.
  intros n p. unfold para_drop. destruct (drop_test n); [apply drop_in_para_ids|]. split; auto. apply sub_refl.
Qed.

(** the docPr ids after a call on a paragraph *)
Lemma exec_pop_ids : forall o w p w' p' i d, exec_pop o w p = Ok (w', p') -> para_file p = Some i -> nth_error w i = Some d ->
  (docid (d_reg d) + 1 < B63)%N ->
  para_file p' = para_file p /\ exists d', nth_error w' i = Some d' /\
  ((sub (para_ids p') (para_ids p) /\ docid (d_reg d') = docid (d_reg d)) \/
   (exists x, para_ids p' = (para_ids p ++ [x])%list /\ iv x = Z.of_N (docid (d_reg d) + 1) /\ docid (d_reg d') = (docid (d_reg d) + 1)%N)).
Proof.
  intros o w p w' p' i d E F N L.
  assert (P : forall q, plain_ids p q -> Ok (w, q) = Ok (w', p') -> para_file p' = para_file p /\ exists d', nth_error w' i = Some d' /\
  ((sub (para_ids p') (para_ids p) /\ docid (d_reg d') = docid (d_reg d)) \/
   (exists x, para_ids p' = (para_ids p ++ [x])%list /\ iv x = Z.of_N (docid (d_reg d) + 1) /\ docid (d_reg d') = (docid (d_reg d) + 1)%N))).
  { intros q [Q1 Q2] [=<-<-]. split; auto. exists d. auto. }
  assert (A : forall r, flat_map drawing_ids (runR_children r) = [] -> plain_ids p (add_child (PRun r) p)).
  { intros r Er. destruct p as [[pp ch f]]. split; auto. unfold para_ids, add_child. cbn. rewrite flat_map_app. cbn. unfold pchild_ids at 2. cbn.
    rewrite Er. rewrite !app_nil_r. apply sub_refl. }
  destruct o; cbn [exec_pop] in E.
  - rewrite add_text_run in E. refine (P _ _ E). apply A.
    pose proof (text_run_plain t) as T. unfold plain_run in T. induction (runR_children (text_run t)) as [|c l IH]; auto. cbn.
    rewrite IH by (intros; apply T; now right). specialize (T c (or_introl eq_refl)). destruct c; auto; discriminate.
  - refine (P _ _ E). apply A. reflexivity.
  - refine (P _ _ E). apply A. reflexivity.
  - destruct (add_link_inv _ _ _ _ _ _ E) as [i' [d' [B1 [B2 [B3 B4]]]]]. rewrite F in B1. injection B1 as <-. rewrite N in B2. injection B2 as <-.
    subst. split; [destruct p as [[pp ch f]]; reflexivity|]. eexists. split; [apply set_nth_same; eapply nth_lt; eauto|].
    left. split; [|reflexivity]. destruct p as [[pp ch f]]. unfold para_ids, add_child; cbn. rewrite flat_map_app. cbn. rewrite app_nil_r. apply sub_refl.
  - destruct (add_drawing_inv _ _ _ _ _ _ E) as [i' [d' [sw [sh [fmt [ew [eh [B1 [B2 [B3 [B4 [B5 B6]]]]]]]]]]]].
    rewrite F in B1. injection B1 as <-. rewrite N in B2. injection B2 as <-. rewrite new_image_eq in B5, B6. cbn [fst snd] in B5, B6.
    subst. split; [destruct p as [[pp ch f]]; reflexivity|]. eexists. split; [apply set_nth_same; eapply nth_lt; eauto|].
    right. exists (int_of_u (docid (d_reg d) + 1)). split; [|split].
    + destruct p as [[pp ch f]]. unfold para_ids, add_child; cbn [para_children set_para_children mk_para para_r paraR_children]. rewrite flat_map_app.
      f_equal. cbn. unfold inc_docid. cbn. rewrite uadd1_small by lia. destruct anch; reflexivity.
    + rewrite int_of_u_small by lia. reflexivity.
    + cbn. rewrite uadd1_small by lia. reflexivity.
  - unfold add_shape in E. bok E. destruct v as [[idn ids] w1]. rewrite F in E0. apply on_file_reg in E0. destruct E0 as [d' [N' [E1 E2]]].
    rewrite N in N'. injection N' as <-. inversion E; subst. split; [destruct p as [[pp ch f]]; reflexivity|].
    eexists. split; [apply set_nth_same; eapply nth_lt; eauto|]. right. exists idn. unfold new_shape_ids in *. cbn in E1. injection E1 as E1 E3.
    rewrite uadd1_small in E1 by lia. subst idn. split; [|split].
    + destruct p as [[pp ch f]]. unfold para_ids, add_child; cbn [para_children set_para_children mk_para para_r paraR_children]. rewrite flat_map_app. f_equal.
      destruct anch; reflexivity.
    + rewrite int_of_u_small by lia. reflexivity.
    + cbn. rewrite uadd1_small by lia. reflexivity.
  - refine (P _ _ E). destruct p as [[pp ch f]]. split; auto. apply sub_refl.
  - refine (P _ _ E). destruct p as [[pp ch f]]. split; auto. apply sub_refl.
  - refine (P _ _ E). destruct p as [[pp ch f]]. split; auto. apply sub_refl.
  - refine (P _ _ E). destruct p as [[pp ch f]]. split; auto. apply sub_refl.
  - refine (P _ _ E). destruct p as [[pp ch f]]. split; auto. apply sub_refl.
  - refine (P _ _ E). destruct p as [[pp ch f]]. split; auto. unfold para_ids. cbn. apply sub_flat, sub_keep.
  - refine (P _ _ E). apply para_drop_ids.
  - destruct (nth_error (para_children p) k) as [[r|id r|r]|] eqn:K; try discriminate.
    + bok E. refine (P _ _ E). destruct p as [[pp ch f]]. split; auto. unfold para_ids. cbn in *. eapply set_nth_flat; eauto.
      unfold pchild_ids; cbn. eapply exec_rop_ids; eauto.
    + bok E. refine (P _ _ E). destruct p as [[pp ch f]]. split; auto. unfold para_ids. cbn in *. eapply set_nth_flat; eauto.
      unfold pchild_ids; cbn. eapply exec_rop_ids; eauto.
Qed.

(** a call on a paragraph of some other place raises docID by at most one *)
Lemma exec_pop_docid : forall o w p w' p' i d, exec_pop o w p = Ok (w', p') -> nth_error w i = Some d ->
  (docid (d_reg d) + 1 < B63)%N -> exists d', nth_error w' i = Some d' /\ d_items d' = d_items d /\
    (docid (d_reg d) <= docid (d_reg d') <= docid (d_reg d) + 1)%N.
Proof.
  intros o w p w' p' i d E N L. destruct (exec_pop_items _ _ _ _ _ E) as [S [LE O]].
  specialize (S i). unfold items_at in S. rewrite N in S. cbn in S.
  destruct (nth_error w' i) as [d'|] eqn:N'; [|discriminate]. injection S as S. exists d'. split; auto. split; auto.
  assert (D : para_file p = Some i \/ para_file p <> Some i) by (destruct (para_file p) as [k|]; [destruct (Nat.eq_dec k i)|]; [left|right|right]; congruence).
  destruct D as [D|D].
  - destruct (exec_pop_ids _ _ _ _ _ _ _ E D N L) as [_ [d2 [A B]]]. rewrite N' in A. injection A as <-.
    destruct B as [[_ B]|[x [_ [_ B]]]]; lia.
  - rewrite (O i D), N in N'. injection N' as <-. lia.
Qed.

(** places *)
Lemma in_put_para : forall l a p p' q, get_para l a = Some p -> In q (body_paras (put_para l a p')) -> q = p' \/ In q (body_paras l).
Proof.
  intros l a p p' q G I. destruct (get_para_split _ _ _ G) as [A [B [E1 E2]]]. rewrite E2 in I. rewrite E1.
  rewrite in_app_iff in *. cbn in *. intuition.
Qed.
Lemma put_cell_cells : forall l i r c v v' x, get_cell l i r c = Some v -> In x (body_cells (put_cell l i r c v')) -> x = v' \/ In x (body_cells l).
Proof.
  intros l i r c v v' x G I. unfold get_cell in G. unfold put_cell in I.
  destruct (nth_error l i) as [[|t|]|] eqn:E1; try discriminate.
  destruct (nth_error (table_rows t) r) as [y|] eqn:E2; try discriminate.
  destruct (nth_split _ _ _ _ E1) as [a1 [b1 [F1 [_ S1]]]].
  destruct (nth_split _ _ _ _ E2) as [a2 [b2 [F2 [_ S2]]]].
  destruct (nth_split _ _ _ _ G) as [a3 [b3 [F3 [_ S3]]]].
  rewrite S1 in I. unfold body_cells in *. rewrite flat_split in I. cbn [table_rows set_table_rows] in I. rewrite S2, flat_split in I. cbn [row_cells set_row_cells] in I. rewrite S3 in I.
  rewrite F1, flat_split. rewrite F2, flat_split. rewrite F3. rewrite !in_app_iff in *. cbn in *. intuition.
Qed.
Lemma get_cell_in : forall l i r c v, get_cell l i r c = Some v -> In v (body_cells l).
Proof.
  intros l i r c v G. unfold get_cell in G. destruct (nth_error l i) as [[|t|]|] eqn:E1; try discriminate.
  destruct (nth_error (table_rows t) r) as [y|] eqn:E2; try discriminate.
  unfold body_cells. apply in_flat_map. exists (ITable t). split; [eapply nth_error_In; eauto|].
  apply in_flat_map. exists y. split; eapply nth_error_In; eauto.
Qed.
Lemma put_para_cells : forall l a p p' x, get_para l a = Some p -> In x (body_cells (put_para l a p')) -> exists y, In y (body_cells l) /\ cell_file x = cell_file y.
Proof.
  intros l [i|i r c k] p p' x G I; cbn in G, I.
  - destruct (nth_error l i) as [[q| |]|] eqn:E; try discriminate.
    destruct (nth_split _ _ _ _ E) as [a [b [F [_ S]]]]. rewrite S in I. unfold body_cells in I |- *. rewrite flat_split in I. cbn in I.
    exists x. split; auto. rewrite F, flat_split. exact I.
  - destruct (get_cell l i r c) as [v|] eqn:E; [|discriminate].
    destruct (put_cell_cells _ _ _ _ _ _ _ E I) as [->|J]; [|eauto]. exists v. split; [eapply get_cell_in; eauto|reflexivity].
Qed.

(** the invariant *)
Definition inv (i : nat) (n : N) (w : world) : Prop :=
  exists d, nth_error w i = Some d /\ (docid (d_reg d) <= n)%N /\ attached i (d_items d) /\ ids_ok (docid (d_reg d)) (body_ids (d_items d)).

Lemma inv_items : forall i n w d l, nth_error w i = Some d -> (docid (d_reg d) <= n)%N -> attached i l ->
  sub (body_ids l) (body_ids (d_items d)) -> ids_ok (docid (d_reg d)) (body_ids (d_items d)) ->
  forall d', d_items d' = l -> d_reg d' = d_reg d -> inv i n (set_nth w i d').
Proof.
  intros i n w d l N L A S I d' E R. exists d'. split; [apply set_nth_same; eapply nth_lt; eauto|]. rewrite R, E. split; auto. split; auto.
  eapply ids_ok_sub; eauto. lia.
Qed.
Lemma inv_same : forall i n n' w w', inv i n w -> nth_error w' i = nth_error w i -> (n <= n')%N -> inv i n' w'.
Proof. intros i n n' w w' [d [A [B [C D]]]] E L. exists d. split; [congruence|]. split; [lia|]. split; auto. Qed.

Definition no_append (i : nat) (o : op) : Prop := forall k, o <> OAppend i k.

Lemma on_doc_inv : forall w d k w', on_doc w d k = Ok w' -> exists x x', nth_error w d = Some x /\ k x = Ok x' /\ w' = set_nth w d x'.
Proof. intros w d k w' E. unfold on_doc in E. destruct (nth_error w d) as [x|]; [|discriminate]. bok E. inversion E; subst. eauto. Qed.

Lemma attached_app : forall i l x, attached i l -> attached i [x] -> attached i (l ++ [x])%list.
Proof.
  intros i l x [A1 A2] [B1 B2]. split.
  - intros p I. unfold body_paras in *. rewrite flat_map_app, in_app_iff in I. destruct I; auto.
  - intros p I. unfold body_cells in *. rewrite flat_map_app, in_app_iff in I. destruct I; auto.
Qed.
Lemma body_ids_app : forall a b, body_ids (a ++ b)%list = (body_ids a ++ body_ids b)%list.
Proof. intros. unfold body_ids, body_paras. now rewrite !flat_map_app. Qed.

Lemma keep_in : forall A ty names (l : list A) x, In x (keep_named ty names l) -> In x l.
Proof. intros. eapply sub_in; [apply sub_keep|eauto]. Qed.

Lemma exec_inv : forall o i n w w', inv i n w -> (n + 1 < B63)%N -> no_append i o -> exec o w = Ok w' -> inv i (n + 1) w'.
Proof.
  intros o i n w w' I L NA E.
  assert (OD : forall d k, on_doc w d k = Ok w' ->
    (d = i -> forall x x', k x = Ok x' -> attached i (d_items x) -> d_reg x' = d_reg x /\ attached i (d_items x') /\ sub (body_ids (d_items x')) (body_ids (d_items x))) ->
    inv i (n + 1) w').
  { intros d k F K. destruct (on_doc_inv _ _ _ _ F) as [x [x' [F1 [F2 F3]]]]. subst w'. destruct (Nat.eq_dec d i) as [->|Ne].
    - destruct I as [y [I1 [I2 [I3 I4]]]]. rewrite F1 in I1. injection I1 as <-. destruct (K eq_refl _ _ F2 I3) as [K1 [K2 K3]].
      eapply inv_items; eauto. lia.
    - eapply inv_same; eauto; [|lia]. now apply set_nth_other. }
  assert (AP : forall d x y, on_doc w d (fun z => Ok (add_item y z)) = Ok w' -> x = y -> (d = i -> attached i [y] /\ body_ids [y] = []) -> inv i (n + 1) w').
  { intros d x y F _ K. eapply OD; eauto. intros Ed z z' [=<-] Az. destruct (K Ed) as [K1 K2]. split; auto. cbn [d_items add_item set_d_items].
    split; [now apply attached_app|]. rewrite body_ids_app, K2, app_nil_r. apply sub_refl. }
  destruct o; cbn [exec] in E.
  - inversion E; subst. eapply inv_same; eauto; [|lia]. destruct I as [d [I _]]. apply nth_error_app1. eapply nth_lt; eauto.
  - inversion E; subst. eapply inv_same; eauto; [|lia]. destruct I as [d [I _]]. apply nth_error_app1. eapply nth_lt; eauto.
  - destruct (exec_para_inv _ _ _ _ _ E) as [x [p [w1 [p' [A1 [A2 [A3 [y [A4 [A5 A6]]]]]]]]]].
    destruct I as [z [I1 [I2 [[I3 I3'] I4]]]].
    destruct (Nat.eq_dec d i) as [->|Ne].
    + rewrite A1 in I1. injection I1 as <-. destruct (get_para_split _ _ _ A2) as [A [B [S1 S2]]].
      assert (Fp : para_file p = Some i). { apply I3. rewrite S1. apply in_app_iff. right; now left. }
      destruct (exec_pop_ids _ _ _ _ _ _ _ A3 Fp A1) as [P1 [y' [P2 P3]]]; [lia|]. rewrite A4 in P2. injection P2 as <-.
      subst w'. exists (set_d_items (put_para (d_items x) a p') y). split; [apply set_nth_same; eapply nth_lt; eauto|]. cbn [d_reg d_items set_d_items].
      assert (AT : attached i (put_para (d_items x) a p')).
      { split.
        - intros q Iq. destruct (in_put_para _ _ _ _ _ A2 Iq) as [->|J]; auto. congruence.
        - intros c Ic. destruct (put_para_cells _ _ _ _ _ A2 Ic) as [v [J1 J2]]. rewrite J2. auto. }
      unfold body_ids in *. rewrite S2. rewrite S1 in I4. rewrite flat_split in *.
      destruct P3 as [[P3 P4]|[u [P3 [P4 P5]]]].
      * rewrite P4. split; [lia|]. split; auto. eapply ids_ok_sub; [|eauto|lia]. apply sub_app; [apply sub_refl|]. apply sub_app; auto. apply sub_refl.
      * rewrite P5. split; [lia|]. split; auto. rewrite P3. now apply ids_ok_new.
    + destruct (exec_pop_docid _ _ _ _ _ i z A3 I1) as [z' [Z1 [Z2 Z3]]]; [lia|].
      exists z'. subst w'. split; [now rewrite set_nth_other|]. split; [lia|]. rewrite Z2. split; [split; auto|].
      eapply ids_ok_sub; eauto; [apply sub_refl|lia].
  - bok E. destruct v as [w1 p']. inversion E; subst. destruct I as [z [I1 [I2 [I3 I4]]]].
    destruct (exec_pop_docid _ _ _ _ _ i z E0 I1) as [z' [Z1 [Z2 Z3]]]; [lia|].
    exists z'. split; auto. split; [lia|]. rewrite Z2. split; auto. eapply ids_ok_sub; eauto; [apply sub_refl|lia].
  - eapply (AP d); eauto. intros ->. split; auto. split; [intros p [<-|[]]; reflexivity|intros c []].
  - eapply OD; eauto. intros -> x x' K At. cbn in K. destruct (get_cell (d_items x) i0 r c) as [v|] eqn:G; inversion K; subst. cbn [d_reg d_items set_d_items].
    split; auto. destruct (get_cell_split _ _ _ _ _ G) as [A [B [S1 S2]]]. destruct At as [At1 At2].
    assert (Fv : cell_file v = Some i) by (eapply At2, get_cell_in; eauto). split; [split|].
    + intros p Ip. rewrite S1 in Ip. cbn in Ip. rewrite !in_app_iff in Ip. cbn in Ip.
      destruct Ip as [J|[[J|[<-|[]]]|J]]; auto; apply At1; rewrite S2, !in_app_iff; auto.
    + intros x0 Ix. destruct (put_cell_cells _ _ _ _ _ _ _ G Ix) as [->|J]; auto.
    + unfold body_ids. rewrite S1, S2. cbn [cell_paras cell_add_paragraph set_cell_paras]. rewrite !flat_map_app. cbn. rewrite app_nil_r. apply sub_refl.
  - eapply OD; eauto. intros -> x x' K At. cbn in K. bok K. destruct v as [x1 cc]. inversion K; subst. unfold add_table in E0.
    destruct (_ <? _)%Z; [discriminate|]. destruct (_ && _)%bool; [discriminate|]. destruct (use_colors col) as [cs cc2]. inversion E0; subst. cbn [d_reg d_items add_item set_d_items].
    set (rows := repeat _ _). assert (R : forall row, In row rows -> forall c, In c (row_cells row) -> c = auto_cell i).
    { intros row Ir cz Ic. apply repeat_spec in Ir. subst row. cbn in Ic. now apply repeat_spec in Ic. }
    assert (P0 : body_paras [ITable (mk_table (Some (table_properties width cs)) (Some []) rows)] = []).
    { cbn. rewrite app_nil_r. unfold table_paras. cbn. clearbody rows. induction rows as [|row rows IH]; auto. cbn. rewrite IH by (intros; eapply R; eauto; now right).
      rewrite app_nil_r. assert (R0 := R row (or_introl eq_refl)). induction (row_cells row) as [|c1 l IHl]; auto. cbn. rewrite IHl by (intros; apply R0; now right).
      rewrite (R0 c1) by now left. reflexivity. }
    split; auto. split.
    + apply attached_app; auto. split; [rewrite P0; intros p []|]. intros c1 Ic. cbn in Ic. rewrite app_nil_r in Ic. apply in_flat_map in Ic.
      destruct Ic as [row [Ir Ic]]. rewrite (R _ Ir _ Ic). reflexivity.
    + rewrite body_ids_app. unfold body_ids at 2. rewrite P0. cbn. rewrite app_nil_r. apply sub_refl.
  - eapply OD; eauto. intros -> x x' [=<-] At. unfold add_table_twips. destruct (use_colors col) as [cs cc]. cbn [fst d_reg d_items add_item set_d_items].
    set (rows := map _ rh). assert (R : forall row, In row rows -> forall c, In c (row_cells row) -> exists v, c = twips_cell i v).
    { intros row Ir c0 Ic. apply in_map_iff in Ir. destruct Ir as [h [<- _]]. cbn in Ic. apply in_map_iff in Ic. destruct Ic as [v [<- _]]. eauto. }
    match goal with |- context [[ITable ?t]] => set (tb := t) end.
    assert (P0 : body_paras [ITable tb] = []).
    { cbn. rewrite app_nil_r. unfold table_paras. cbn. clearbody rows. clear tb. induction rows as [|row rows IH]; auto. cbn. rewrite IH by (intros; eapply R; eauto; now right).
      rewrite app_nil_r. assert (R0 := R row (or_introl eq_refl)). induction (row_cells row) as [|c1 l IHl]; auto. cbn. rewrite IHl by (intros; apply R0; now right).
      destruct (R0 c1) as [v ->]; [now left|]. reflexivity. }
    split; auto. split.
    + apply attached_app; auto. split; [rewrite P0; intros p []|]. intros c1 Ic. cbn in Ic. rewrite app_nil_r in Ic. apply in_flat_map in Ic.
      destruct Ic as [row [Ir Ic]]. destruct (R _ Ir _ Ic) as [v ->]. reflexivity.
    + rewrite body_ids_app. unfold body_ids at 2. rewrite P0. cbn. rewrite app_nil_r. apply sub_refl.
  - eapply OD; eauto. intros -> x x' K [At1 At2]. cbn in K. destruct (nth_error (d_items x) i0) as [[|t|]|] eqn:G; try discriminate. bok K. inversion K; subst.
    assert (T : table_rows v0 = table_rows t) by (unfold table_justification in E0; destruct (table_props t); inversion E0; reflexivity).
    destruct (nth_split _ _ _ _ G) as [a [b [F [_ S]]]]. cbn [d_reg d_items set_d_items]. rewrite S.
    assert (BP : body_paras (a ++ ITable v0 :: b)%list = body_paras (d_items x)) by (rewrite F; unfold body_paras; rewrite !flat_split; cbn [item_paras]; unfold table_paras; now rewrite T).
    assert (BC : body_cells (a ++ ITable v0 :: b)%list = body_cells (d_items x)) by (rewrite F; unfold body_cells; rewrite !flat_split; now rewrite T).
    split; auto. unfold attached, body_ids. rewrite BP, BC. split; auto. apply sub_refl.
  - eapply OD; eauto. intros -> x x' K [At1 At2]. cbn in K. destruct (nth_error (d_items x) i0) as [[|t|]|] eqn:G; try discriminate.
    destruct (nth_error (table_rows t) r) as [row|] eqn:G2; [|discriminate]. bok K. inversion K; subst.
    assert (T : row_cells v0 = row_cells row) by (unfold row_justification in E0; destruct (row_props row); inversion E0; reflexivity).
    destruct (nth_split _ _ _ _ G) as [a [b [F [_ S]]]]. destruct (nth_split _ _ _ _ G2) as [a2 [b2 [F2 [_ S2]]]]. cbn [d_reg d_items set_d_items]. rewrite S, S2.
    match goal with |- context [ITable ?t] => set (tb := t) end.
    assert (BP : body_paras (a ++ ITable tb :: b)%list = body_paras (d_items x)).
    { rewrite F; unfold body_paras; rewrite !flat_split; cbn [item_paras]; unfold table_paras, tb; cbn [table_rows set_table_rows]. rewrite F2, !flat_split. now rewrite T. }
    assert (BC : body_cells (a ++ ITable tb :: b)%list = body_cells (d_items x)).
    { rewrite F; unfold body_cells; rewrite !flat_split; unfold tb; cbn [table_rows set_table_rows]. rewrite F2, !flat_split. now rewrite T. }
    split; auto. unfold attached, body_ids. rewrite BP, BC. split; auto. apply sub_refl.
  - eapply OD; eauto. intros -> x x' K [At1 At2]. cbn in K. destruct (get_cell (d_items x) i0 r c) as [y|] eqn:G; [|discriminate]. bok K. inversion K; subst.
    assert (T : cell_paras v0 = cell_paras y /\ cell_file v0 = cell_file y) by (unfold cell_shade in E0; destruct (cell_props y); inversion E0; auto). destruct T as [T1 T2].
    cbn [d_reg d_items set_d_items]. destruct (get_cell_split _ _ _ _ _ G) as [A [B [S1 S2]]].
    split; auto. unfold attached, body_ids. rewrite S1, T1, <- S2. split; [split; auto|apply sub_refl].
    intros x0 Ix. destruct (put_cell_cells _ _ _ _ _ _ _ G Ix) as [->|J]; auto. rewrite T2. eapply At2, get_cell_in; eauto.
  - destruct a3; (eapply (AP d); eauto; intros ->; split; auto; split; [intros p []|intros c []]).
  - eapply OD; eauto. intros -> x x' [=<-] At. split; auto. split; auto. apply sub_refl.
  - eapply OD; eauto. intros -> x x' [=<-] [At1 At2]. cbn [d_reg d_items set_d_items]. split; auto. unfold body_keep. split; [split|].
    + intros p Ip. apply At1. eapply sub_in; [apply sub_flat, sub_keep|exact Ip].
    + intros p Ip. apply At2. eapply sub_in; [apply sub_flat, sub_keep|exact Ip].
    + unfold body_ids, body_paras. apply sub_flat, sub_flat, sub_keep.
  - eapply OD; eauto. intros -> x x' [=<-] [At1 At2]. cbn [d_reg d_items set_d_items]. split; auto.
    assert (BP : body_paras (drop_drawing_of name (d_items x)) = map (para_drop name) (body_paras (d_items x))).
    { unfold drop_drawing_of. generalize (d_items x) as l. induction l as [|y l IH]; auto. unfold body_paras in *. cbn [map flat_map]. rewrite IH, map_app. f_equal.
      destruct y as [p|t|s]; auto. cbn [drop_item item_paras]. unfold table_paras. cbn. generalize (table_rows t) as rows.
      induction rows as [|row rows IHr]; auto. cbn [map flat_map]. rewrite IHr, map_app. f_equal. cbn. generalize (row_cells row) as cs. induction cs as [|c cs IHc]; auto.
      cbn [map flat_map]. rewrite IHc, map_app. reflexivity. }
    assert (BC : forall c, In c (body_cells (drop_drawing_of name (d_items x))) -> exists c', In c' (body_cells (d_items x)) /\ cell_file c = cell_file c').
    { unfold drop_drawing_of, body_cells. intros c Ic. apply in_flat_map in Ic. destruct Ic as [y [Iy Ic]]. apply in_map_iff in Iy. destruct Iy as [z [<- Iz]].
      destruct z as [p|t|s]; try easy. cbn in Ic. apply in_flat_map in Ic. destruct Ic as [row [Ir Ic]]. apply in_map_iff in Ir. destruct Ir as [row' [<- Ir]].
      cbn in Ic. apply in_map_iff in Ic. destruct Ic as [c' [<- Ic]]. exists c'. split; auto. apply in_flat_map. exists (ITable t). split; auto. apply in_flat_map. eauto. }
    split; [split|].
    + intros p Ip. rewrite BP in Ip. apply in_map_iff in Ip. destruct Ip as [q [<- Iq]]. destruct (para_drop_ids name q) as [_ ->]. auto.
    + intros c Ic. destruct (BC c Ic) as [c' [J ->]]. auto.
    + unfold body_ids. rewrite BP. apply sub_map_flat. intros q _. apply para_drop_ids.
  - destruct (nth_error w d) eqn:Nd; [|discriminate]. assert (Ne : i <> d). { intros ->. apply (NA from). reflexivity. }
    unfold append_file in E. destruct (nth_error w from); [|discriminate]. apply append_items_only in E. destruct E as [_ E].
    eapply inv_same; eauto. lia.
  - apply split_olds in E. destruct E as [_ E]. eapply inv_same; eauto; [|lia]. destruct I as [z [I _]]. apply E. eapply nth_lt; eauto.
  - unfold Pack.parse in E. bok E. inversion E; subst. eapply inv_same; eauto; [|lia]. destruct I as [z [I _]]. apply nth_error_app1. eapply nth_lt; eauto.
Qed.

Lemma run_inv : forall l i n w w', inv i n w -> (n + N.of_nat (length l) < B63)%N -> Forall (no_append i) l -> run_ops l w = Some w' ->
  inv i (n + N.of_nat (length l)) w'.
Proof.
  induction l as [|o l IH]; intros i n w w' I L F R; cbn [run_ops length] in *.
  - injection R as <-. rewrite N.add_0_r. exact I.
  - inversion F; subst. destruct (exec o w) as [w1|e|] eqn:E; [| |discriminate].
    + apply (exec_inv o i n w w1) in E; auto; [|lia]. replace (n + N.of_nat (S (length l)))%N with (n + 1 + N.of_nat (length l))%N by lia. eapply IH; eauto. lia.
    + assert (inv i (n + 1) w) by (eapply inv_same; eauto; lia).
      replace (n + N.of_nat (S (length l)))%N with (n + 1 + N.of_nat (length l))%N by lia. eapply IH; eauto. lia.
Qed.

Lemma drawing_ids_unique : forall w0 l w d, run_ops l (w0 ++ [new_docx])%list = Some w -> nth_error w (length w0) = Some d ->
  (forall k, ~ In (OAppend (length w0) k) l) -> (N.of_nat (length l) < B63)%N -> NoDup (body_ids (d_items d)).
Proof.
  intros w0 l w d R N A L.
  assert (I : inv (length w0) 0 (w0 ++ [new_docx])%list).
  { exists new_docx. split; [rewrite nth_error_app2 by lia; now rewrite Nat.sub_diag|]. split; [cbn; lia|]. split; [split; intros x []|]. split; [constructor|intros x []]. }
  apply run_inv with (n := 0%N) (i := length w0) in R; auto.
  - destruct R as [d' [B1 [B2 [B3 [B4 _]]]]]. congruence.
  - apply Forall_forall. intros o Io k E. subst. eapply A; eauto.
Qed.
End D.
