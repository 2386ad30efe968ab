(** What calls change and what they leave alone. *)
From Coq Require Import String Ascii List Bool Arith NArith ZArith Lia.
From Verif Require Import GoStr Num Lib Types Docx Text Api Keep Copy History RegFacts IdFacts SpecApi SpecEdit ApiFacts.
Import ListNotations.
Local Open Scope list_scope.
Local Open Scope string_scope.

(** everything but the registry *)
Definition items_at (w : world) (i : nat) : option (list item * tmpl) := option_map (fun d => (d_items d, d_tmpl d)) (nth_error w i).
Definition reg_at (w : world) (i : nat) : option reg := option_map d_reg (nth_error w i).

(** ** only document [k] changes *)
Definition only (k : nat) (w w' : world) : Prop :=
  length w' = length w /\ forall j, j <> k -> nth_error w' j = nth_error w j.
Lemma only_refl : forall k w, only k w w.
Proof. split; auto. Qed.
Lemma only_trans : forall k a b c, only k a b -> only k b c -> only k a c.
Proof. intros k a b c [L1 H1] [L2 H2]. split; [congruence|]. intros j N. rewrite H2, H1; auto. Qed.
Lemma only_set : forall k w d, only k w (set_nth w k d).
Proof. intros. split; [apply set_nth_length|]. intros. apply set_nth_other; auto. Qed.
Lemma on_file_only : forall A w i (k : reg -> A * reg) x w', on_file w (Some i) k = Ok (x, w') -> only i w w'.
Proof.
  intros A w i k x w' H. unfold on_file in H. destruct (nth_error w i); [|discriminate].
  destruct (k (d_reg d)). inversion H; subst. apply only_set.
Qed.

(** the items of no document change, nor the registry of any other than [f] *)
Definition same_items (w w' : world) : Prop := forall j, items_at w' j = items_at w j.
Lemma on_file_items : forall A w f (k : reg -> A * reg) x w', on_file w f k = Ok (x, w') -> same_items w w'.
Proof.
  intros A w f k x w' H j. unfold on_file in H. destruct f as [i|]; [|discriminate].
  destruct (nth_error w i) as [d|] eqn:E; [|discriminate].
  destruct (k (d_reg d)). inversion H; subst. unfold items_at. destruct (Nat.eq_dec i j).
  - subst. rewrite set_nth_same by (eapply nth_lt; eauto). now rewrite E.
  - now rewrite set_nth_other.
Qed.
Lemma on_file_reg : forall A w i (k : reg -> A * reg) x w', on_file w (Some i) k = Ok (x, w') ->
  exists d, nth_error w i = Some d /\ x = fst (k (d_reg d)) /\ w' = set_nth w i (set_d_reg (snd (k (d_reg d))) d).
Proof.
  intros A w i k x w' H. unfold on_file in H. destruct (nth_error w i) as [d|]; [|discriminate].
  exists d. destruct (k (d_reg d)) eqn:K. inversion H; subst. auto.
Qed.

Section Frame.
Context `{GoLib}.

Lemma copy_graphic_only : forall to f og w w' c, copy_graphic to f og w = Ok (w', c) -> only to w w' /\ same_items w w'.
Proof.
  intros to f og w w' c H0. unfold copy_graphic in H0.
  assert (R : only to w w /\ same_items w w) by (split; [apply only_refl|intro; auto]).
  destruct og as [g|]; [|discriminate]. destruct (graphicR_data g) as [d|]; [|discriminate].
  destruct (gdataR_pic d) as [p|].
  - destruct (pic_blip p) as [b|]; [|inversion H0; subst; auto].
    bok H0. destruct (refer_target v _) as [tgt|e|]; [|inversion H0; subst; auto|discriminate].
    bok H0. destruct v0 as [idn w1]. bok H0. destruct v0 as [idu w2].
    assert (G : only to w w2 /\ same_items w w2).
    { split. { eapply only_trans; eapply on_file_only; eauto. }
      intro j. erewrite (on_file_items _ _ _ _ _ _ E1), (on_file_items _ _ _ _ _ _ E0). reflexivity. }
    destruct (drop 6 tgt); [|discriminate]. bok H0. bok H0.
    destruct v1 as [[? data]|]; [|inversion H0; subst; auto].
    bok H0. destruct v1 as [rid w3]. destruct (pic_nvpic p); [|discriminate].
    inversion H0; subst. destruct G as [G1 G2]. split.
    + eapply only_trans; eauto. eapply on_file_only; eauto.
    + intro j. erewrite (on_file_items _ _ _ _ _ _ E4). apply G2.
  - destruct (gdataR_shape d), (gdataR_canvas d); inversion H0; subst; auto.
Qed.
Definition frame (to : nat) (w w' : world) : Prop := only to w w' /\ same_items w w'.
Lemma frame_refl : forall to w, frame to w w.
Proof. split; [apply only_refl|intro; auto]. Qed.
Lemma frame_trans : forall to a b c, frame to a b -> frame to b c -> frame to a c.
Proof. intros to a b c [A B] [C D]. split; [eapply only_trans; eauto|]. intro j. now rewrite D, B. Qed.
Lemma copy_rchild_frame : forall to c w w' c', copy_rchild to c w = Ok (w', c') -> frame to w w'.
Proof.
  intros to c w w' c' H0. destruct c as [t|t|t|[x|] [y|]]; cbn [copy_rchild] in H0;
    try (inversion H0; subst; apply frame_refl);
    bok H0; destruct v; inversion H0; subst; eapply copy_graphic_only; eauto.
Qed.
Lemma copy_list_frame : forall A B to (f : A -> world -> res (world * B)) l,
  (forall x w w' y, f x w = Ok (w', y) -> frame to w w') ->
  forall w w' l', copy_list f l w = Ok (w', l') -> frame to w w'.
Proof.
  intros A B to f l F; induction l as [|x l IH]; intros w w' l' H0; cbn in H0.
  - inversion H0; subst; apply frame_refl.
  - bok H0. destruct v as [w1 y]. bok H0. destruct v as [w2 l2]. inversion H0; subst.
    eapply frame_trans; eauto.
Qed.
Lemma copy_run_frame : forall to c w w' c', copy_run to c w = Ok (w', c') -> frame to w w'.
Proof.
  intros to c w w' c' H0. unfold copy_run in H0. bok H0. destruct v. inversion H0; subst.
  eapply copy_list_frame; [|eauto]. intros; eapply copy_rchild_frame; eauto.
Qed.
Lemma on_file_frame : forall A w i (k : reg -> A * reg) x w', on_file w (Some i) k = Ok (x, w') -> frame i w w'.
Proof. intros. split; [eapply on_file_only; eauto|eapply on_file_items; eauto]. Qed.
Lemma copy_pchild_frame : forall to f c w w' c', copy_pchild to f c w = Ok (w', c') -> frame to w w'.
Proof.
  intros to f c w w' c' H0. destruct c as [r|id r|r]; cbn [copy_pchild] in H0.
  - bok H0; destruct v; inversion H0; subst. eapply copy_run_frame; eauto.
  - bok H0. destruct (refer_target v id) as [tgt|e|]; [|inversion H0; subst; apply frame_refl|discriminate].
    bok H0. destruct v0 as [rid w1]. bok H0. destruct v0 as [w2 r']. inversion H0; subst.
    eapply frame_trans; [eapply on_file_frame; eauto|eapply copy_run_frame; eauto].
  - inversion H0; subst; apply frame_refl.
Qed.
Lemma copy_para_frame : forall to c w w' c', copy_para to c w = Ok (w', c') -> frame to w w'.
Proof.
  intros to c w w' c' H0. unfold copy_para in H0. bok H0. destruct v. inversion H0; subst.
  eapply copy_list_frame; [|eauto]. intros; eapply copy_pchild_frame; eauto.
Qed.
Lemma copy_item_frame : forall to c w w' c', copy_item to c w = Ok (w', c') -> frame to w w'.
Proof.
  intros to c w w' c' H0. destruct c as [p|t|s]; cbn in H0.
  - bok H0. destruct v. inversion H0; subst. eapply copy_para_frame; eauto.
  - bok H0. destruct v. inversion H0; subst. unfold copy_table in E. bok E. destruct v. inversion E; subst.
    eapply copy_list_frame; [|eauto]. intros r w1 w2 r' Hr. unfold copy_row in Hr. bok Hr. destruct v. inversion Hr; subst.
    eapply copy_list_frame; [|eauto]. intros c w3 w4 c' Hc. unfold copy_cell in Hc. bok Hc. destruct v. inversion Hc; subst.
    eapply copy_list_frame; [|eauto]. intros; eapply copy_para_frame; eauto.
  - inversion H0; subst; apply frame_refl.
Qed.
Lemma copy_push_only : forall to x w w', copy_push to x w = Ok w' -> only to w w'.
Proof.
  intros to x w w' H0. unfold copy_push in H0. bok H0. destruct v as [w1 y].
  eapply only_trans; [eapply copy_item_frame; eauto|]. unfold push_item in H0.
  destruct (nth_error w1 to); inversion H0; subst. apply only_set.
Qed.
Lemma append_items_only : forall to l w w', append_items to l w = Ok w' -> only to w w'.
Proof.
  intros to; induction l as [|x l IH]; intros w w' H0; cbn in H0.
  - inversion H0; subst; apply only_refl.
  - bok H0. eapply only_trans; [eapply copy_push_only; eauto|eauto].
Qed.

(** the old documents are untouched by splitting *)
Definition olds (n : nat) (w w' : world) : Prop := length w <= length w' /\ forall j, j < n -> nth_error w' j = nth_error w j.
Lemma split_items_olds : forall n t sep l cur fresh w w', split_items t sep l cur fresh w = Ok w' ->
  n <= cur -> n <= length w -> olds n w w'.
Proof.
  intros n t sep; induction l as [|x l IH]; intros cur fresh w w' H0 C L; cbn in H0.
  - inversion H0; subst. split; auto.
  - assert (N : forall cur w w', n <= cur -> n <= length w -> bind (copy_push cur x w) (fun w' => split_items t sep l cur false w') = Ok w' -> olds n w w').
    { intros c1 w1 w2 C1 L1 HH. bok HH. destruct (copy_push_only _ _ _ _ E) as [E1 E2].
      destruct (IH _ _ _ _ HH) as [F1 F2]; auto; [lia|]. split; [lia|]. intros j J. rewrite F2 by auto. apply E2. lia. }
    destruct x as [p|tb|s]; eauto.
    bok H0. destruct (v && negb fresh)%bool; eauto.
    destruct (N (length w) (new_part t w) w') as [F1 F2]; auto.
    + unfold new_part. rewrite app_length. lia.
    + unfold new_part in *. rewrite app_length in F1. split; [lia|]. intros j J. rewrite F2 by auto. apply nth_error_app1. lia.
Qed.
Lemma split_olds : forall i sep w w', split_by_paragraph i sep w = Ok w' -> olds (length w) w w'.
Proof.
  intros i sep w w' H0. unfold split_by_paragraph in H0. destruct (nth_error w i) as [d|]; [|discriminate].
  destruct (d_items d) as [|x l]; [inversion H0; subst; split; auto|].
  apply split_items_olds with (n := length w) in H0.
  - destruct H0 as [F1 F2]. unfold new_part in *. rewrite app_length in F1. split; [lia|]. intros j J. rewrite F2 by auto. apply nth_error_app1. lia.
  - lia.
  - unfold new_part. rewrite app_length. lia.
Qed.

(** a call on a paragraph touches the registry of its document only *)
Lemma exec_pop_items : forall o w p w' p', exec_pop o w p = Ok (w', p') -> same_items w w' /\ length w' = length w /\
  forall j, para_file p <> Some j -> nth_error w' j = nth_error w j.
Proof.
  intros o w p w' p' H0.
  assert (R : same_items w w /\ length w = length w /\ forall j, para_file p <> Some j -> nth_error w j = nth_error w j) by (split; [intro|]; auto).
  assert (OF : forall A (k : reg -> A * reg) x w1, on_file w (para_file p) k = Ok (x, w1) ->
      same_items w w1 /\ length w1 = length w /\ forall j, para_file p <> Some j -> nth_error w1 j = nth_error w j).
  { intros A k x w1 E. split; [eapply on_file_items; eauto|]. destruct (para_file p) as [i|]; [|discriminate].
    apply on_file_only in E. destruct E as [E1 E2]. split; auto; intros j J; apply E2; congruence. }
  destruct o; cbn [exec_pop] in H0; try (inversion H0; subst; exact R).
  - unfold add_link in H0. bok H0. destruct v. inversion H0; subst. eauto.
  - unfold add_drawing in H0. destruct (lib_imgsize data) as [[[sw sh] fmt]|]; [|discriminate].
    bok H0. destruct v as [[[idn id] r] w1]. bok H0. destruct v. inversion H0; subst. eauto.
  - unfold add_shape in H0. bok H0. destruct v as [[idn ids] w1]. inversion H0; subst. eauto.
  - destruct (nth_error (para_children p) k) as [[r|id r|r]|]; try discriminate;
    bok H0; inversion H0; subst; exact R.
Qed.
End Frame.
