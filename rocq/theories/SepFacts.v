(** Calls on separate documents. *)
From Coq Require Import String Ascii List Bool Arith NArith ZArith Lia.
From Verif Require Import GoStr Num Lib Types Docx Api Keep Copy Pack History Alias SpecAlias SpecBreak SpecSep AliasFacts10 RegFacts HistFacts HomeFacts BreakFacts.
Import ListNotations.
Local Open Scope list_scope.
Local Open Scope string_scope.

(** the same outcome, up to a relation of the results *)
Definition rr {A} (R : A -> A -> Prop) (a b : res A) : Prop :=
  match a, b with Ok x, Ok y => R x y | Err e, Err e' => e = e' | Panic, Panic => True | _, _ => False end.
Lemma rr_bind : forall A B (R : A -> A -> Prop) (Q : B -> B -> Prop) a b f g, rr R a b -> (forall x y, R x y -> rr Q (f x) (g y)) -> rr Q (bind a f) (bind b g).
Proof. intros A B R Q [x|e|] [y|e'|] f g K H; cbn in *; auto; contradiction. Qed.
Lemma rr_same : forall A (a : res A), rr eq a a.
Proof. intros A []; cbn; auto. Qed.
Lemma rr_impl : forall A (R Q : A -> A -> Prop) a b, rr R a b -> (forall x y, R x y -> Q x y) -> rr Q a b.
Proof. intros A R Q [] [] K H; cbn in *; auto. Qed.

Section P.
Variable P : nat -> Prop.
(** worlds with the same documents at the places of P *)
Definition agree (a b : world) : Prop := length a = length b /\ forall i, P i -> nth_error a i = nth_error b i.
Definition ww {B} (a b : world * B) : Prop := agree (fst a) (fst b) /\ snd a = snd b.
Definition fits (f : option nat) : Prop := forall i, f = Some i -> P i.

Lemma set_agree : forall a b i x, agree a b -> agree (set_nth a i x) (set_nth b i x).
Proof.
  intros a b i x [L A]. split; [now rewrite !set_nth_length|]. intros j K. destruct (Nat.eq_dec i j) as [->|N].
  - destruct (lt_dec j (length a)) as [X|X]; [rewrite !set_nth_same by lia; reflexivity|].
    transitivity (@None docx); [|symmetry]; apply nth_error_None; rewrite set_nth_length; lia.
  - rewrite !set_nth_other by auto. auto.
Qed.
Lemma app_agree : forall a b l, agree a b -> agree (a ++ l)%list (b ++ l)%list.
Proof.
  intros a b l [L A]. split; [rewrite !app_length; lia|]. intros i K. destruct (lt_dec i (length a)).
  - rewrite !nth_error_app1 by lia. auto.
  - rewrite !nth_error_app2 by lia. now rewrite L.
Qed.
Lemma reg_agree : forall a b f, agree a b -> fits f -> file_reg a f = file_reg b f.
Proof. intros a b [i|] [_ A] F; cbn; auto. rewrite (A i); auto. Qed.
Lemma file_agree : forall A (k : reg -> A * reg) a b f, agree a b -> fits f -> rr (fun x y => fst x = fst y /\ agree (snd x) (snd y)) (on_file a f k) (on_file b f k).
Proof.
  intros A k a b [i|] G F; cbn; auto. rewrite <- (proj2 G i) by auto. destruct (nth_error a i) as [d|]; cbn; auto. destruct (k (d_reg d)) as [v g]. cbn. split; auto. now apply set_agree.
Qed.
Lemma doc_agree : forall a b i k, agree a b -> P i -> rr agree (on_doc a i k) (on_doc b i k).
Proof.
  intros a b i k G K. unfold on_doc. rewrite <- (proj2 G i K). destruct (nth_error a i) as [d|]; cbn; auto. destruct (k d); cbn; auto. now apply set_agree.
Qed.

Section WithL.
Context `{L : GoLib}.
Lemma pop_agree : forall o a b p, agree a b -> fits (para_file p) -> rr ww (exec_pop o a p) (exec_pop o b p).
Proof.
  intros o a b p G F. destruct o; cbn [exec_pop]; try (split; [exact G|reflexivity]).
  - unfold add_link. eapply rr_bind; [apply file_agree; eauto|]. intros [x1 x2] [y1 y2] [E1 E2]. cbn in *. subst. split; auto.
  - unfold add_drawing. destruct (lib_imgsize data) as [[[sw sh] fm]|]; cbn; auto. eapply rr_bind; [apply file_agree; eauto|]. intros [[[u1 u2] u3] x2] [y1 y2] [E1 E2]. cbn in *. subst.
    destruct (pic_size sw sh) as [[ew eh]| |]; cbn; auto. split; auto.
  - unfold add_shape. eapply rr_bind; [apply file_agree; eauto|]. intros [[u1 u2] x2] [y1 y2] [E1 E2]. cbn in *. subst. split; auto.
  - destruct (nth_error (para_children p) k) as [[r|id r|r]|]; cbn; auto; destruct (exec_rop o r); cbn; auto; split; auto.
Qed.

(** ** copying *)
Variable to : nat.
Hypothesis P_to : P to.
Lemma graphic_agree : forall f og a b, agree a b -> (shows_pic og -> fits f) -> rr ww (copy_graphic to f og a) (copy_graphic to f og b).
Proof.
  intros f og a b G F. unfold copy_graphic. destruct og as [g|]; [|exact I]. destruct (graphicR_data g) as [d|] eqn:D; [|exact I].
  destruct (gdataR_pic d) as [p|] eqn:PC.
  - assert (F' : fits f) by (apply F; exists g, d; repeat split; auto; congruence). clear F. destruct (pic_blip p) as [bl|]; [|split; auto].
    rewrite (reg_agree a b f G F'). destruct (file_reg b f) as [src| |]; cbn [bind]; try exact I; [|reflexivity].
    destruct (refer_target src (ablip_embed (picblip_blip bl))) as [tgt|e|]; [|split; auto|exact I].
    eapply rr_bind; [apply file_agree; [exact G|intros i K; injection K as <-; exact P_to]|]. intros [x1 a1] [y1 b1] [E1 G1]. cbn [fst snd] in *. subst.
    eapply rr_bind; [apply file_agree; [exact G1|intros i K; injection K as <-; exact P_to]|]. intros [x2 a2] [y2 b2] [E2 G2]. cbn [fst snd] in *. subst.
    destruct (drop 6 tgt) as [name|]; [|exact I]. rewrite (reg_agree a2 b2 f G2 F'). destruct (file_reg b2 f) as [src2| |]; cbn [bind]; try exact I; [|reflexivity].
    destruct (media_of src2 name) as [[[nm data]|]| |]; cbn [bind]; try exact I; [|split; auto|reflexivity].
    eapply rr_bind; [apply file_agree; [exact G2|intros i K; injection K as <-; exact P_to]|]. intros [x3 a3] [y3 b3] [E3 G3]. cbn [fst snd] in *. subst.
    destruct (pic_nvpic p); [|exact I]. split; auto.
  - destruct (gdataR_shape d), (gdataR_canvas d); split; auto.
Qed.
Definition fits_child (c : rchild) : Prop :=
  match c with
  | RDraw io ao =>
      match io with Some x => shows_pic (inlineR_graphic x) -> fits (inlineR_file x) | None => True end /\
      match ao with Some x => shows_pic (anchorR_graphic x) -> fits (anchorR_file x) | None => True end
  | _ => True
  end.
Definition fits_pchild (c : pchild) : Prop := match c with PRun r | PLink _ r => Forall fits_child (runR_children r) | PRPr _ => True end.
Definition fits_para (p : para) : Prop := fits (para_file p) /\ Forall fits_pchild (para_children p).
Definition fits_item (x : item) : Prop :=
  match x with IPara p => fits_para p | ITable t => Forall (fun r => Forall (fun c => Forall fits_para (cell_paras c)) (row_cells r)) (table_rows t) | ISect _ => True end.

Lemma rchild_agree : forall c a b, fits_child c -> agree a b -> rr ww (copy_rchild to c a) (copy_rchild to c b).
Proof.
  intros [t|t|t|[x|] [y|]] a b F G; try (split; auto; fail); cbn [copy_rchild]; destruct F as [F1 F2]; try (split; auto; fail).
  1,2: eapply rr_bind; [apply graphic_agree; eauto|]; intros [a1 x1] [b1 y1] [G1 E]; cbn in *; subst; split; auto.
  eapply rr_bind; [apply graphic_agree; eauto|]; intros [a1 x1] [b1 y1] [G1 E]; cbn in *; subst; split; auto.
Qed.
Lemma list_agree : forall A B (f : A -> world -> res (world * B)) (Q : A -> Prop), (forall c a b, Q c -> agree a b -> rr ww (f c a) (f c b)) ->
  forall l a b, Forall Q l -> agree a b -> rr ww (copy_list f l a) (copy_list f l b).
Proof.
  intros A B f Q H l. induction l as [|x l IH]; intros a b F G; cbn [copy_list]; [split; auto|]. inversion F; subst.
  eapply rr_bind; [apply H; eauto|]. intros [a1 x1] [b1 y1] [G1 E]. cbn [fst snd] in *. subst. eapply rr_bind; [apply IH; eauto|]. intros [a2 x2] [b2 y2] [G2 E2]. cbn [fst snd] in *. subst. split; auto.
Qed.
Lemma crun_agree : forall r a b, Forall fits_child (runR_children r) -> agree a b -> rr ww (copy_run to r a) (copy_run to r b).
Proof.
  intros r a b F G. unfold copy_run. eapply rr_bind; [eapply list_agree; [exact rchild_agree|exact F|exact G]|]. intros [a1 x1] [b1 y1] [G1 E]. cbn in *. subst. split; auto.
Qed.
Lemma pchild_agree : forall f c a b, fits f -> fits_pchild c -> agree a b -> rr ww (copy_pchild to f c a) (copy_pchild to f c b).
Proof.
  intros f [r|id r|r] a b K F G; cbn [copy_pchild]; [| |split; auto].
  - eapply rr_bind; [apply crun_agree; eauto|]. intros [a1 x1] [b1 y1] [G1 E]. cbn in *. subst. split; auto.
  - rewrite (reg_agree a b f G K). destruct (file_reg b f) as [src| |]; cbn [bind]; try exact I; [|reflexivity]. destruct (refer_target src id) as [tgt|e|]; [|split; auto|exact I].
    eapply rr_bind; [apply file_agree; [exact G|intros i Q; injection Q as <-; exact P_to]|]. intros [x1 a1] [y1 b1] [E1 G1]. cbn [fst snd] in *. subst.
    eapply rr_bind; [apply crun_agree; eauto|]. intros [a2 x2] [b2 y2] [G2 E]. cbn in *. subst. split; auto.
Qed.
Lemma cpara_agree : forall p a b, fits_para p -> agree a b -> rr ww (copy_para to p a) (copy_para to p b).
Proof.
  intros p a b [K F] G. unfold copy_para. eapply rr_bind; [eapply list_agree; [|exact F|exact G]; intros; apply pchild_agree; auto|].
  intros [a1 x1] [b1 y1] [G1 E]. cbn in *. subst. split; auto.
Qed.
Lemma citem_agree : forall x a b, fits_item x -> agree a b -> rr ww (copy_item to x a) (copy_item to x b).
Proof.
  intros [p|t|s] a b F G; cbn [copy_item]; [| |split; auto].
  - eapply rr_bind; [apply cpara_agree; eauto|]. intros [a1 x1] [b1 y1] [G1 E]. cbn in *. subst. split; auto.
  - eapply (rr_bind _ _ ww); [|intros [a1 x1] [b1 y1] [G1 E]; cbn in *; subst; split; auto].
    unfold copy_table. eapply rr_bind; [eapply list_agree; [|exact F|exact G]|intros [a1 x1] [b1 y1] [G1 E]; cbn in *; subst; split; auto].
    intros r a0 b0 F0 G0. unfold copy_row. eapply rr_bind; [eapply list_agree; [|exact F0|exact G0]|intros [a1 x1] [b1 y1] [G1 E]; cbn in *; subst; split; auto].
    intros c a2 b2 F2 G2. unfold copy_cell. eapply rr_bind; [eapply list_agree; [|exact F2|exact G2]; exact cpara_agree|intros [a1 x1] [b1 y1] [G1 E]; cbn in *; subst; split; auto].
Qed.
Lemma push_agree : forall x a b, fits_item x -> agree a b -> rr agree (copy_push to x a) (copy_push to x b).
Proof.
  intros x a b F G. unfold copy_push. eapply rr_bind; [apply citem_agree; eauto|]. intros [a1 x1] [b1 y1] [G1 E]. cbn [fst snd] in *. subst.
  unfold push_item. rewrite <- (proj2 G1 to P_to). destruct (nth_error a1 to); cbn; auto. now apply set_agree.
Qed.
Lemma append_agree : forall l a b, Forall fits_item l -> agree a b -> rr agree (append_items to l a) (append_items to l b).
Proof.
  induction l as [|x l IH]; intros a b F G; cbn [append_items]; [exact G|]. inversion F; subst. eapply rr_bind; [apply push_agree; eauto|]. intros; apply IH; auto.
Qed.
End WithL.

Lemma split_agree : forall t sep l cur fresh a b, Forall fits_item l -> agree a b -> P cur -> (forall k, length a <= k -> P k) ->
  rr agree (split_items t sep l cur fresh a) (split_items t sep l cur fresh b).
Proof.
  intros t sep. induction l as [|x l IH]; intros cur fresh a b F G K U; cbn [split_items]; [exact G|]. inversion F as [|? ? F1 F2]; subst.
  assert (N : forall c a' b', agree a' b' -> P c -> (forall k, length a' <= k -> P k) ->
    rr agree (bind (copy_push c x a') (fun w' => split_items t sep l c false w')) (bind (copy_push c x b') (fun w' => split_items t sep l c false w'))).
  { intros c a' b' G' Kc U'. pose proof (push_agree c Kc x a' b' F1 G') as R.
    destruct (copy_push c x a') as [a1| |] eqn:E1, (copy_push c x b') as [b1| |]; cbn in *; auto; try contradiction.
    apply IH; auto. rewrite (proj1 (copy_push_only _ _ _ _ E1)). exact U'. }
  destruct x as [p|tb|s]; [|apply N; auto|apply N; auto].
  destruct (sep p) as [bb| |]; cbn; auto. destruct (bb && negb fresh)%bool; [|apply N; auto].
  rewrite <- (proj1 G). apply N; [unfold new_part; now apply app_agree|apply U; auto|]. intros k Q. apply U. unfold new_part in Q. rewrite app_length in Q. lia.
Qed.
End P.

Lemma home_fits : forall (P : nat -> Prop) i l, Forall (home_item i) l -> P i -> Forall (fits_item P) l.
Proof.
  intros P i l H K.
  assert (HF : forall f, home_file i f -> fits P f) by (intros f [->| ->] j E; [injection E as <-; exact K|discriminate]).
  assert (HP : forall p, home_para i p -> fits_para P p).
  { intros p [A B]. split; [rewrite A; intros j E; injection E as <-; exact K|]. eapply Forall_impl; [|exact B].
    assert (HR : forall c, home_rchild i c -> fits_child P c) by (intros [t|t|t|[x|] [y|]]; cbn; intuition).
    intros [r|id r|r] C; cbn in *; auto; eapply Forall_impl; eauto. }
  eapply Forall_impl; [|exact H]. intros [p|t|s] C; cbn in *; auto. eapply Forall_impl; [|exact C]. intros r R. eapply Forall_impl; [|exact R]. intros c [_ CC]. eapply Forall_impl; eauto.
Qed.
Lemma agree_weak : forall (P Q : nat -> Prop) a b, agree P a b -> (forall i, Q i -> P i) -> agree Q a b.
Proof. intros P Q a b [L A] H. split; auto. Qed.

Section Main.
Context `{L : GoLib}.
(** a call sees the documents it works on and takes from only *)
Lemma exec_agree : forall (P : nat -> Prop) o a b, agree P a b -> home a -> brings_home o -> (forall i, works_on o = Some i -> P i) -> (forall i, takes_from o = Some i -> P i) ->
  rr (agree P) (exec o a) (exec o b).
Proof.
  intros P o a b G HA B W T. destruct o; cbn [exec works_on takes_from] in *; try (apply doc_agree; auto; fail).
  - now apply app_agree.
  - destruct B.
  - rewrite <- (proj2 G d) by auto. destruct (nth_error a d) as [x|] eqn:N; [|exact I]. destruct (get_para (d_items x) a0) as [p|] eqn:GP; [|exact I].
    eapply rr_bind; [apply (pop_agree P o a b p G)|].
    + intros i E. destruct (get_para_home _ _ _ _ (HA _ _ N) GP) as [A _]. rewrite A in E. injection E as <-. auto.
    + intros [a1 x1] [b1 y1] [G1 E]. cbn [fst snd] in *. subst. apply doc_agree; auto.
  - eapply rr_bind; [apply (pop_agree P o a b p G); exact W|]. intros [a1 x1] [b1 y1] [G1 E]. exact G1.
  - rewrite <- (proj2 G d) by auto. destruct (nth_error a d) as [x|]; [|exact I]. unfold append_file. rewrite <- (proj2 G from) by auto. destruct (nth_error a from) as [y|] eqn:N; [|exact I].
    apply append_agree; auto. eapply home_fits; eauto.
  - unfold split_by_paragraph. rewrite <- (proj2 G d) by auto. destruct (nth_error a d) as [x|] eqn:N; [|exact I]. destruct (d_items x) as [|y l] eqn:D; [exact G|].
    assert (HF : Forall (home_item d) (y :: l)) by (rewrite <- D; eauto). rewrite <- (proj1 G).
    eapply rr_impl; [apply (split_agree (fun i => P i \/ length a <= i))|intros u v Q; eapply agree_weak; [exact Q|intros i Z; left; exact Z]].
    + eapply home_fits; [exact HF|auto].
    + unfold new_part. apply app_agree. destruct G as [GL GA]. split; auto. intros i [Q|Q]; auto. transitivity (@None docx); [|symmetry]; apply nth_error_None; lia.
    + auto.
    + intros k Q. right. unfold new_part in Q. rewrite app_length in Q. lia.
  - unfold parse. rewrite <- (proj1 G). destruct (unpack (length a) a0); cbn; auto. now apply app_agree.
Qed.
Lemma on_doc_only : forall w i k w', on_doc w i k = Ok w' -> only i w w'.
Proof.
  intros w i k w' E. unfold on_doc in E. destruct (nth_error w i) as [d|]; [|discriminate]. destruct (k d); try discriminate. injection E as <-. split; [apply set_nth_length|].
  intros j N. apply set_nth_other. auto.
Qed.
Lemma exec_only : forall o w w' i, exec o w = Ok w' -> home w -> works_on o = Some i -> only i w w'.
Proof.
  intros o w w' i E HA K. destruct o; cbn [exec works_on] in *; try discriminate; try (injection K as ->; eapply on_doc_only; eauto; fail).
  - injection K as ->. destruct (nth_error w i) as [x|] eqn:N; [|discriminate]. destruct (get_para (d_items x) a) as [p|] eqn:GP; [|discriminate].
    destruct (exec_pop o w p) as [[w1 p1]| |] eqn:X; try discriminate. cbn [bind] in E. apply on_doc_only in E. apply exec_pop_items in X as (_ & X1 & X2).
    eapply only_trans; [|exact E]. split; auto. intros j Q. apply X2. destruct (get_para_home _ _ _ _ (HA _ _ N) GP) as [A _]. rewrite A. congruence.
  - destruct (exec_pop o w p) as [[w1 p1]| |] eqn:X; try discriminate. cbn [bind] in E. injection E as <-. apply exec_pop_items in X as (_ & X1 & X2). split; auto. intros j Q. apply X2. congruence.
  - injection K as ->. destruct (nth_error w i); [|discriminate]. unfold append_file in E. destruct (nth_error w from); [|discriminate]. eapply append_items_only; eauto.
Qed.

(** ** leaving out the calls on other documents *)
Lemma run_agree : forall S l a b a', agree (fun i => S i = true) a b -> home a -> home b -> Forall brings_home l -> Forall (closed_under S) l -> run_ops l a = Some a' ->
  exists b', run_ops (filter (matters S) l) b = Some b' /\ agree (fun i => S i = true) a' b'.
Proof.
  intros S. induction l as [|o l IH]; intros a b a' G HA HB B C R; cbn in *; [injection R as <-; eauto|]. inversion B as [|? ? B1 B2]; subst. inversion C as [|? ? C1 C2]; subst.
  destruct (matters S o) eqn:M.
  - cbn. assert (X : rr (agree (fun i => S i = true)) (exec o a) (exec o b)).
    { apply exec_agree; auto. intros i K. unfold matters in M. rewrite K in M. exact M. }
    destruct (exec o a) as [a1| |] eqn:E1; [| |discriminate]; destruct (exec o b) as [b1| |] eqn:E2; cbn in X; try contradiction; [|eauto].
    eapply IH; eauto; eapply exec_home; eauto.
  - destruct (exec o a) as [a1| |] eqn:E1; [|eauto|discriminate]. apply (IH a1 b a'); auto; [|eapply exec_home; eauto].
    unfold matters in M. destruct (works_on o) as [d|] eqn:Wd; [|discriminate]. destruct (exec_only _ _ _ _ E1 HA Wd) as [L1 L2]. destruct G as [GL GA]. split; [congruence|].
    intros i K. rewrite L2; auto. congruence.
Qed.
Lemma projected : forall S l w, run_ops l [] = Some w -> Forall own_pieces l -> Forall (closed_under S) l ->
  exists w0, run_ops (filter (matters S) l) [] = Some w0 /\ length w0 = length w /\ forall i, S i = true -> nth_error w0 i = nth_error w i.
Proof.
  intros S l w R B C. destruct (run_agree S l [] [] w) as (b & A & G1 & G2); auto using home_nil. { split; auto. } exists b. repeat split; auto. intros i K. symmetry. auto.
Qed.

(** ** the order of calls *)
Lemma same_nth : forall (a b : world), (forall k, nth_error a k = nth_error b k) -> a = b.
Proof.
  induction a as [|x l IH]; intros [|y m] Q; auto; try (specialize (Q 0); discriminate). pose proof (Q 0) as Q0. injection Q0 as ->. f_equal. apply IH. intros k. exact (Q (S k)).
Qed.
Lemma unmoved : forall o1 o2 w i w1, home w -> brings_home o2 -> works_on o1 = Some i -> works_on o2 <> Some i -> takes_from o2 <> Some i -> exec o1 w = Ok w1 ->
  rr (agree (fun k => k <> i)) (exec o2 w) (exec o2 w1).
Proof.
  intros o1 o2 w i w1 H B I1 I2 I3 E. destruct (exec_only _ _ _ _ E H I1) as [A1 A2]. apply exec_agree; auto; try congruence. split; [congruence|]. intros k K. symmetry. now apply A2.
Qed.
Lemma exchanged : forall w o1 o2, home w -> separate o1 o2 -> run_ops [o1; o2] w = run_ops [o2; o1] w.
Proof.
  intros w o1 o2 H [(i & I1 & I2 & I3) (j & J1 & J2 & J3)].
  assert (N : i <> j) by congruence.
  assert (T1 : brings_home o1) by (destruct o1; cbn in *; auto; discriminate).
  assert (T2 : brings_home o2) by (destruct o2; cbn in *; auto; discriminate).
  cbn [run_ops]. destruct (exec o1 w) as [w1|e1|] eqn:E1; destruct (exec o2 w) as [w2|e2|] eqn:E2; auto.
  - assert (H1 : home w1) by (eapply exec_home; eauto). assert (H2 : home w2) by (eapply exec_home; eauto).
    pose proof (unmoved o1 o2 w i w1 H T2 I1 I2 I3 E1) as X. pose proof (unmoved o2 o1 w j w2 H T1 J1 J2 J3 E2) as Y.
    rewrite E2 in X. rewrite E1 in Y. destruct (exec o2 w1) as [w21| |] eqn:F2; cbn in X; try contradiction. destruct (exec o1 w2) as [w12| |] eqn:F1; cbn in Y; try contradiction.
    destruct (exec_only _ _ _ _ E1 H I1) as [A1 A2]. destruct (exec_only _ _ _ _ E2 H J1) as [D1 D2].
    destruct (exec_only _ _ _ _ F2 H1 J1) as [U1 U2]. destruct (exec_only _ _ _ _ F1 H2 I1) as [V1 V2]. f_equal. apply same_nth.
    intros k. destruct (Nat.eq_dec k i) as [->|K1]; [|destruct (Nat.eq_dec k j) as [->|K2]].
    + rewrite U2 by congruence. apply (proj2 Y). congruence.
    + rewrite V2 by congruence. symmetry. apply (proj2 X). congruence.
    + rewrite V2, U2, A2, D2 by congruence. reflexivity.
  - pose proof (unmoved o1 o2 w i w1 H T2 I1 I2 I3 E1) as X. rewrite E2 in X. destruct (exec o2 w1); cbn in X; try contradiction. rewrite ?E1. reflexivity.
  - pose proof (unmoved o1 o2 w i w1 H T2 I1 I2 I3 E1) as X. rewrite E2 in X. destruct (exec o2 w1); cbn in X; try contradiction. reflexivity.
  - pose proof (unmoved o2 o1 w j w2 H T1 J1 J2 J3 E2) as Y. rewrite E1 in Y. destruct (exec o1 w2); cbn in Y; try contradiction. rewrite ?E2. reflexivity.
  - pose proof (unmoved o2 o1 w j w2 H T1 J1 J2 J3 E2) as Y. rewrite E1 in Y. destruct (exec o1 w2); cbn in Y; try contradiction. reflexivity.
Qed.
Lemma run_split : forall l1 l2 w, run_ops (l1 ++ l2)%list w = match run_ops l1 w with Some w1 => run_ops l2 w1 | None => None end.
Proof. induction l1 as [|o l1 IH]; intros l2 w; cbn; auto. destruct (exec o w); auto. Qed.

(** ** in memory *)
Lemma first_documents : forall l, formatted_first l -> documents l = run_ops l [].
Proof.
  intros l (l1 & l2 & -> & A & B). pose proof (before_copy_spec L l1 l2 A B) as K. unfold same_history in K. unfold documents.
  destruct (run_ops (l1 ++ l2)%list []) as [W|]; [destruct K as (m & -> & ->); reflexivity|now rewrite K].
Qed.
Lemma first_filter : forall f l, formatted_first l -> formatted_first (filter f l).
Proof.
  intros f l (l1 & l2 & -> & A & B). exists (filter f l1), (filter f l2). split; [apply filter_app|]. split; intros o I; apply filter_In in I as [I _]; auto.
Qed.
Lemma memory_projected : forall S l w, documents l = Some w -> formatted_first l -> Forall own_pieces l -> Forall (closed_under S) l ->
  exists w0, documents (filter (matters S) l) = Some w0 /\ length w0 = length w /\ forall i, S i = true -> nth_error w0 i = nth_error w i.
Proof. intros S l w D F B C. rewrite first_documents in D by assumption. rewrite first_documents by now apply first_filter. eapply projected; eauto. Qed.
Lemma memory_exchanged : forall l1 o1 o2 l2, separate o1 o2 -> Forall own_pieces l1 -> formatted_first (l1 ++ o1 :: o2 :: l2)%list -> formatted_first (l1 ++ o2 :: o1 :: l2)%list ->
  documents (l1 ++ o1 :: o2 :: l2)%list = documents (l1 ++ o2 :: o1 :: l2)%list.
Proof.
  intros l1 o1 o2 l2 S B F1 F2. rewrite !first_documents by assumption. rewrite !run_split. destruct (run_ops l1 []) as [w|] eqn:R; [|reflexivity].
  change (o1 :: o2 :: l2) with ([o1; o2] ++ l2)%list. change (o2 :: o1 :: l2) with ([o2; o1] ++ l2)%list. rewrite !run_split, (exchanged w o1 o2); auto.
  eapply run_home; eauto. exact home_nil.
Qed.
End Main.

(** ** a loaded paragraph *)
Definition loan_lib : GoLib := {| lib_float := fun _ => None; lib_md5 := fun s => s; lib_imgsize := fun s => None |}.
Definition loan : list op := [ONew; OLoad [IPara (mk_para None [] (Some 0))] []; OPara 1 (ABody 0) (OLink "a" "http://a")].
Lemma loaded_seen : exists (L : GoLib) (S : nat -> bool) l w, documents l = Some w /\ formatted_first l /\ Forall (closed_under S) l /\
  forall w0, documents (filter (matters S) l) = Some w0 -> exists i, S i = true /\ nth_error w0 i <> nth_error w i.
Proof.
  exists loan_lib, (fun i => Nat.eqb i 0), loan. eexists. split; [vm_compute; reflexivity|]. split; [|split].
  - exists loan, []. split; [reflexivity|]. split; [intros o [<-|[<-|[<-|[]]]]; reflexivity|intros o []].
  - repeat constructor; intros M from K; cbn in *; discriminate.
  - intros w0 R. vm_compute in R. injection R as <-. exists 0. split; [reflexivity|]. intros K. cbn [nth_error] in K.
    assert (Q : forall a b : docx, Some a = Some b -> length (rels (d_reg a)) = length (rels (d_reg b))) by (intros a b E; injection E as ->; reflexivity).
    apply Q in K. vm_compute in K. discriminate K.
Qed.
