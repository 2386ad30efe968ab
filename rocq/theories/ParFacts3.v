(** Facts about documents built by several goroutines: every run can be
    finished; two goroutines adding links can lose one. *)
From Coq Require Import String List Bool Arith NArith Lia.
From Verif Require Import GoStr Lib Types Docx Conc SpecConc ConcFacts Par SpecPar RegFacts HistFacts2 IdFacts ParFacts ParFacts2.
Import ListNotations.
Local Open Scope string_scope.
Local Open Scope list_scope.

Definition place_left (p : place) : nat :=
  match p with
  | Free => 0 | HasDoc _ _ => 13 | Locked _ _ => 12 | IdRead _ _ _ => 11 | IdAdded _ _ _ => 10 | IdStored _ _ _ => 9 | Numbered _ _ _ _ => 8
  | HasImg _ _ _ _ _ => 7 | HasLen _ _ _ _ _ _ => 6 | Indexed _ _ _ _ _ => 5 | MediaRead _ _ _ _ _ _ => 4 | MediaDone _ _ _ _ _ => 3 | HasRid _ _ => 2 | RelsRead _ _ _ => 1
  end.
Definition job_left (j : job) : nat := 14 * length (j_todo j) + place_left (j_at j).
Definition par_left (s : pstate) : nat := sum (map job_left (p_jobs s)).
Lemma left_step : forall i s s', pstep i s = Some s' -> par_left s' < par_left s.
Proof.
  intros i [lk g l] s' S. unfold pstep in S. cbn [p_locked p_reg p_jobs] in *.
  destruct (nth_error l i) as [j|] eqn:N; [|discriminate]. destruct (nth_split _ _ _ _ N) as [a [b [L [_ Q]]]].
  destruct (jstep lk g j) as [[[lk' g'] j']|] eqn:J; [|discriminate]. injection S as <-. unfold par_left. cbn [p_jobs]. rewrite Q. subst l.
  rewrite !map_app. cbn [map]. rewrite !sum_split. enough (job_left j' < job_left j) by lia. clear - J.
  destruct j as [todo p out]. jsteps J; unfold job_left; cbn [j_todo j_at place_left length]; lia.
Qed.
Lemma room_small : forall s, par_start s -> room s -> forall x, (counter x (c_state s) + N.of_nat (all_calls x (c_state s)) < 18446744073709551616)%N.
Proof.
  intros s St [_ [_ [_ Rm]]] x. specialize (Rm x). assert (C := c_calls s x St). unfold counter. change (c_map (c_state s)) with (slow (p_reg s)).
  destruct (mget x (slow (p_reg s))); lia.
Qed.
Lemma par_no_deadlock : forall s sched, par_start s -> room s -> ~ par_done (prun sched s) -> exists i s', pstep i (prun sched s) = Some s'.
Proof.
  intros s sched St Rm Nd. destruct (prun_sim sched s) as [q Q].
  assert (E := proj1 (crun_inv _ _ (room_small s St Rm) q _ (start_inv _ (c_start s St)))). rewrite <- Q in E.
  set (s' := prun sched s) in *. clearbody s'. clear Q. destruct s' as [lk g l]. cbn in E.
  assert (Mv : forall j, In j l -> (exists x, jstep lk g j = Some x) -> exists i s', pstep i (mk_pstate lk g l) = Some s').
  { intros j I [[[lk' g'] j'] K]. destruct (In_nth_error _ _ I) as [i Ni]. exists i. unfold pstep. cbn [p_jobs p_locked p_reg]. rewrite Ni, K. eauto. }
  destruct lk.
  - destruct E as [a [x [b [E [X _]]]]]. assert (I : In x (map c_job l)) by (rewrite E; apply in_app_iff; right; now left).
    apply in_map_iff in I. destruct I as [j [<- I]]. apply (Mv j I). destruct j as [todo p out]. cbn in X.
    destruct p; cbn in X; try congruence; unfold jstep; cbn [j_at]; eauto. destruct w; eauto.
  - assert (X : exists j, In j l /\ ~ (j_at j = Free /\ j_todo j = [])).
    { unfold par_done in Nd. cbn [p_jobs] in Nd. clear - Nd. induction l as [|j l IH]; [exfalso; apply Nd; intros ? []|].
      destruct (j_todo j) as [|c t] eqn:T; [|exists j; split; [now left|intros [_ K]; congruence]].
      destruct (j_at j) eqn:P; try (exists j; split; [now left|intros [K _]; congruence]).
      destruct IH as [h [I K]]; [|exists h; split; auto; now right]. intros K. apply Nd. intros h [<-|I]; auto. }
    destruct X as [j [I X]]. apply (Mv j I). destruct j as [todo p out]. cbn in X. unfold jstep. cbn [j_at j_todo j_out].
    destruct p; eauto; [|destruct w; eauto]. destruct todo as [|[w|k] t]; eauto. exfalso. auto.
Qed.
Lemma prun_app : forall a b s, prun (a ++ b) s = prun b (prun a s).
Proof. induction a; cbn; intros; auto. Qed.
Lemma done_dec : forall s, par_done s \/ ~ par_done s.
Proof.
  intros [lk g l]. unfold par_done. cbn. induction l as [|h l [IH|IH]].
  - left. intros j [].
  - destruct (j_todo h) eqn:T; [|right; intros K; destruct (K h (or_introl eq_refl)); congruence].
    destruct (j_at h) eqn:P; try (right; intros K; destruct (K h (or_introl eq_refl)); congruence). left. intros j [<-|I]; auto.
  - right. intros K. apply IH. intros; apply K; now right.
Qed.
Lemma par_can_finish : forall s sched, par_start s -> room s -> exists more, par_done (prun (sched ++ more) s).
Proof.
  intros s sched St Rm. assert (G : forall n sc, par_left (prun sc s) <= n -> exists more, par_done (prun (sc ++ more) s)).
  { induction n; intros sc L; (destruct (done_dec (prun sc s)) as [D|D]; [exists []; rewrite app_nil_r; exact D|]);
    destruct (par_no_deadlock s sc St Rm D) as [i [s' K]]; assert (L' := left_step _ _ _ K); [lia|].
    assert (R : prun (sc ++ [i]) s = s') by (rewrite prun_app; cbn; now rewrite K).
    destruct (IHn (sc ++ [i])) as [more M]; [rewrite R; lia|]. exists (i :: more). rewrite <- app_assoc in M. exact M. }
  eapply G. apply le_n.
Qed.

(** ** A lost link *)
Lemma pstep_at : forall i lk g l j lk' g' j', nth_error l i = Some j -> jstep lk g j = Some (lk', g', j') ->
  pstep i (mk_pstate lk g l) = Some (mk_pstate lk' g' (set_nth l i j')).
Proof. intros. unfold pstep. cbn [p_jobs p_locked p_reg]. now rewrite H, H0. Qed.
Lemma nth_lt : forall A (l : list A) i x, nth_error l i = Some x -> i < length l.
Proof. intros A l i x E. apply nth_error_Some. congruence. Qed.
Lemma par_loses : forall s i k ji jk a b ta tb, par_start s -> room s -> fresh_ids (p_reg s) -> i <> k ->
  nth_error (p_jobs s) i = Some ji -> nth_error (p_jobs s) k = Some jk -> j_todo ji = KLink a :: ta -> j_todo jk = KLink b :: tb ->
  exists sched id, In id (flat_map o_rid (outcomes (prun sched s))) /\ ~ In id (map rel_id (rels (p_reg (prun sched s)))).
Proof.
  intros [lk g l] i k [ti pi oi] [tk pk ok] a b ta tb St Rm F D Ni Nk Ti Tk. cbn in Ni, Nk, Ti, Tk. subst ti tk.
  destruct (proj2 St _ (nth_error_In _ _ Ni)) as [Pi Oi]. destruct (proj2 St _ (nth_error_In _ _ Nk)) as [Pk Ok]. cbn in *. subst.
  destruct Rm as [_ [Rm _]]. cbn in Rm.
  assert (C : 2 <= length (flat_map j_todo l)).
  { clear - Ni Nk D. assert (X : forall n (l : list job) c t p o, nth_error l n = Some (mk_job (c :: t) p o) -> 1 <= length (flat_map j_todo l)).
    { induction n; intros [|h l'] c t p o E; cbn in *; try discriminate; rewrite app_length; [injection E as ->; cbn; lia|]. specialize (IHn _ _ _ _ _ E). lia. }
    revert i k Ni Nk D. induction l as [|h l IH]; intros [|i] [|k] Ni Nk D; cbn in *; try discriminate; try congruence; rewrite app_length.
    - injection Ni as ->. apply X in Nk. cbn. lia.
    - injection Nk as ->. apply X in Ni. cbn. lia.
    - specialize (IH i k Ni Nk). lia. }
  unfold count_calls in Rm. cbn [p_jobs] in Rm.
  assert (Li := nth_lt _ _ _ _ Ni). assert (Lk := nth_lt _ _ _ _ Nk).
  set (r1 := uadd1 (rid g)). set (g1 := set_rid r1 g). set (r2 := uadd1 (rid g1)). set (g2 := set_rid r2 g1).
  assert (R1 : r1 = (rid g + 1)%N) by (subst r1; apply uadd1_small; lia).
  assert (R2 : r2 = (rid g + 2)%N) by (subst r2 g1; cbn; rewrite R1; rewrite uadd1_small; lia).
  exists [i; i; k; k; k; i], ("rId" ++ itoa_u r2)%string.
  cbn [prun].
  erewrite pstep_at; [|exact Ni|reflexivity]. cbn [j_out j_todo].
  erewrite pstep_at; [|apply set_nth_same; exact Li|reflexivity]. cbn [j_out j_todo].
  erewrite pstep_at; [|rewrite !set_nth_other by auto; exact Nk|reflexivity]. cbn [j_out j_todo].
  erewrite pstep_at; [|apply set_nth_same; rewrite !set_nth_length; exact Lk|reflexivity]. cbn [j_out j_todo].
  erewrite pstep_at; [|apply set_nth_same; rewrite !set_nth_length; exact Lk|reflexivity]. cbn [j_out j_todo].
  erewrite pstep_at; [|rewrite !set_nth_other by auto; apply set_nth_same; rewrite !set_nth_length; exact Li|reflexivity].
  cbn [app]. split.
  - unfold outcomes. cbn [p_jobs]. apply in_flat_map. exists (OLink b r2). split; [|now left].
    apply in_flat_map. exists (mk_job tb Free [OLink b r2]). split; [|now left].
    apply nth_error_In with k. rewrite set_nth_other by auto. apply set_nth_same. rewrite !set_nth_length. exact Lk.
  - cbn [p_reg rels set_rels new_relation]. rewrite map_app, in_app_iff. cbn [map rel_id In]. intros [I|[I|[]]].
    + apply (F r2); [cbn; lia|lia|exact I].
    + apply rid_string_inj in I; [|fold r1; lia|lia]. fold r1 in I. lia.
Qed.
Lemma fresh_empty : fresh_ids empty_reg.
Proof.
  intros k K1 K2. cbn [rid empty_reg] in K1. cbn [rels empty_reg base_rels map rel_id In].
  change "rId1" with ("rId" ++ itoa_u 1)%string. change "rId2" with ("rId" ++ itoa_u 2)%string. change "rId3" with ("rId" ++ itoa_u 3)%string.
  intros [I|[I|[I|[]]]]; apply rid_string_inj in I; lia.
Qed.
Definition idleb (j : job) : bool := match j_at j, j_todo j with Free, [] => true | _, _ => false end.
Lemma idle_done : forall s, forallb idleb (p_jobs s) = true -> par_done s.
Proof.
  intros s H j I. rewrite forallb_forall in H. apply H in I. unfold idleb in I. destruct (j_at j), (j_todo j); try discriminate. auto.
Qed.
