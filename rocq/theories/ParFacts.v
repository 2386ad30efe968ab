(** Facts about documents built by several goroutines: numbers. *)
From Coq Require Import String List Bool Arith NArith Lia Permutation.
From Verif Require Import GoStr Lib Types Docx Conc SpecConc ConcFacts Par SpecPar RegFacts HistFacts2 IdFacts.
Import ListNotations.
Local Open Scope string_scope.
Local Open Scope list_scope.

(** ** Atomic counters *)
Definition sum (l : list nat) : nat := fold_right plus 0 l.
Lemma sum_split : forall a x b, sum (a ++ x :: b) = x + sum (a ++ b).
Proof. unfold sum. induction a; cbn; intros; auto. rewrite IHa. lia. Qed.
Section Counter.
Variable val : reg -> N.
Variable ot : outcome -> list N.
Variable tk : place -> list N.
Variable du : call -> nat.
Variable dp : place -> nat.

Definition taken (j : job) : list N := flat_map ot (j_out j) ++ tk (j_at j).
Definition owed (j : job) : nat := sum (map du (j_todo j)) + dp (j_at j).

Definition ticks : Prop := forall lk g j lk' g' j', jstep lk g j = Some (lk', g', j') ->
  (val g' = val g /\ Permutation (taken j') (taken j) /\ owed j' = owed j) \/
  (val g' = uadd1 (val g) /\ Permutation (taken j') (uadd1 (val g) :: taken j) /\ owed j = S (owed j')).
Hypothesis tick : ticks.

Variable c0 : N.
Variable total : nat.
Hypothesis small : (c0 + N.of_nat total < 18446744073709551616)%N.
Definition ticked (s : pstate) : Prop :=
  exists k, k + sum (map owed (p_jobs s)) = total /\ val (p_reg s) = (c0 + N.of_nat k)%N /\
    Permutation (flat_map taken (p_jobs s)) (next_numbers c0 k).

Lemma taken_split : forall a j b, Permutation (flat_map taken (a ++ j :: b)) (taken j ++ flat_map taken (a ++ b)).
Proof.
  intros. rewrite !flat_map_app. cbn [flat_map]. rewrite !app_assoc. apply Permutation_app_tail. apply Permutation_app_comm.
Qed.
Lemma pstep_ticked : forall i s s', ticked s -> pstep i s = Some s' -> ticked s'.
Proof.
  intros i [lk g l] s' [k [A [B C]]] S. unfold pstep in S. cbn [p_locked p_reg p_jobs] in *.
  destruct (nth_error l i) as [j|] eqn:N; [|discriminate]. destruct (nth_split _ _ _ _ N) as [a [b [L [_ Q]]]].
  destruct (jstep lk g j) as [[[lk' g'] j']|] eqn:J; [|discriminate]. injection S as <-. rewrite Q. subst l.
  rewrite map_app in A. cbn [map] in A. rewrite sum_split, <- map_app in A. rewrite taken_split in C.
  unfold ticked. cbn [p_reg p_jobs]. rewrite map_app. cbn [map]. rewrite sum_split, <- map_app.
  destruct (tick _ _ _ _ _ _ J) as [[V [T O]]|[V [T O]]].
  - exists k. split; [lia|]. split; [congruence|]. rewrite taken_split, T. exact C.
  - exists (S k). split; [lia|]. assert (U : uadd1 (val g) = (c0 + N.of_nat k + 1)%N). { rewrite B. apply uadd1_small. lia. }
    split; [lia|]. rewrite taken_split, T, next_snoc, <- C, U. cbn. apply Permutation_cons_append.
Qed.
Lemma prun_ticked : forall sched s, ticked s -> ticked (prun sched s).
Proof.
  induction sched as [|i l IH]; intros s I; cbn; auto. apply IH. destruct (pstep i s) as [s'|] eqn:E; auto. eapply pstep_ticked; eauto.
Qed.

Lemma taken_out : forall l, exists r, Permutation (flat_map taken l) (flat_map ot (flat_map j_out l) ++ r).
Proof.
  induction l as [|j l [r P]]; [exists []; auto|]. exists (tk (j_at j) ++ r). cbn. rewrite flat_map_app. unfold taken. rewrite P.
  rewrite <- !app_assoc. apply Permutation_app_head. rewrite !app_assoc. apply Permutation_app_tail. apply Permutation_app_comm.
Qed.
Lemma ticked_out : forall s, ticked s ->
  NoDup (flat_map ot (outcomes s)) /\ forall n, In n (flat_map ot (outcomes s)) -> (c0 < n <= c0 + N.of_nat total)%N.
Proof.
  intros s [k [A [B C]]]. destruct (taken_out (p_jobs s)) as [r P]. rewrite P in C. fold (outcomes s) in C. split.
  - assert (N := next_nodup k c0). rewrite <- C in N. eapply nodup_left; eauto.
  - intros n I. assert (J : In n (next_numbers c0 k)). { rewrite <- C. apply in_app_iff. auto. } apply next_in in J. lia.
Qed.
Lemma ticked_done : forall s, ticked s -> par_done s -> (forall j, In j (p_jobs s) -> owed j = 0) -> tk Free = [] ->
  Permutation (flat_map ot (outcomes s)) (next_numbers c0 total) /\ val (p_reg s) = (c0 + N.of_nat total)%N.
Proof.
  intros s [k [A [B C]]] D O F. assert (Z : sum (map owed (p_jobs s)) = 0).
  { clear - O. induction (p_jobs s) as [|j l IH]; auto. cbn. rewrite (O j) by now left. apply IH. intros; apply O; now right. }
  replace total with k by lia. split; auto. rewrite <- C. clear - D F. unfold outcomes. unfold par_done in D.
  induction (p_jobs s) as [|j l IH]; auto. cbn. rewrite flat_map_app, IH by (intros; apply D; now right). unfold taken.
  destruct (D j (or_introl eq_refl)) as [-> _]. rewrite F, app_nil_r. reflexivity.
Qed.
End Counter.

(** the three counters *)
Definition du_doc (c : call) : nat := match c with KDraw _ => 1 | KLink _ => 0 end.
Definition du_rid (c : call) : nat := match c with KDraw (WShape _) => 0 | _ => 1 end.
Definition du_img (c : call) : nat := match c with KDraw (WPicture _ _) => 1 | _ => 0 end.
Definition w_pic (w : drawing_call) : nat := match w with WShape _ => 0 | WPicture _ _ => 1 end.
Definition dp_doc (p : place) : nat := 0.
Definition dp_img (p : place) : nat :=
  match p with HasDoc w _ | Locked w _ | IdRead w _ _ | IdAdded w _ _ | IdStored w _ _ => w_pic w | Numbered _ _ _ _ => 1 | _ => 0 end.
Definition dp_rid (p : place) : nat :=
  match p with
  | HasDoc w _ | Locked w _ | IdRead w _ _ | IdAdded w _ _ | IdStored w _ _ => w_pic w
  | Free | HasRid _ _ | RelsRead _ _ _ => 0
  | _ => 1
  end.
Definition m_doc (m : making) : list N := match m with MLink _ => [] | MPicture _ _ d _ _ => [d] end.
Definition m_img (m : making) : list N := match m with MLink _ => [] | MPicture _ _ _ _ i => [i] end.
Definition tk_doc (p : place) : list N :=
  match p with
  | Free => []
  | HasDoc _ d | Locked _ d | IdRead _ d _ | IdAdded _ d _ | IdStored _ d _ => [d]
  | Numbered _ _ d _ | HasImg _ _ d _ _ | HasLen _ _ d _ _ _ | Indexed _ _ d _ _ | MediaRead _ _ d _ _ _ | MediaDone _ _ d _ _ => [d]
  | HasRid m _ | RelsRead m _ _ => m_doc m
  end.
Definition tk_rid (p : place) : list N := match p with HasRid _ r | RelsRead _ r _ => [r] | _ => [] end.
Definition tk_img (p : place) : list N :=
  match p with
  | HasImg _ _ _ _ i | HasLen _ _ _ _ i _ | Indexed _ _ _ _ i | MediaRead _ _ _ _ i _ | MediaDone _ _ _ _ i => [i]
  | HasRid m _ | RelsRead m _ _ => m_img m
  | _ => []
  end.
Definition ot_rid (o : outcome) : list N := match o with OShape _ _ _ => [] | OLink _ r => [r] | OPicture _ _ _ _ _ r => [r] end.
Definition ot_img (o : outcome) : list N := match o with OPicture _ _ _ _ i _ => [i] | _ => [] end.

Ltac jsteps J :=
  unfold jstep in J; cbn [j_at j_todo j_out] in J;
  repeat match type of J with
  | context [match ?x with _ => _ end] => is_var x; destruct x; cbn [j_at j_todo j_out] in J
  end;
  try discriminate; injection J as <- <- <-.
Ltac tick_tac :=
  intros lk g [todo p out] lk' g' j' J; jsteps J; unfold taken, owed, dp_doc; cbn;
  repeat match goal with |- context [match ?x with _ => _ end] => is_var x; destruct x; cbn | m : making |- _ => destruct m; cbn | w : drawing_call |- _ => destruct w; cbn end;
  rewrite ?flat_map_app; cbn; rewrite ?app_nil_r;
  solve [left; split; [reflexivity|split; [reflexivity|cbn; lia]]
        |right; split; [reflexivity|split; [|cbn; lia]]; symmetry; apply Permutation_cons_append].
Lemma tick_doc : ticks docid o_doc tk_doc du_doc dp_doc.
Proof. tick_tac. Qed.
Lemma tick_rid : ticks rid ot_rid tk_rid du_rid dp_rid.
Proof. tick_tac. Qed.
Lemma tick_img : ticks imgid ot_img tk_img du_img dp_img.
Proof. tick_tac. Qed.

(** ** IncreaseID: the run is a run of Conc.v *)
Definition draw_name (c : call) : list string := match c with KDraw w => [id_name w] | KLink _ => [] end.
Definition m_num (m : making) : list (string * N) := match m with MLink _ => [] | MPicture _ _ _ n _ => [(TUPIAN, n)] end.
Definition tk_num (p : place) : list (string * N) :=
  match p with
  | Numbered _ _ _ n | HasImg _ _ _ n _ | HasLen _ _ _ n _ _ | Indexed _ _ _ n _ | MediaRead _ _ _ n _ _ | MediaDone _ _ _ n _ => [(TUPIAN, n)]
  | HasRid m _ | RelsRead m _ _ => m_num m
  | _ => []
  end.
Definition c_place (p : place) : pc :=
  match p with
  | Locked w _ => Held (id_name w)
  | IdRead w _ n => HasRead (id_name w) n
  | IdAdded w _ n => Added (id_name w) n
  | IdStored w _ n => Stored (id_name w) n
  | _ => Idle
  end.
Definition ahead (p : place) : list string := match p with HasDoc w _ => [id_name w] | _ => [] end.
Definition c_job (j : job) : gor :=
  mk_gor (ahead (j_at j) ++ flat_map draw_name (j_todo j)) (c_place (j_at j)) (flat_map o_number (j_out j) ++ tk_num (j_at j)).
Definition c_state (s : pstate) : cstate := mk_cstate (p_locked s) (slow (p_reg s)) (map c_job (p_jobs s)).

Lemma map_set_nth : forall A B (f : A -> B) l i x, map f (set_nth l i x) = set_nth (map f l) i (f x).
Proof. induction l as [|a l IH]; intros [|i] x; cbn; auto. now rewrite IH. Qed.
Lemma set_nth_id : forall A (l : list A) i x, nth_error l i = Some x -> set_nth l i x = l.
Proof. induction l as [|a l IH]; intros [|i] x E; cbn in *; try discriminate; [congruence|]. now rewrite IH. Qed.
Lemma jstep_sim : forall lk g j lk' g' j', jstep lk g j = Some (lk', g', j') ->
  (lk' = lk /\ slow g' = slow g /\ c_job j' = c_job j) \/ gstep lk (slow g) (c_job j) = Some (lk', slow g', c_job j').
Proof.
  intros lk g [todo p out] lk' g' j' J. jsteps J; unfold c_job; cbn;
  repeat match goal with m : making |- _ => destruct m; cbn | w : drawing_call |- _ => destruct w; cbn end;
  rewrite ?flat_map_app; cbn; rewrite ?app_nil_r; auto; right; reflexivity.
Qed.
Lemma pstep_sim : forall i s s', pstep i s = Some s' -> c_state s' = c_state s \/ cstep i (c_state s) = Some (c_state s').
Proof.
  intros i [lk g l] s' S. unfold pstep in S. cbn [p_locked p_reg p_jobs] in S.
  destruct (nth_error l i) as [j|] eqn:N; [|discriminate]. destruct (jstep lk g j) as [[[lk' g'] j']|] eqn:J; [|discriminate]. injection S as <-.
  assert (N' : nth_error (map c_job l) i = Some (c_job j)) by (now apply map_nth_error).
  destruct (jstep_sim _ _ _ _ _ _ J) as [[-> [E1 E2]]|E].
  - left. unfold c_state. cbn [p_locked p_reg p_jobs]. rewrite map_set_nth, E1, E2. f_equal. apply set_nth_id. exact N'.
  - right. unfold cstep, c_state. cbn [p_locked p_reg p_jobs c_gs c_locked c_map]. rewrite N', E, map_set_nth. reflexivity.
Qed.
Lemma prun_sim : forall sched s, exists sched', c_state (prun sched s) = crun sched' (c_state s).
Proof.
  induction sched as [|i l IH]; intros s; cbn; [exists []; reflexivity|].
  destruct (pstep i s) as [s'|] eqn:E; [|apply IH]. destruct (IH s') as [q Q]. destruct (pstep_sim _ _ _ E) as [K|K].
  - exists q. now rewrite Q, K.
  - exists (i :: q). cbn. now rewrite K.
Qed.
Lemma c_start : forall s, par_start s -> start (c_state s).
Proof.
  intros s [A B]. split; [exact A|]. cbn. intros g I. apply in_map_iff in I. destruct I as [j [<- I]]. destruct (B j I) as [K1 K2].
  unfold c_job. rewrite K1, K2. auto.
Qed.
Lemma calls_length : forall nm l, calls nm l <= length l.
Proof. induction l as [|x l IH]; cbn; auto. destruct (String.eqb nm x); cbn; lia. Qed.
Lemma c_calls : forall s nm, par_start s -> all_calls nm (c_state s) <= count_calls s.
Proof.
  intros s nm [_ B]. unfold all_calls, count_calls. cbn. etransitivity; [apply calls_length|].
  induction (p_jobs s) as [|j l IH]; cbn; auto. rewrite !app_length. destruct (B j (or_introl eq_refl)) as [-> _]. cbn.
  assert (X : length (flat_map draw_name (j_todo j)) <= length (j_todo j)).
  { induction (j_todo j) as [|[w|k] t IHt]; cbn; auto; lia. }
  specialize (IH (fun j I => B j (or_intror I))). lia.
Qed.
Lemma numbers_out : forall l, exists r, Permutation (flat_map g_res (map c_job l)) (flat_map o_number (flat_map j_out l) ++ r).
Proof.
  induction l as [|j l [r P]]; [exists []; auto|]. exists (tk_num (j_at j) ++ r). cbn. rewrite flat_map_app, P.
  rewrite <- !app_assoc. apply Permutation_app_head. rewrite !app_assoc. apply Permutation_app_tail. apply Permutation_app_comm.
Qed.
Lemma returned_in : forall nm n l, In n (returned nm l) <-> In (nm, n) l.
Proof.
  induction l as [|[x m] l IH]; cbn; [tauto|]. destruct (String.eqb nm x) eqn:E.
  - apply String.eqb_eq in E. subst x. cbn. rewrite IH. split; intros [K|K]; auto; left; congruence.
  - rewrite IH. split; auto. intros [K|K]; auto. injection K as -> ->. now rewrite String.eqb_refl in E.
Qed.
Lemma returned_nodup : forall l, (forall nm, NoDup (returned nm l)) -> NoDup l.
Proof.
  induction l as [|[x m] l IH]; intros H; constructor.
  - intro I. specialize (H x). cbn in H. rewrite String.eqb_refl in H. inversion H; subst. apply H2. now apply returned_in.
  - apply IH. intros nm. specialize (H nm). cbn in H. destruct (String.eqb nm x); auto. now inversion H.
Qed.
Lemma par_numbered : forall s sched, par_start s -> room s -> NoDup (flat_map o_number (outcomes (prun sched s))).
Proof.
  intros s sched St [_ [_ [_ Rm]]]. destruct (prun_sim sched s) as [q Q].
  assert (D : NoDup (flat_map g_res (c_gs (c_state (prun sched s))))).
  { apply returned_nodup. intros nm. rewrite Q. apply (increase_any_schedule (c_state s) q nm (c_start s St)).
    intros x. specialize (Rm x). assert (C := c_calls s x St). unfold counter. change (c_map (c_state s)) with (slow (p_reg s)). destruct (mget x (slow (p_reg s))); lia. }
  destruct (numbers_out (p_jobs (prun sched s))) as [r P]. cbn in D. rewrite P in D. eapply nodup_left; eauto.
Qed.

(** ** All numbers *)
Lemma start_ticked : forall val ot tk du dp s, par_start s -> tk Free = [] -> dp Free = 0 ->
  ticked val ot tk du dp (val (p_reg s)) (sum (map du (flat_map j_todo (p_jobs s)))) s.
Proof.
  intros val ot tk du dp s [_ B] T D. exists 0. split; [|split].
  - assert (Sa : forall a b, sum (a ++ b) = sum a + sum b). { unfold sum. induction a as [|x a IHa]; intros b; cbn; auto. rewrite IHa. lia. }
    rewrite Nat.add_0_l. induction (p_jobs s) as [|j l IH]; [reflexivity|]. cbn [map flat_map]. rewrite map_app, Sa.
    change (owed du dp j + sum (map (owed du dp) l) = sum (map du (j_todo j)) + sum (map du (flat_map j_todo l))).
    rewrite (IH (fun j I => B j (or_intror I))). unfold owed. destruct (B j (or_introl eq_refl)) as [-> _]. lia.
  - lia.
  - cbn. induction (p_jobs s) as [|j l IH]; cbn; auto. unfold taken at 1. destruct (B j (or_introl eq_refl)) as [-> ->]. rewrite T. cbn. apply IH. intros; apply B; now right.
Qed.
Lemma sum_le : forall A (f : A -> nat) l, (forall x, f x <= 1) -> sum (map f l) <= length l.
Proof. intros A f l H. induction l as [|x l IH]; cbn; auto. specialize (H x). unfold sum in IH. lia. Qed.
Lemma nodup_map : forall A B (f : A -> B) l, (forall x y, In x l -> In y l -> f x = f y -> x = y) -> NoDup l -> NoDup (map f l).
Proof.
  induction l as [|a l IH]; cbn; intros H N; constructor; inversion N; subst.
  - intro I. apply in_map_iff in I. destruct I as [x [E I]]. apply H2. rewrite <- (H x a); auto.
  - apply IH; auto.
Qed.
Lemma counter_run : forall val ot tk du dp s sched, ticks val ot tk du dp -> par_start s -> tk Free = [] -> dp Free = 0 -> (forall c, du c <= 1) ->
  (val (p_reg s) + N.of_nat (count_calls s) < 9223372036854775808)%N ->
  NoDup (flat_map ot (outcomes (prun sched s))) /\ (forall n, In n (flat_map ot (outcomes (prun sched s))) -> (n < 9223372036854775808)%N).
Proof.
  intros val ot tk du dp s sched T St Z1 Z2 Le Rm. assert (L := sum_le _ du (flat_map j_todo (p_jobs s)) Le). fold (count_calls s) in L.
  assert (I : ticked val ot tk du dp (val (p_reg s)) (sum (map du (flat_map j_todo (p_jobs s)))) (prun sched s)).
  { apply prun_ticked; auto; [lia|]. apply start_ticked; auto. }
  destruct (ticked_out val ot tk du dp (val (p_reg s)) (sum (map du (flat_map j_todo (p_jobs s)))) ltac:(lia) _ I) as [A B]. split; auto. intros n K. apply B in K. lia.
Qed.
Lemma rids_map : forall l, flat_map o_rid l = map (fun r => ("rId" ++ itoa_u r)%string) (flat_map ot_rid l).
Proof. induction l as [|o l IH]; cbn; auto. rewrite map_app, IH. destruct o; reflexivity. Qed.
Lemma files_nodup : forall l, NoDup (flat_map ot_img l) -> (forall n, In n (flat_map ot_img l) -> (n < 9223372036854775808)%N) -> NoDup (flat_map o_file l).
Proof.
  assert (X : forall l x, In x (flat_map o_file l) -> (forall n, In n (flat_map ot_img l) -> (n < 9223372036854775808)%N) ->
    exists n f, In n (flat_map ot_img l) /\ x = img_name n f).
  { intros l x I B. apply in_flat_map in I. destruct I as [o [I J]]. destruct o as [| |f d doc n i r]; cbn in J; try easy. destruct J as [<-|[]].
    assert (K : In i (flat_map ot_img l)) by (apply in_flat_map; eexists; split; [exact I|now left]).
    exists i, f. split; auto. unfold img_name. rewrite itoa_u_small; auto. }
  induction l as [|o l IH]; cbn; intros N B; [constructor|]. destruct o as [| |f d doc n i r]; cbn in *; auto.
  inversion N; subst. constructor; [|apply IH; auto]. intro I. apply X in I; [|auto]. destruct I as [m [f' [I E]]].
  rewrite itoa_u_small in E by auto. apply (img_name_inj i m f f') in E. subst. contradiction.
Qed.
Lemma par_distinct : forall s sched, par_start s -> room s ->
  NoDup (flat_map o_doc (outcomes (prun sched s))) /\ NoDup (flat_map o_rid (outcomes (prun sched s))) /\
  NoDup (flat_map o_file (outcomes (prun sched s))) /\ NoDup (flat_map o_number (outcomes (prun sched s))).
Proof.
  intros s sched St Rm. assert (Rm' := Rm). destruct Rm as [R1 [R2 [R3 _]]]. split; [|split; [|split]].
  - eapply (counter_run docid o_doc); eauto using tick_doc. intros [|]; cbn; lia.
  - rewrite rids_map. destruct (counter_run rid ot_rid tk_rid du_rid dp_rid s sched) as [A B]; auto using tick_rid; [intros [[|]|]; cbn; lia|].
    apply nodup_map; auto. intros x y Ix Iy E. rewrite !itoa_u_small in E by auto. now apply (rid_name_inj x y).
  - destruct (counter_run imgid ot_img tk_img du_img dp_img s sched) as [A B]; auto using tick_img; [intros [[|]|]; cbn; lia|]. apply files_nodup; auto.
  - now apply par_numbered.
Qed.
