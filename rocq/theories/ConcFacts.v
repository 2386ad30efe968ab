(** Facts about concurrent calls of IncreaseID. *)
From Coq Require Import String List Bool Arith NArith Lia Permutation.
From Verif Require Import GoStr Docx Conc SpecConc RegFacts HistFacts2.
Import ListNotations.
Local Open Scope string_scope.
Local Open Scope list_scope.

Lemma calls_app : forall nm a b, calls nm (a ++ b) = calls nm a + calls nm b.
Proof. induction a; cbn; intros; auto. rewrite IHa. lia. Qed.
Lemma returned_app : forall nm a b, returned nm (a ++ b) = returned nm a ++ returned nm b.
Proof. induction a as [|[x n] a IH]; cbn; intros; auto. destruct (String.eqb nm x); cbn; now rewrite IH. Qed.
Lemma next_snoc : forall k c, next_numbers c (S k) = next_numbers c k ++ [(c + N.of_nat k + 1)%N].
Proof.
  induction k; intros c; [cbn; f_equal; lia|]. change (next_numbers c (S (S k))) with ((c + 1)%N :: next_numbers (c + 1) (S k)).
  rewrite IHk. cbn [next_numbers app]. do 2 f_equal. f_equal. lia.
Qed.
Lemma next_in : forall k c x, In x (next_numbers c k) <-> (c < x <= c + N.of_nat k)%N.
Proof.
  induction k; intros c x; cbn [next_numbers In]; [lia|]. rewrite IHk. lia.
Qed.
Lemma next_nodup : forall k c, NoDup (next_numbers c k).
Proof. induction k; intros c; cbn; constructor; auto. rewrite next_in. lia. Qed.

(** what a goroutine holds that it has not returned, and what it will still store *)
Definition pend (nm : string) (g : gor) : list N := match g_pc g with Stored x n => if String.eqb nm x then [n] else [] | _ => [] end.
Definition vals (nm : string) (g : gor) : list N := returned nm (g_res g) ++ pend nm g.
Definition due (nm : string) (g : gor) : nat :=
  calls nm (g_todo g) + match g_pc g with Held x | HasRead x _ | Added x _ => if String.eqb nm x then 1 else 0 | _ => 0 end.
Fixpoint dues (nm : string) (l : list gor) : nat := match l with [] => 0 | g :: l' => due nm g + dues nm l' end.
Definition gvals (nm : string) (l : list gor) : list N := flat_map (vals nm) l.
Lemma dues_split : forall nm a g b, dues nm (a ++ g :: b) = due nm g + dues nm (a ++ b).
Proof. induction a; cbn; intros; auto. rewrite IHa. lia. Qed.
Lemma gvals_split : forall nm a g b, Permutation (gvals nm (a ++ g :: b)) (vals nm g ++ gvals nm (a ++ b)).
Proof.
  intros. unfold gvals. rewrite !flat_map_app. cbn [flat_map]. rewrite !app_assoc. apply Permutation_app_tail. apply Permutation_app_comm.
Qed.

Definition mval (nm : string) (m : list (string * N)) : N := match mget nm m with Some v => v | None => 0%N end.
(** what the goroutine holds agrees with the map *)
Definition fresh_pc (m : list (string * N)) (p : pc) : Prop :=
  match p with HasRead x n => n = mval x m | Added x n => n = uadd1 (mval x m) | _ => True end.
(** at most one goroutine is not idle, and then the mutex is locked *)
Definition excl (locked : bool) (l : list gor) : Prop :=
  if locked then exists a g b, l = a ++ g :: b /\ g_pc g <> Idle /\ forall h, In h (a ++ b) -> g_pc h = Idle
  else forall h, In h l -> g_pc h = Idle.

Section Run.
Variable c0 : string -> N.
Variable total : string -> nat.
Hypothesis small : forall nm, (c0 nm + N.of_nat (total nm) < 18446744073709551616)%N.

Definition counted (nm : string) (m : list (string * N)) (l : list gor) : Prop :=
  exists k, k + dues nm l = total nm /\ mval nm m = (c0 nm + N.of_nat k)%N /\ Permutation (gvals nm l) (next_numbers (c0 nm) k).
Definition cinv (s : cstate) : Prop :=
  excl (c_locked s) (c_gs s) /\ (forall g, In g (c_gs s) -> fresh_pc (c_map s) (g_pc g)) /\ forall nm, counted nm (c_map s) (c_gs s).

Lemma excl_step : forall locked a g b, excl locked (a ++ g :: b) -> g_pc g <> Idle \/ locked = false ->
  (forall h, In h (a ++ b) -> g_pc h = Idle).
Proof.
  intros locked a g b E [K|K].
  - destruct locked; cbn in E.
    + destruct E as [a' [x [b' [E1 [E2 E3]]]]]. intros h I.
      assert (D : a = a' /\ g = x /\ b = b').
      { clear I h. revert a' E1 E3. induction a as [|y a IH]; intros [|z a'] E1 E3; cbn in E1.
        - injection E1 as -> ->. auto.
        - injection E1 as E1 E4. exfalso. apply K. apply E3. rewrite E1. now left.
        - injection E1 as E1 E4. exfalso. apply K. apply E3. cbn. rewrite <- E4. apply in_app_iff. right; now left.
        - injection E1 as -> E1. destruct (IH a' E1) as [-> [-> ->]]; auto. intros; apply E3. now right. }
      destruct D as [-> [-> ->]]. auto.
    + exfalso. apply K. apply E. apply in_app_iff. right; now left.
  - subst. cbn in E. intros h I. apply E. rewrite in_app_iff in *. cbn. tauto.
Qed.
Lemma busy_locked : forall locked a g b, excl locked (a ++ g :: b) -> g_pc g <> Idle -> locked = true.
Proof. intros [|] a g b E K; auto. exfalso. apply K. apply E. apply in_app_iff. right; now left. Qed.
Lemma counted_eq : forall nm m m' a g g' b, counted nm m (a ++ g :: b) -> mval nm m' = mval nm m -> due nm g' = due nm g -> vals nm g' = vals nm g ->
  counted nm m' (a ++ g' :: b).
Proof.
  intros nm m m' a g g' b [k [A [B C]]] M D V. exists k. rewrite dues_split in *. rewrite D. split; auto. split; [congruence|].
  rewrite gvals_split in C. rewrite gvals_split, V. exact C.
Qed.
Lemma mval_set : forall nm x n m, mval nm (mset x n m) = if String.eqb nm x then n else mval nm m.
Proof. intros. unfold mval, mset. cbn. destruct (String.eqb nm x); reflexivity. Qed.
Lemma idle_fresh : forall m p, p = Idle -> fresh_pc m p.
Proof. intros m p ->. exact I. Qed.

Lemma cstep_inv : forall i s s', cinv s -> cstep i s = Some s' -> cinv s'.
Proof.
  intros i [locked m l] s' [E [F C]] S. unfold cstep in S. cbn [c_locked c_map c_gs] in *.
  destruct (nth_error l i) as [g|] eqn:N; [|discriminate]. destruct (nth_split _ _ _ _ N) as [a [b [L [_ Q]]]].
  assert (Fg : fresh_pc m (g_pc g)) by (apply F; eapply nth_error_In; eauto).
  destruct g as [todo p res]. unfold gstep in S. cbn [g_pc g_todo g_res] in *.
  destruct p as [|nm|nm n|nm n|nm n].
  - destruct todo as [|nm t]; [discriminate|]. destruct locked; [discriminate|]. injection S as <-. rewrite Q. subst l.
    assert (X : forall h, In h (a ++ b) -> g_pc h = Idle) by (eapply excl_step; [exact E|right; reflexivity]).
    unfold cinv. cbn [c_locked c_map c_gs]. split; [|split].
    + exists a, (mk_gor t (Held nm) res), b. split; auto. split; [discriminate|auto].
    + intros h I. rewrite in_app_iff in I. destruct I as [I|[<-|I]]; [|exact Logic.I|]; apply idle_fresh, X, in_app_iff; auto.
    + intros x. refine (counted_eq x m m a _ _ b (C x) eq_refl _ _); [|reflexivity]. unfold due. cbn. destruct (String.eqb x nm); lia.
  - injection S as <-. rewrite Q. subst l. assert (X : forall h, In h (a ++ b) -> g_pc h = Idle) by (eapply excl_step; [exact E|left; discriminate]).
    assert (LK : locked = true) by (eapply busy_locked; [exact E|discriminate]).
    unfold cinv. cbn [c_locked c_map c_gs]. split; [|split].
    + subst locked. eexists a, _, b. split; auto. split; [discriminate|auto].
    + intros h I. rewrite in_app_iff in I. destruct I as [I|[<-|I]]; [|reflexivity|]; apply idle_fresh, X, in_app_iff; auto.
    + intros x. refine (counted_eq x m m a _ _ b (C x) eq_refl _ _); reflexivity.
  - injection S as <-. rewrite Q. subst l. assert (X : forall h, In h (a ++ b) -> g_pc h = Idle) by (eapply excl_step; [exact E|left; discriminate]).
    assert (LK : locked = true) by (eapply busy_locked; [exact E|discriminate]).
    unfold cinv. cbn [c_locked c_map c_gs]. split; [|split].
    + subst locked. eexists a, _, b. split; auto. split; [discriminate|auto].
    + intros h I. rewrite in_app_iff in I. destruct I as [I|[<-|I]]; [|cbn in *; congruence|]; apply idle_fresh, X, in_app_iff; auto.
    + intros x. refine (counted_eq x m m a _ _ b (C x) eq_refl _ _); reflexivity.
  - injection S as <-. rewrite Q. subst l. assert (X : forall h, In h (a ++ b) -> g_pc h = Idle) by (eapply excl_step; [exact E|left; discriminate]).
    assert (LK : locked = true) by (eapply busy_locked; [exact E|discriminate]).
    unfold cinv. cbn [c_locked c_map c_gs]. split; [|split].
    + subst locked. eexists a, _, b. split; auto. split; [discriminate|auto].
    + intros h I. rewrite in_app_iff in I. destruct I as [I|[<-|I]]; [|exact Logic.I|]; apply idle_fresh, X, in_app_iff; auto.
    + intros x. destruct (String.eqb x nm) eqn:Ex.
      * apply String.eqb_eq in Ex. subst x. destruct (C nm) as [k [A [B D]]]. exists (S k). cbn in Fg. rewrite dues_split in *.
        assert (Dg : due nm (mk_gor todo (Added nm n) res) = S (due nm (mk_gor todo (Stored nm n) res))).
        { unfold due. cbn [g_todo g_pc]. rewrite String.eqb_refl. lia. }
        split; [lia|]. rewrite mval_set, String.eqb_refl. specialize (small nm).
        assert (Vn : n = (c0 nm + N.of_nat (S k))%N). { rewrite Fg, B. unfold uadd1. rewrite N.mod_small; lia. }
        split; auto. rewrite next_snoc. rewrite gvals_split in D. rewrite gvals_split. rewrite <- D.
        unfold vals, pend. cbn [g_res g_pc]. rewrite String.eqb_refl, app_nil_r. rewrite <- !app_assoc. apply Permutation_app_head.
        replace (c0 nm + N.of_nat k + 1)%N with n by lia. apply Permutation_app_comm.
      * refine (counted_eq x m _ a _ _ b (C x) _ _ _).
        -- rewrite mval_set, Ex. reflexivity.
        -- unfold due. cbn. now rewrite Ex.
        -- unfold vals, pend. cbn. now rewrite Ex.
  - injection S as <-. rewrite Q. subst l. assert (X : forall h, In h (a ++ b) -> g_pc h = Idle) by (eapply excl_step; [exact E|left; discriminate]).
    unfold cinv. cbn [c_locked c_map c_gs]. split; [|split].
    + intros h I. rewrite in_app_iff in I. destruct I as [I|[<-|I]]; [|reflexivity|]; apply X, in_app_iff; auto.
    + intros h I. rewrite in_app_iff in I. destruct I as [I|[<-|I]]; [|exact Logic.I|]; apply idle_fresh, X, in_app_iff; auto.
    + intros x. refine (counted_eq x m m a _ _ b (C x) eq_refl _ _); [reflexivity|]. unfold vals, pend. cbn [g_res g_pc]. rewrite returned_app, app_nil_r. cbn.
      destruct (String.eqb x nm); reflexivity.
Qed.
Lemma crun_inv : forall sched s, cinv s -> cinv (crun sched s).
Proof.
  induction sched as [|i l IH]; intros s I; cbn; auto. apply IH. destruct (cstep i s) as [s'|] eqn:E; auto. eapply cstep_inv; eauto.
Qed.
End Run.

Lemma start_inv : forall s, start s -> cinv (fun nm => counter nm s) (fun nm => all_calls nm s) s.
Proof.
  intros [locked m l] [E K]. cbn in E, K. subst. split; [|split].
  - intros h I. now apply K.
  - intros g I. apply idle_fresh. now apply K.
  - intros nm. cbn [c_gs c_map]. exists 0. split; [|split].
    + unfold all_calls. cbn [c_gs]. induction l as [|g l IH]; auto. cbn. rewrite calls_app. rewrite <- IH by (intros; apply K; now right).
      unfold due. destruct (K g (or_introl eq_refl)) as [-> _]. lia.
    + unfold counter, mval. cbn. destruct (mget nm m); lia.
    + cbn. assert (Z : gvals nm l = []). { unfold gvals. induction l as [|g l IH]; auto. cbn. rewrite IH by (intros; apply K; now right).
      unfold vals, pend. destruct (K g (or_introl eq_refl)) as [-> ->]. reflexivity. } rewrite Z. constructor.
Qed.
Lemma gvals_returned : forall nm l, exists r, Permutation (gvals nm l) (returned nm (flat_map g_res l) ++ r) /\ ((forall g, In g l -> g_pc g = Idle) -> r = []).
Proof.
  intros nm l. induction l as [|g l [r [P Q]]]; [exists []; auto|]. exists (pend nm g ++ r). split.
  - cbn. rewrite returned_app. unfold vals. rewrite P. rewrite <- !app_assoc. apply Permutation_app_head. rewrite !app_assoc. apply Permutation_app_tail. apply Permutation_app_comm.
  - intros K. rewrite Q by (intros; apply K; now right). unfold pend. now rewrite (K g (or_introl eq_refl)).
Qed.
Lemma nodup_left : forall A (l m : list A), NoDup (l ++ m) -> NoDup l.
Proof.
  induction l; cbn; intros m N; [constructor|]. inversion N; subst. constructor; eauto. intro I. apply H1, in_app_iff. auto.
Qed.
Lemma increase_any_schedule : forall s sched nm, start s ->
  (forall x, (counter x s + N.of_nat (all_calls x s) < 18446744073709551616)%N) ->
  NoDup (all_returned nm (crun sched s)) /\
  (forall n, In n (all_returned nm (crun sched s)) -> (counter nm s < n <= counter nm s + N.of_nat (all_calls nm s))%N) /\
  (done (crun sched s) ->
     Permutation (all_returned nm (crun sched s)) (next_numbers (counter nm s) (all_calls nm s)) /\
     counter nm (crun sched s) = (counter nm s + N.of_nat (all_calls nm s))%N).
Proof.
  intros s sched nm St Sm. assert (I := crun_inv _ _ Sm sched s (start_inv s St)). set (s' := crun sched s) in *. clearbody s'.
  destruct I as [E [F C]]. destruct (C nm) as [k [A [B D]]]. destruct (gvals_returned nm (c_gs s')) as [r [P Q]].
  rewrite P in D. fold (all_returned nm s') in D. split; [|split].
  - assert (N := next_nodup k (counter nm s)). rewrite <- D in N. eapply nodup_left; eauto.
  - intros n I. assert (J : In n (next_numbers (counter nm s) k)). { rewrite <- D. apply in_app_iff. auto. } apply next_in in J. lia.
  - intros Dn. rewrite Q in D by (intros; now apply Dn). rewrite app_nil_r in D.
    assert (Z : dues nm (c_gs s') = 0). { unfold done in Dn. clear - Dn. induction (c_gs s') as [|g l IH]; auto. cbn. rewrite IH by (intros; apply Dn; now right).
      unfold due. destruct (Dn g (or_introl eq_refl)) as [-> ->]. reflexivity. }
    replace k with (all_calls nm s) in * by lia. split; auto.
Qed.

(** a state in which not all calls are finished can move *)
Lemma no_deadlock : forall s sched, start s -> (forall x, (counter x s + N.of_nat (all_calls x s) < 18446744073709551616)%N) ->
  ~ done (crun sched s) -> exists i s', cstep i (crun sched s) = Some s'.
Proof.
  intros s sched St Sm. assert (I := crun_inv _ _ Sm sched s (start_inv s St)). set (s' := crun sched s) in *. clearbody s'. intros Nd.
  destruct s' as [locked m l]. destruct I as [E _]. cbn [c_gs c_locked] in E. unfold done in Nd. cbn [c_gs] in Nd. destruct locked.
  - destruct E as [a [g [b [-> [K _]]]]]. exists (length a). unfold cstep. cbn [c_gs c_locked c_map]. rewrite nth_error_app2 by lia. rewrite Nat.sub_diag. cbn [nth_error].
    unfold gstep. destruct (g_pc g); [congruence| | | |]; eauto.
  - cbn in E. assert (X : exists g, In g l /\ g_todo g <> []).
    { clear - E Nd. induction l as [|g l IH].
      - exfalso. apply Nd. intros g [].
      - destruct (g_todo g) as [|x t] eqn:T.
        + destruct IH as [h [I J]]; [intros; apply E; now right| |exists h; split; auto; now right].
          intros K. apply Nd. intros h [<-|I]; auto. split; auto. apply E. now left.
        + exists g. split; [now left|congruence]. }
    destruct X as [g [I J]]. destruct (In_nth_error _ _ I) as [i Ni]. exists i. unfold cstep. cbn [c_gs c_locked c_map]. rewrite Ni. unfold gstep.
    rewrite (E g I). destruct (g_todo g); [congruence|]. eauto.
Qed.

(** every step takes the goroutine one step further, so schedules end *)
Definition gleft (g : gor) : nat := 5 * length (g_todo g) + match g_pc g with Idle => 0 | Held _ => 4 | HasRead _ _ => 3 | Added _ _ => 2 | Stored _ _ => 1 end.
Definition cleft (s : cstate) : nat := fold_right (fun g n => gleft g + n) 0 (c_gs s).
Lemma cleft_step : forall i s s', cstep i s = Some s' -> cleft s' < cleft s.
Proof.
  intros i [locked m l] s' S. unfold cstep in S. cbn [c_locked c_map c_gs] in S. destruct (nth_error l i) as [g|] eqn:N; [|discriminate].
  destruct (nth_split _ _ _ _ N) as [a [b [L [_ Q]]]]. destruct (gstep locked m g) as [[[lk m'] g']|] eqn:G; [|discriminate]. injection S as <-.
  unfold cleft. cbn [c_gs]. rewrite Q. subst l. rewrite !fold_right_app. cbn [fold_right].
  assert (K : gleft g' < gleft g).
  { unfold gstep in G. unfold gleft. destruct (g_pc g); [destruct (g_todo g); [discriminate|]; destruct locked; [discriminate|]| | | |]; inversion G; subst; cbn [g_todo g_pc length]; lia. }
  assert (M : forall (a : list gor) x y, x < y -> fold_right (fun g n => gleft g + n) x a < fold_right (fun g n => gleft g + n) y a).
  { clear. induction a as [|h a IH]; cbn [fold_right]; intros x y Lt; auto. specialize (IH _ _ Lt). lia. }
  apply M. apply Nat.add_lt_mono_r. exact K.
Qed.
Lemma can_finish : forall s, start s -> (forall x, (counter x s + N.of_nat (all_calls x s) < 18446744073709551616)%N) ->
  forall sched, exists more, done (crun (sched ++ more) s).
Proof.
  intros s St Sm sched. assert (G : forall n sched, cleft (crun sched s) <= n -> exists more, done (crun (sched ++ more) s)).
  { induction n; intros sc L.
    - exists []. rewrite app_nil_r. intros g I. revert L I. unfold cleft. generalize (c_gs (crun sc s)). induction l as [|h l IH]; cbn [fold_right In]; intros L I; [easy|].
      destruct I as [->|I]; [|apply IH; auto; lia]. unfold gleft at 1 in L. destruct (g_pc g), (g_todo g); cbn [length] in L; try lia. auto.
    - assert (D : done (crun sc s) \/ ~ done (crun sc s)).
      { unfold done. generalize (c_gs (crun sc s)). induction l as [|h l [IH|IH]].
        - left. intros g [].
        - destruct (g_pc h) eqn:P1, (g_todo h) eqn:P2; try (left; intros g [<-|I]; auto; fail); right; intros K; destruct (K h (or_introl eq_refl)); congruence.
        - right. intros K. apply IH. intros; apply K; now right. }
      destruct D as [D|D]; [exists []; rewrite app_nil_r; exact D|]. destruct (no_deadlock _ _ St Sm D) as [i [s' K]].
      assert (R : crun (sc ++ [i]) s = s'). { clear - K. revert s K. induction sc; cbn; intros; [now rewrite K|]. now apply IHsc. }
      destruct (IHn (sc ++ [i])) as [more M]; [rewrite R; apply cleft_step in K; lia|]. exists (i :: more). rewrite <- app_assoc in M. exact M. }
  eapply G. apply le_n.
Qed.
