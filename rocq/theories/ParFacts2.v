(** Facts about documents built by several goroutines: one of them adds links
    and pictures. *)
From Coq Require Import String List Bool Arith NArith Lia.
From Verif Require Import GoStr Lib Types Docx Par SpecPar RegFacts HistFacts2 IdFacts ParFacts.
Import ListNotations.
Local Open Scope string_scope.
Local Open Scope list_scope.

(** ** The others leave relationships and pictures alone *)
Definition shapes_only (j : job) : Prop :=
  (forall c, In c (j_todo j) -> ~ relates c) /\
  match j_at j with
  | Free => True
  | HasDoc w _ | Locked w _ | IdRead w _ _ | IdAdded w _ _ | IdStored w _ _ => match w with WShape _ => True | _ => False end
  | _ => False
  end.
Lemma same_refl : forall g, same_parts g g.
Proof. repeat split. Qed.
Lemma same_trans : forall a b c, same_parts a b -> same_parts b c -> same_parts a c.
Proof. intros a b c [A1 [A2 [A3 [A4 A5]]]] [B1 [B2 [B3 [B4 B5]]]]. repeat split; congruence. Qed.
Lemma shapes_step : forall lk g j lk' g' j', shapes_only j -> jstep lk g j = Some (lk', g', j') -> shapes_only j' /\ same_parts g' g.
Proof.
  intros lk g [todo p out] lk' g' j' [A B] J. cbn [j_todo j_at] in *. unfold jstep in J. cbn [j_at j_todo j_out] in J.
  destruct p as [|w d|w d|w d n|w d n|w d n| | | | | | | |]; try contradiction.
  - destruct todo as [|[[nm|f x]|k] t]; [discriminate| | |].
    + injection J as <- <- <-. split; [|repeat split]. split; cbn; auto. intros c I. apply A. now right.
    + exfalso. apply (A (KDraw (WPicture f x))); [now left|exact I].
    + exfalso. apply (A (KLink k)); [now left|exact I].
  - destruct lk; [discriminate|]. injection J as <- <- <-. split; [split; auto|apply same_refl].
  - injection J as <- <- <-. split; [split; auto|apply same_refl].
  - injection J as <- <- <-. split; [split; auto|apply same_refl].
  - injection J as <- <- <-. split; [split; auto|repeat split].
  - destruct w; [|contradiction]. injection J as <- <- <-. split; [split; cbn; auto|apply same_refl].
Qed.

(** ** The one that does *)
Definition current (p : place) : list call :=
  match p with
  | Free => []
  | HasDoc w _ | Locked w _ | IdRead w _ _ | IdAdded w _ _ | IdStored w _ _ => [KDraw w]
  | Numbered f x _ _ | HasImg f x _ _ _ | HasLen f x _ _ _ _ | Indexed f x _ _ _ | MediaRead f x _ _ _ _ | MediaDone f x _ _ _ => [KDraw (WPicture f x)]
  | HasRid (MLink l) _ | RelsRead (MLink l) _ _ => [KLink l]
  | HasRid (MPicture f x _ _ _) _ | RelsRead (MPicture f x _ _ _) _ _ => [KDraw (WPicture f x)]
  end.
(** the registry halfway through a call that began in [R] *)
Definition after_img (R : reg) (i : N) : reg := set_imgid i R.
Definition after_media (R : reg) (f x : string) (i : N) : reg := add_media (picture_name f i, x) (set_imgid i R).
Definition before_rel (R : reg) (m : making) (r : N) : reg :=
  set_rid r (match m with MLink _ => R | MPicture f x _ _ i => after_media R f x i end).
Definition m_ok (R : reg) (m : making) : Prop := match m with MLink _ => True | MPicture _ _ _ _ i => i = uadd1 (imgid R) end.
Definition halfway (R g : reg) (p : place) : Prop :=
  match p with
  | HasImg _ _ _ _ i => i = uadd1 (imgid R) /\ same_parts g (after_img R i)
  | HasLen _ _ _ _ i k => i = uadd1 (imgid R) /\ same_parts g (after_img R i) /\ k = length (media R)
  | Indexed f x _ _ i => i = uadd1 (imgid R) /\ same_parts g (set_media (media R) (mset (picture_name f i) (length (media R)) (midx R)) (after_img R i))
  | MediaRead f x _ _ i l => i = uadd1 (imgid R) /\ same_parts g (set_media (media R) (mset (picture_name f i) (length (media R)) (midx R)) (after_img R i)) /\ l = media R
  | MediaDone f x _ _ i => i = uadd1 (imgid R) /\ same_parts g (after_media R f x i)
  | HasRid m r => m_ok R m /\ r = uadd1 (rid R) /\ same_parts g (before_rel R m r)
  | RelsRead m r l => m_ok R m /\ r = uadd1 (rid R) /\ same_parts g (before_rel R m r) /\ l = rels R
  | _ => same_parts g R
  end.
Lemma halfway_same : forall R g g' p, same_parts g' g -> halfway R g p -> halfway R g' p.
Proof.
  intros R g g' p S H. destruct p; cbn in *; try (eapply same_trans; eassumption);
  repeat match goal with H : _ /\ _ |- _ => destruct H end; repeat split; auto; try (eapply same_trans; eassumption).
Qed.
Lemma alone_app : forall a b g, alone (a ++ b) g = (let '(x, g1) := alone a g in let '(y, g2) := alone b g1 in (x ++ y, g2)).
Proof.
  induction a as [|c a IH]; intros b g; [cbn; now destruct (alone b g)|].
  destruct c as [[nm|f x]|k]; cbn [app alone].
  - apply IH.
  - destruct (add_image f x g) as [id g1]. rewrite IH. destruct (alone a g1) as [u g2]. destruct (alone b g2). reflexivity.
  - destruct (add_link_relation k g) as [id g1]. rewrite IH. destruct (alone a g1) as [u g2]. destruct (alone b g2). reflexivity.
Qed.

Section One.
Variable g0 : reg.
Variable mine : list call.
Definition follows (g : reg) (j : job) : Prop :=
  exists past, mine = past ++ current (j_at j) ++ j_todo j /\ fst (alone past g0) = flat_map o_rid (j_out j) /\
    halfway (snd (alone past g0)) g (j_at j).

Lemma mine_step : forall lk g j lk' g' j', follows g j -> jstep lk g j = Some (lk', g', j') -> follows g' j'.
Proof.
  intros lk g [todo p out] lk' g' j' [past [A [B H]]] J. cbn [j_todo j_at j_out] in *. unfold jstep in J. cbn [j_at j_todo j_out] in J.
  set (R := snd (alone past g0)) in *.
  destruct p as [|w d|w d|w d n|w d n|w d n|f x d n|f x d n i|f x d n i k|f x d n i|f x d n i l|f x d n i|m r|m r l]; cbn [current halfway] in *.
  - destruct todo as [|[w|k] t]; [discriminate| |]; injection J as <- <- <-; exists past; cbn [j_at j_todo j_out current halfway]; repeat split; auto; try apply H;
    cbn; destruct H as [_ [_ [_ [-> _]]]]; reflexivity.
  - destruct lk; [discriminate|]. injection J as <- <- <-. exists past. repeat split; auto; apply H.
  - injection J as <- <- <-. exists past. repeat split; auto; apply H.
  - injection J as <- <- <-. exists past. repeat split; auto; apply H.
  - injection J as <- <- <-. exists past. repeat split; auto; apply H.
  - destruct w as [nm|f x]; injection J as <- <- <-.
    + exists (past ++ [KDraw (WShape nm)]). cbn [j_at j_todo j_out current halfway]. rewrite alone_app, flat_map_app.
      destruct (alone past g0) as [u g1] eqn:E. cbn in *. rewrite !app_nil_r. rewrite <- app_assoc. auto.
    + exists past. repeat split; auto; apply H.
  - injection J as <- <- <-. exists past. cbn [j_at j_todo j_out current halfway]. split; auto. split; auto.
    destruct H as [H1 [H2 [H3 [H4 H5]]]]. rewrite H5. repeat split; auto; cbn; congruence.
  - injection J as <- <- <-. exists past. cbn [j_at j_todo j_out current halfway]. split; auto. split; auto.
    destruct H as [I S]. split; auto. split; auto. destruct S as [_ [-> _]]. reflexivity.
  - injection J as <- <- <-. exists past. cbn [j_at j_todo j_out current halfway]. split; auto. split; auto.
    destruct H as [I [[H1 [H2 [H3 [H4 H5]]]] ->]]. cbn in *. split; auto. repeat split; cbn; auto. now rewrite H3.
  - injection J as <- <- <-. exists past. cbn [j_at j_todo j_out current halfway]. split; auto. split; auto.
    destruct H as [I S]. split; auto. split; auto. destruct S as [_ [-> _]]. reflexivity.
  - injection J as <- <- <-. exists past. cbn [j_at j_todo j_out current halfway]. split; auto. split; auto.
    destruct H as [I [[H1 [H2 [H3 [H4 H5]]]] ->]]. split; auto. repeat split; auto.
  - injection J as <- <- <-. exists past. cbn [j_at j_todo j_out current halfway]. split; auto. split; auto.
    destruct H as [I [H1 [H2 [H3 [H4 H5]]]]]. cbn in *. rewrite H4. repeat split; cbn; auto; congruence.
  - injection J as <- <- <-. exists past. cbn [j_at j_todo j_out current halfway]. split; auto. split; auto.
    destruct H as [M [I S]]. repeat split; auto; try apply S. destruct S as [-> _]. destruct m; reflexivity.
  - injection J as <- <- <-. exists (past ++ current (RelsRead m r l)). cbn [j_at j_todo j_out halfway]. rewrite alone_app, flat_map_app.
    rewrite <- B. subst R. destruct (alone past g0) as [u g1] eqn:E. cbn [fst snd] in *.
    destruct H as [M [-> [[H1 [H2 [H3 [H4 H5]]]] ->]]]. split; [rewrite <- app_assoc; exact A|].
    destruct m as [k|f x d n i]; cbn [m_ok] in M; [|subst i]; split; cbn; try reflexivity; repeat split; cbn; auto.
Qed.
Variable i : nat.
Definition only (s : pstate) : Prop :=
  forall k j, nth_error (p_jobs s) k = Some j -> if Nat.eqb k i then follows (p_reg s) j else shapes_only j.
Lemma follows_same : forall g g' j, same_parts g' g -> follows g j -> follows g' j.
Proof. intros g g' j S [past [A [B H]]]. exists past. repeat split; auto. eapply halfway_same; eauto. Qed.
Lemma set_nth_get : forall A (l : list A) k n x j, nth_error (set_nth l n x) k = Some j -> (k = n /\ j = x) \/ (k <> n /\ nth_error l k = Some j).
Proof.
  induction l as [|a l IH]; intros [|k] [|n] x j E; cbn in *; try discriminate; auto.
  - left. injection E as ->. auto.
  - destruct (IH _ _ _ _ E) as [[-> ->]|[N K]]; auto.
Qed.
Lemma only_step : forall k s s', only s -> pstep k s = Some s' -> only s'.
Proof.
  intros k [lk g l] s' O S. unfold pstep in S. cbn [p_locked p_reg p_jobs] in *. destruct (nth_error l k) as [j|] eqn:N; [|discriminate].
  destruct (jstep lk g j) as [[[lk' g'] j']|] eqn:J; [|discriminate]. injection S as <-. assert (Oj := O k j N).
  intros q x Q. cbn [p_jobs p_reg] in *. destruct (set_nth_get _ _ _ _ _ _ Q) as [[-> ->]|[D Q']].
  - destruct (Nat.eqb k i) eqn:E; [eapply mine_step; eauto|]. eapply shapes_step; eauto.
  - specialize (O q x Q'). cbn [p_reg] in O. destruct (Nat.eqb q i) eqn:E; auto.
    destruct (Nat.eqb k i) eqn:E'. { apply Nat.eqb_eq in E, E'. congruence. }
    destruct (shapes_step _ _ _ _ _ _ Oj J) as [_ Sm]. eapply follows_same; eauto.
Qed.
Lemma only_run : forall sched s, only s -> only (prun sched s).
Proof.
  induction sched as [|k l IH]; intros s I; cbn; auto. apply IH. destruct (pstep k s) as [s'|] eqn:E; auto. eapply only_step; eauto.
Qed.
End One.

Lemma par_one : forall s sched i j j', par_start s -> one_relates i s -> nth_error (p_jobs s) i = Some j ->
  nth_error (p_jobs (prun sched s)) i = Some j' -> j_at j' = Free ->
  exists past, j_todo j = past ++ j_todo j' /\ flat_map o_rid (j_out j') = fst (alone past (p_reg s)) /\
    same_parts (p_reg (prun sched s)) (snd (alone past (p_reg s))).
Proof.
  intros s sched i j j' St One Nj Nj' Fr.
  assert (O : only (p_reg s) (j_todo j) i (prun sched s)).
  { apply only_run. intros k x K. destruct (proj2 St x (nth_error_In _ _ K)) as [F E]. destruct (Nat.eqb k i) eqn:Q.
    - apply Nat.eqb_eq in Q. subst k. assert (x = j) by congruence. subst x. exists []. rewrite F, E. cbn. repeat split.
    - apply Nat.eqb_neq in Q. split; [eapply One; eauto|]. now rewrite F. }
  specialize (O i j' Nj'). rewrite Nat.eqb_refl in O. destruct O as [past [A [B H]]]. rewrite Fr in *. exists past. auto.
Qed.

(** ** Relationships are found again *)
Definition m_there (g : reg) (m : making) : Prop :=
  match m with MLink _ => True | MPicture f x _ _ i => In (picture_name f i, x) (media g) end.
Definition pending (g : reg) (p : place) : Prop :=
  match p with
  | MediaRead _ _ _ _ _ l => l = media g
  | MediaDone f x _ _ i => In (picture_name f i, x) (media g)
  | HasRid m r => m_there g m /\ (r <= rid g)%N /\ ~ In ("rId" ++ itoa_u r)%string (map rel_id (rels g))
  | RelsRead m r l => m_there g m /\ (r <= rid g)%N /\ ~ In ("rId" ++ itoa_u r)%string (map rel_id (rels g)) /\ l = rels g
  | _ => True
  end.
Definition found (g : reg) (j : job) : Prop := (forall o, In o (j_out j) -> registered g o) /\ fresh_ids g /\ pending g (j_at j).

Lemma registered_same : forall g g' o, rels g' = rels g -> media g' = media g -> registered g o -> registered g' o.
Proof. intros g g' [nm d n|k r|f x d n i r] A B; cbn; unfold refer_target; rewrite ?A, ?B; auto. Qed.
Lemma registered_more : forall g l m x o, registered g o -> registered (set_rels (rels g ++ l) (set_media (media g ++ m) x g)) o.
Proof.
  intros g l m x [nm d n|k r|f y d n i r]; cbn; unfold refer_target; cbn; auto.
  - apply refer_app.
  - intros [A B]. split; [now apply refer_app|]. apply in_app_iff. auto.
Qed.
Lemma fresh_same : forall g g', rels g' = rels g -> rid g' = rid g -> fresh_ids g -> fresh_ids g'.
Proof. intros g g' A B F. unfold fresh_ids. rewrite A, B. exact F. Qed.
Lemma found_same : forall g g' j, same_parts g' g -> found g j -> found g' j.
Proof.
  intros g g' j [A [B [C [D E]]]] [F1 [F2 F3]]. split; [|split].
  - intros o I. eapply registered_same; eauto.
  - eapply fresh_same; eauto.
  - destruct (j_at j); cbn in *; auto; try (destruct m; cbn in *); rewrite ?A, ?B, ?D; auto.
Qed.
Lemma fresh_step : forall g, fresh_ids g -> (rid g + 1 < 9223372036854775808)%N ->
  uadd1 (rid g) = (rid g + 1)%N /\ fresh_ids (set_rid (uadd1 (rid g)) g) /\ ~ In ("rId" ++ itoa_u (uadd1 (rid g)))%string (map rel_id (rels g)).
Proof.
  intros g F B. rewrite uadd1_small by lia. split; auto. split.
  - intros k K1 K2. cbn in *. apply F; lia.
  - apply F; lia.
Qed.
Lemma rid_string_inj : forall a b, (a < 9223372036854775808)%N -> (b < 9223372036854775808)%N -> ("rId" ++ itoa_u a)%string = ("rId" ++ itoa_u b)%string -> a = b.
Proof. intros a b A B E. rewrite !itoa_u_small in E by auto. now apply rid_name_inj. Qed.

Lemma found_step : forall lk g j lk' g' j', found g j -> jstep lk g j = Some (lk', g', j') ->
  (owed du_rid dp_rid j > 0 -> (rid g + 1 < 9223372036854775808)%N) -> found g' j'.
Proof.
  intros lk g [todo p out] lk' g' j' [A [F P]] J Bd. cbn [j_todo j_at j_out] in *. unfold jstep in J. cbn [j_at j_todo j_out] in J.
  unfold owed in Bd. cbn [j_todo j_at] in Bd.
  destruct p as [|w d|w d|w d n|w d n|w d n|f x d n|f x d n i|f x d n i k|f x d n i|f x d n i l|f x d n i|m r|m r l]; cbn [pending] in *.
  - destruct todo as [|[w|k] t]; [discriminate| |]; injection J as <- <- <-.
    + split; [|split; auto]. intros o I. eapply registered_same; [..|apply A, I]; reflexivity.
    + cbn [map sum fold_right du_rid] in Bd. destruct (fresh_step g F) as [U [F' N]]; [apply Bd; lia|]. split; [|split; auto].
      * intros o I. eapply registered_same; [..|apply A, I]; reflexivity.
      * cbn. split; auto. split; [lia|exact N].
  - destruct lk; [discriminate|]. injection J as <- <- <-. repeat split; auto.
  - injection J as <- <- <-. repeat split; auto.
  - injection J as <- <- <-. repeat split; auto.
  - injection J as <- <- <-. split; [|split; auto]. intros o I. eapply registered_same; [..|apply A, I]; reflexivity.
  - destruct w as [nm|f x]; injection J as <- <- <-; [|repeat split; auto]. split; [|split; [auto|exact I]].
    cbn. intros o I. apply in_app_iff in I. destruct I as [I|[<-|[]]]; [auto|exact Logic.I].
  - injection J as <- <- <-. split; [|split; [auto|exact I]]. intros o I. eapply registered_same; [..|apply A, I]; reflexivity.
  - injection J as <- <- <-. repeat split; auto.
  - injection J as <- <- <-. split; [|split; [auto|exact I]]. intros o I. eapply registered_same; [..|apply A, I]; reflexivity.
  - injection J as <- <- <-. repeat split; auto.
  - injection J as <- <- <-. subst l. split; [|split; auto].
    + cbn. intros o I. apply A in I. apply (registered_more g [] [(picture_name f i, x)] (midx g)) in I.
      eapply registered_same; [..|exact I]; cbn; auto. now rewrite app_nil_r.
    + cbn. apply in_app_iff. right. now left.
  - injection J as <- <- <-. destruct (fresh_step g F) as [U [F' N]]; [apply Bd; cbn; lia|]. split; [|split; auto].
    + intros o I. eapply registered_same; [..|apply A, I]; reflexivity.
    + cbn. split; auto. split; [lia|exact N].
  - injection J as <- <- <-. destruct P as [P1 [P2 P3]]. repeat split; auto.
  - injection J as <- <- <-. destruct P as [P1 [P2 [P3 ->]]].
    assert (Q : refer_target_in (rels g ++ [new_relation m r]) ("rId" ++ itoa_u r)%string = Ok (rel_target (new_relation m r))).
    { rewrite refer_app_new by auto. destruct m; cbn; rewrite String.eqb_refl; reflexivity. }
    split; [|split; [|exact I]].
    + cbn. intros o I. apply in_app_iff in I. destruct I as [I|[<-|[]]].
      * apply A in I. apply (registered_more g [new_relation m r] [] (midx g)) in I. eapply registered_same; [..|exact I]; cbn; auto. now rewrite app_nil_r.
      * destruct m as [k|f x d n i]; cbn; unfold refer_target; cbn [rels set_rels]; [exact Q|]. split; [exact Q|exact P1].
    + intros k K1 K2. cbn in *. rewrite map_app, in_app_iff. intros [I|[I|[]]]; [apply (F k); auto|].
      assert (Z : rel_id (new_relation m r) = ("rId" ++ itoa_u r)%string) by (destruct m; reflexivity). rewrite Z in I. apply rid_string_inj in I; lia.
Qed.

Definition all_found (i : nat) (s : pstate) : Prop :=
  forall k j, nth_error (p_jobs s) k = Some j -> if Nat.eqb k i then found (p_reg s) j else shapes_only j /\ forall o, In o (j_out j) -> o_rid o = [].
Lemma shapes_out : forall lk g j lk' g' j', shapes_only j -> jstep lk g j = Some (lk', g', j') ->
  (forall o, In o (j_out j) -> o_rid o = []) -> forall o, In o (j_out j') -> o_rid o = [].
Proof.
  intros lk g [todo p out] lk' g' j' [A B] J H. cbn [j_todo j_at j_out] in *. unfold jstep in J. cbn [j_at j_todo j_out] in J.
  destruct p as [|w d|w d|w d n|w d n|w d n| | | | | | | |]; try contradiction.
  - destruct todo as [|[w|k] t]; [discriminate| |]; injection J as <- <- <-; auto.
  - destruct lk; [discriminate|]. injection J as <- <- <-; auto.
  - injection J as <- <- <-; auto.
  - injection J as <- <- <-; auto.
  - injection J as <- <- <-; auto.
  - destruct w; [|contradiction]. injection J as <- <- <-. cbn. intros o I. apply in_app_iff in I. destruct I as [I|[<-|[]]]; auto.
Qed.
Lemma found_pstep : forall i k s s' c0 total, (c0 + N.of_nat total < 9223372036854775808)%N -> ticked rid ot_rid tk_rid du_rid dp_rid c0 total s ->
  all_found i s -> pstep k s = Some s' -> all_found i s'.
Proof.
  intros i k [lk g l] s' c0 total Bd [u [T1 [T2 _]]] O S. unfold pstep in S. cbn [p_locked p_reg p_jobs] in *. destruct (nth_error l k) as [j|] eqn:N; [|discriminate].
  destruct (jstep lk g j) as [[[lk' g'] j']|] eqn:J; [|discriminate]. injection S as <-. assert (Oj := O k j N).
  intros q x Q. cbn [p_jobs p_reg] in *. destruct (set_nth_get _ _ _ _ _ _ Q) as [[-> ->]|[D Q']].
  - destruct (Nat.eqb k i) eqn:E.
    + eapply found_step; eauto. intros W. assert (owed du_rid dp_rid j <= sum (map (owed du_rid dp_rid) l)).
      { clear - N. revert k N. induction l as [|y l IH]; intros [|k] N; cbn in *; try discriminate; [injection N as ->; lia|]. specialize (IH _ N). unfold sum in IH. lia. }
      lia.
    + destruct Oj as [O1 O2]. split; [eapply shapes_step; eauto|eapply shapes_out; eauto].
  - specialize (O q x Q'). cbn [p_reg] in O. destruct (Nat.eqb q i) eqn:E; auto.
    destruct (Nat.eqb k i) eqn:E'. { apply Nat.eqb_eq in E, E'. congruence. }
    destruct Oj as [Oj _]. destruct (shapes_step _ _ _ _ _ _ Oj J) as [_ Sm]. eapply found_same; eauto.
Qed.
Lemma found_run : forall i c0 total, (c0 + N.of_nat total < 9223372036854775808)%N ->
  forall sched s, ticked rid ot_rid tk_rid du_rid dp_rid c0 total s -> all_found i s -> all_found i (prun sched s).
Proof.
  intros i c0 total B. induction sched as [|k l IH]; intros s T I; cbn; auto. destruct (pstep k s) as [s'|] eqn:E; auto.
  apply IH; [|eapply found_pstep; eauto]. eapply pstep_ticked; eauto using tick_rid. lia.
Qed.
Lemma par_registered : forall s sched i, par_start s -> room s -> fresh_ids (p_reg s) -> one_relates i s ->
  forall o, In o (outcomes (prun sched s)) -> registered (p_reg (prun sched s)) o.
Proof.
  intros s sched i St [_ [R2 _]] F One o I.
  assert (L : sum (map du_rid (flat_map j_todo (p_jobs s))) <= count_calls s). { apply sum_le. intros [[|]|]; cbn; lia. }
  assert (O : all_found i (prun sched s)).
  { eapply found_run; [|apply start_ticked; auto|]; [lia|]. intros k x K. destruct (proj2 St x (nth_error_In _ _ K)) as [A E]. destruct (Nat.eqb k i) eqn:Q.
    - split; [rewrite E; intros ? []|]. split; auto. now rewrite A.
    - apply Nat.eqb_neq in Q. split; [|rewrite E; intros ? []]. split; [eapply One; eauto|]. now rewrite A. }
  unfold outcomes in I. apply in_flat_map in I. destruct I as [j [I J]]. destruct (In_nth_error _ _ I) as [k K]. specialize (O k j K).
  destruct (Nat.eqb k i); [now apply O|]. destruct O as [_ O]. specialize (O o J). destruct o; cbn in *; try discriminate. exact Logic.I.
Qed.
