(** What reaches the destination. *)
From Coq Require Import String Ascii List Bool Arith NArith ZArith Lia.
From Verif Require Import GoStr Num Lib Types Docx Pack Bufio.
Import ListNotations.
Local Open Scope list_scope.
Local Open Scope string_scope.

Lemma stake_drop : forall n s, stake n s ++ sdrop n s = s.
Proof. induction n as [|n IH]; intros [|a s]; try reflexivity. cbn. now rewrite IH. Qed.
Lemma stake_length : forall n s, n <= String.length s -> String.length (stake n s) = n.
Proof. induction n as [|n IH]; intros [|a s] L; cbn in *; try reflexivity; [lia|]. now rewrite IH by lia. Qed.

(** [all]: everything written to the buffer so far *)
Definition ok_bw (all : string) (b : bw) : Prop :=
  (exists r, all = b_out b ++ r) /\ (b_err b = false -> all = b_out b ++ b_buf b /\ String.length (b_buf b) <= SIZE).

Section Dest.
Variable D : dest.
Lemma flush_ok : forall all b, ok_bw all b -> ok_bw all (flush D b) /\ (b_err (flush D b) = false -> b_err b = false /\ b_buf (flush D b) = "") /\ (b_err b = true -> flush D b = b).
Proof.
  intros all b ((r & R) & K). unfold flush. destruct (b_err b) eqn:E.
  - cbn [orb]. split; [split; [eauto|congruence]|]. split; [congruence|auto].
  - destruct (K eq_refl) as (A & L). cbn [orb]. destruct (String.eqb_spec (b_buf b) "") as [B|B].
    + split; [split; [eauto|intros _; auto]|]. split; [auto|discriminate].
    + split; [|split; [|discriminate]].
      * destruct (D (b_calls b) (b_buf b)) as [n|]; split; cbn [b_out b_err b_buf].
        -- exists (sdrop n (b_buf b)). rewrite <- sapp_assoc, stake_drop. exact A.
        -- discriminate.
        -- exists "". now rewrite sapp_nil_r.
        -- intros _. rewrite sapp_nil_r. split; [exact A|cbn; unfold SIZE; lia].
      * destruct (D (b_calls b) (b_buf b)); cbn; [discriminate|auto].
Qed.
Lemma direct_ok : forall all p b, all = b_out b ++ p -> ok_bw all (direct D p b).
Proof.
  intros all p b A. unfold direct. destruct (D (b_calls b) p) as [n|]; split; cbn [b_out b_err b_buf].
  - exists (sdrop n p). now rewrite <- sapp_assoc, stake_drop.
  - discriminate.
  - exists "". now rewrite sapp_nil_r.
  - intros _. rewrite sapp_nil_r. split; [exact A|cbn; unfold SIZE; lia].
Qed.
Lemma bwrite_ok : forall all p b, ok_bw all b -> ok_bw (all ++ p) (bwrite D p b) /\ (b_err b = true -> bwrite D p b = b).
Proof.
  intros all p b ((r & R) & K). unfold bwrite. destruct (b_err b) eqn:E.
  - split; [|auto]. split; [exists (r ++ p); rewrite R; now rewrite <- sapp_assoc|congruence].
  - split; [|discriminate]. destruct (K eq_refl) as (A & L). set (room := SIZE - String.length (b_buf b)).
    destruct (Nat.leb_spec (String.length p) room) as [LE|GT].
    + split; cbn [b_out b_err b_buf]; [exists (b_buf b ++ p)|intros _; split; [|rewrite slength_app; lia]]; rewrite A; now rewrite <- sapp_assoc.
    + destruct (String.eqb_spec (b_buf b) "") as [B|B].
      * apply direct_ok. rewrite A, B. now rewrite sapp_nil_r.
      * set (b0 := mk_bw (b_buf b ++ stake room p) false (b_calls b) (b_out b)).
        assert (O : ok_bw (all ++ stake room p) b0).
        { split; cbn [b_out b_err b_buf b0]; [exists (b_buf b ++ stake room p)|intros _; split; [|rewrite slength_app, stake_length by lia; lia]]; rewrite A; now rewrite <- sapp_assoc. }
        destruct (flush_ok _ _ O) as (O1 & O2 & _). destruct O1 as ((r1 & R1) & K1).
        destruct (b_err (flush D b0)) eqn:E1.
        -- split; [|congruence]. exists (r1 ++ sdrop room p). rewrite sapp_assoc, <- R1, <- sapp_assoc. now rewrite stake_drop.
        -- destruct (K1 eq_refl) as (A1 & L1). destruct (O2 eq_refl) as (_ & B1). rewrite B1, sapp_nil_r in A1.
           assert (Z : all ++ p = b_out (flush D b0) ++ sdrop room p) by (rewrite <- A1, <- sapp_assoc; now rewrite stake_drop).
           destruct (Nat.leb_spec (String.length (sdrop room p)) SIZE) as [LE|GE].
           ++ rewrite B1. cbn [append]. split; cbn [b_out b_err b_buf]; [eauto|auto].
           ++ now apply direct_ok.
Qed.
Lemma bwrites_ok : forall l all b, ok_bw all b -> ok_bw (all ++ sconcat l) (bwrites D l b) /\ (b_err b = true -> bwrites D l b = b).
Proof.
  induction l as [|p l IH]; intros all b O; cbn [sconcat bwrites fold_left]; [rewrite sapp_nil_r; auto|].
  destruct (bwrite_ok all p b O) as (O1 & E1). destruct (IH _ _ O1) as (O2 & E2). rewrite sapp_assoc. split; [exact O2|].
  intros E. unfold bwrites in E2. rewrite (E1 E) in E2 |- *. auto.
Qed.
Lemma start_ok : ok_bw "" (mk_bw "" false 0 "").
Proof. split; [now exists ""|intros _; split; [reflexivity|cbn; unfold SIZE; lia]]. Qed.

(** what arrives is a part from the beginning; with a nil error, only what was
    still in the buffer when Close was called, and what Close writes, can be
    missing *)
Lemma arrived : forall body tail ok out, write_to D body tail = (ok, out) ->
  (exists r, sconcat body ++ sconcat tail = out ++ r) /\
  (ok = true -> String.length (sconcat body) <= String.length out + SIZE).
Proof.
  intros body tail ok out E. unfold write_to in E. destruct (bwrites_ok body _ _ start_ok) as (((r & R) & K) & _). cbn [append] in *.
  destruct (b_err (bwrites D body _)) eqn:EB; injection E as <- <-.
  - split; [|discriminate]. exists (r ++ sconcat tail). now rewrite R, <- sapp_assoc.
  - destruct (K eq_refl) as (A & L). set (b := bwrites D body _) in *.
    assert (O : ok_bw (sconcat body) b) by (split; eauto).
    destruct (bwrites_ok tail _ _ O) as (O1 & _). destruct (flush_ok _ _ O1) as (((r2 & R2) & _) & _). split; [eauto|]. intros _.
    assert (G : exists x, b_out (flush D (bwrites D tail b)) = b_out b ++ x).
    { assert (F : forall c, exists x, b_out (flush D c) = b_out c ++ x).
      { intros c. unfold flush. destruct (_ || _); [exists ""; now rewrite sapp_nil_r|]. destruct (D _ _); cbn [b_out]; eauto. }
      assert (DD : forall p c, exists x, b_out (direct D p c) = b_out c ++ x).
      { intros p c. unfold direct. destruct (D _ _); cbn [b_out]; eauto. }
      assert (W : forall p c, exists x, b_out (bwrite D p c) = b_out c ++ x).
      { intros p c. unfold bwrite. destruct (b_err c); [exists ""; now rewrite sapp_nil_r|]. destruct (Nat.leb _ _); [exists ""; now rewrite sapp_nil_r|].
        destruct (String.eqb _ _); [apply DD|]. match goal with |- context [flush D ?z] => destruct (F z) as (x & X) end. cbn [b_out] in X.
        match goal with |- context [if b_err ?z then _ else _] => destruct (b_err z) end; [eauto|]. destruct (Nat.leb _ _); [cbn [b_out]; eauto|].
        match goal with |- context [direct D ?p ?z] => destruct (DD p z) as (y & ->) end. rewrite X. exists (x ++ y). now rewrite <- sapp_assoc. }
      assert (WS : forall l c, exists x, b_out (bwrites D l c) = b_out c ++ x).
      { induction l as [|p l IH]; intros c; [exists ""; cbn; now rewrite sapp_nil_r|]. cbn [bwrites fold_left]. destruct (IH (bwrite D p c)) as (x & X). unfold bwrites in X. rewrite X.
        destruct (W p c) as (y & ->). exists (y ++ x). now rewrite <- sapp_assoc. }
      destruct (WS tail b) as (x & X). destruct (F (bwrites D tail b)) as (y & ->). rewrite X. exists (x ++ y). now rewrite <- sapp_assoc. }
    destruct G as (x & ->). rewrite A, !slength_app. lia.
Qed.

(** a destination that never fails gets everything *)
Lemma never_fails : (forall n p, D n p = None) -> forall body tail, write_to D body tail = (true, sconcat body ++ sconcat tail).
Proof.
  intros N body tail. 
  assert (F : forall c, b_err c = false -> b_err (flush D c) = false).
  { intros c E. unfold flush. rewrite E. cbn [orb]. destruct (String.eqb _ _); [assumption|]. now rewrite N. }
  assert (DD : forall p c, b_err (direct D p c) = false) by (intros p c; unfold direct; now rewrite N).
  assert (W : forall p c, b_err c = false -> b_err (bwrite D p c) = false).
  { intros p c E. unfold bwrite. rewrite E. destruct (Nat.leb _ _); [reflexivity|]. destruct (String.eqb _ _); [apply DD|].
    rewrite F by reflexivity. destruct (Nat.leb _ _); [reflexivity|apply DD]. }
  assert (WS : forall l c, b_err c = false -> b_err (bwrites D l c) = false).
  { induction l as [|p l IH]; intros c E; [assumption|]. cbn [bwrites fold_left]. apply IH. auto. }
  unfold write_to. destruct (bwrites_ok body _ _ start_ok) as (O & _). cbn [append] in O. rewrite WS by reflexivity.
  destruct (bwrites_ok tail _ _ O) as (O1 & _). destruct (flush_ok _ _ O1) as ((_ & K) & Z & _).
  assert (E : b_err (flush D (bwrites D tail (bwrites D body (mk_bw "" false 0 "")))) = false) by (apply F; apply WS; now apply WS).
  destruct (K E) as (A & _). destruct (Z E) as (_ & B). rewrite B, sapp_nil_r in A. now rewrite A.
Qed.

(** nothing is reported when what is written before Close fits into the buffer *)
Lemma small_body : forall body tail, String.length (sconcat body) <= SIZE -> fst (write_to D body tail) = true.
Proof.
  intros body tail L. unfold write_to.
  assert (K : forall l b, b_err b = false -> String.length (b_buf b) + String.length (sconcat l) <= SIZE -> b_err (bwrites D l b) = false).
  { induction l as [|p l IH]; intros b E LE; [assumption|]. cbn [sconcat] in LE. rewrite slength_app in LE. cbn [bwrites fold_left].
    assert (W : bwrite D p b = mk_bw (b_buf b ++ p) false (b_calls b) (b_out b)).
    { unfold bwrite. rewrite E. destruct (Nat.leb_spec (String.length p) (SIZE - String.length (b_buf b))); [reflexivity|lia]. }
    rewrite W. apply IH; [reflexivity|]. cbn [b_buf]. rewrite slength_app. lia. }
  rewrite K; [reflexivity|reflexivity|exact L].
Qed.
End Dest.

Lemma nothing_arrives : forall body tail, String.length (sconcat body) <= SIZE -> write_to (fun _ _ => Some 0) body tail = (true, "").
Proof.
  intros body tail L. set (D := fun _ _ => Some 0). pose proof (small_body D body tail L) as S.
  assert (F : forall c, b_out c = "" -> b_out (flush D c) = "").
  { intros c E. unfold flush. destruct (_ || _); [assumption|]. cbn. rewrite E. reflexivity. }
  assert (DD : forall p c, b_out c = "" -> b_out (direct D p c) = "").
  { intros p c E. unfold direct. cbn. now rewrite E. }
  assert (W : forall p c, b_out c = "" -> b_out (bwrite D p c) = "").
  { intros p c E. unfold bwrite. destruct (b_err c); [assumption|]. destruct (Nat.leb _ _); [assumption|]. destruct (String.eqb _ _); [now apply DD|].
    match goal with |- context [flush D ?z] => assert (Z : b_out (flush D z) = "") by (apply F; exact E) end.
    match goal with |- context [if b_err ?z then _ else _] => destruct (b_err z) end; [assumption|]. destruct (Nat.leb _ _); [assumption|now apply DD]. }
  assert (WS : forall l c, b_out c = "" -> b_out (bwrites D l c) = "").
  { induction l as [|p l IH]; intros c E; [assumption|]. cbn [bwrites fold_left]. apply IH. auto. }
  unfold write_to in *. destruct (b_err (bwrites D body (mk_bw "" false 0 ""))); [discriminate S|]. f_equal. apply F. apply WS. apply WS. reflexivity.
Qed.
