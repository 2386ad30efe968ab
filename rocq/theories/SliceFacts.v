(** Facts about slices. *)
From Coq Require Import List Arith Lia Bool.
From Verif Require Import Slices SpecSlice.
Import ListNotations.

Section Facts.
Context {V : Type}.
Variable zero : V.
Variable spare : nat -> nat -> nat.

Lemma put_length : forall (l : list V) i v, length (put l i v) = length l.
Proof. induction l; intros [|i] v; simpl; auto. Qed.
Lemma put_over : forall (l : list V) i v, i < length l -> put l i v = overwritten l i [v].
Proof.
  unfold overwritten. induction l as [|x l IH]; intros i v L; simpl in L; [lia|].
  destruct i as [|i]; [reflexivity|]. cbn [put firstn app]. rewrite IH by lia. reflexivity.
Qed.
Lemma put_array_length : forall (h : arrays V) i f, length (put_array h i f) = length h.
Proof. induction h; intros [|i] f; simpl; auto. Qed.
Lemma put_array_nth : forall (h : arrays V) i j f, j < length h ->
  nth j (put_array h i f) [] = if Nat.eqb j i then f (nth j h []) else nth j h [].
Proof.
  induction h as [|a h IH]; intros i j f L; simpl in L; [lia|].
  destruct i, j; simpl; auto. apply IH. lia.
Qed.

Lemma over_nil : forall (l : list V) i, overwritten l i [] = l.
Proof. intros. unfold overwritten. rewrite Nat.add_0_r. apply firstn_skipn. Qed.

Lemma over_length : forall (l : list V) i vs, i + length vs <= length l -> length (overwritten l i vs) = length l.
Proof. intros. unfold overwritten. rewrite !app_length, firstn_length, skipn_length. lia. Qed.

Lemma over_S : forall (x : V) l i vs, overwritten (x :: l) (S i) vs = x :: overwritten l i vs.
Proof. reflexivity. Qed.

Lemma over_over : forall i (l : list V) vs v, i + length vs < length l ->
  overwritten (overwritten l i [v]) (S i) vs = overwritten l i (v :: vs).
Proof.
  induction i as [|i IH]; intros [|x l] vs v L; simpl in L; try lia.
  - reflexivity.
  - rewrite !over_S. now rewrite IH by lia.
Qed.

Lemma over_app : forall i (l : list V) vs us, i + length vs + length us <= length l ->
  overwritten (overwritten l i vs) (i + length vs) us = overwritten l i (vs ++ us).
Proof.
  induction i as [|i IH]; intros l vs us L.
  - revert l us L. induction vs as [|v vs IH2]; intros l us L; [cbn [length plus]; now rewrite over_nil|].
    destruct l as [|x l]; simpl in L; [lia|]. cbn [length plus app].
    change (overwritten (x :: l) 0 (v :: vs)) with (v :: overwritten l 0 vs). rewrite over_S.
    change (overwritten (x :: l) 0 (v :: vs ++ us)) with (v :: overwritten l 0 (vs ++ us)). f_equal. apply IH2. simpl. lia.
  - destruct l as [|x l]; simpl in L; [lia|]. cbn [plus]. rewrite !over_S. f_equal. apply IH. lia.
Qed.

(** the first elements are not touched *)
Lemma over_firstn : forall i (l : list V) vs n, n <= i -> i <= length l -> firstn n (overwritten l i vs) = firstn n l.
Proof.
  induction i as [|i IH]; intros [|x l] vs n L K; simpl in K; try lia.
  - assert (n = 0) by lia. subst. reflexivity.
  - assert (n = 0) by lia. subst. reflexivity.
  - rewrite over_S. destruct n; [reflexivity|]. cbn [firstn]. rewrite IH by lia. reflexivity.
Qed.

Lemma over_window : forall off (l : list V) len vs, off + len <= length l ->
  firstn len (skipn off (overwritten l (off + len) vs)) = firstn len (skipn off l).
Proof.
  induction off as [|off IH]; intros l len vs L.
  - cbn [skipn plus]. apply over_firstn; lia.
  - destruct l as [|x l]; simpl in L; [lia|]. cbn [plus]. rewrite over_S. cbn [skipn]. apply IH. lia.
Qed.

Lemma over_window1 : forall off (l : list V) len v, off + len < length l ->
  firstn (S len) (skipn off (overwritten l (off + len) [v])) = firstn len (skipn off l) ++ [v].
Proof.
  induction off as [|off IH]; intros l len v L.
  - cbn [skipn plus]. revert l L. induction len as [|len IH2]; intros [|x l] L; simpl in L; try lia; [reflexivity|].
    rewrite over_S. cbn [firstn] in *. rewrite IH2 by lia. reflexivity.
  - destruct l as [|x l]; simpl in L; [lia|]. cbn [plus]. rewrite over_S. cbn [skipn]. apply IH. lia.
Qed.

(** ** one append *)

Notation app1 := (append1 zero spare).
Notation appall := (append_all zero spare).

Lemma elems_length : forall (h : arrays V) s, valid h s -> length (elems h s) = sl_len s.
Proof.
  intros h s (A & B & C). unfold elems, array_of. rewrite firstn_length, skipn_length. lia.
Qed.

Lemma nth_app_old : forall (h : arrays V) x j, j < length h -> nth j (h ++ [x]) [] = nth j h [].
Proof. intros. now rewrite app_nth1. Qed.

Lemma alloc_valid : forall (h : arrays V) l e h' s', alloc zero h l e = (h', s') ->
  valid h' s' /\ elems h' s' = l /\ sl_arr s' = length h /\ length h' = S (length h) /\
  (forall j, j < length h -> nth j h' [] = nth j h []).
Proof.
  intros h l e h' s' E. inversion E; subst. clear E.
  assert (N : nth (length h) (h ++ [l ++ repeat zero e]) [] = l ++ repeat zero e).
  { rewrite app_nth2, Nat.sub_diag; auto. }
  split; [|split; [|split; [reflexivity|split]]].
  - split; [|split]; cbn [sl_arr sl_len sl_cap sl_off]; rewrite ?app_length; simpl; [lia|lia|].
    rewrite N, app_length, repeat_length. lia.
  - unfold elems, array_of. cbn [sl_arr sl_len sl_cap sl_off]. rewrite N. cbn [skipn].
    rewrite firstn_app, Nat.sub_diag, firstn_all, firstn_O, app_nil_r. reflexivity.
  - rewrite app_length. simpl. lia.
  - intros. now apply nth_app_old.
Qed.

(** in place *)
Lemma append1_in : forall (h : arrays V) s v h' s', valid h s -> sl_len s < sl_cap s -> app1 h s v = (h', s') ->
  valid h' s' /\ elems h' s' = elems h s ++ [v] /\
  s' = mk_slice (sl_arr s) (sl_off s) (S (sl_len s)) (sl_cap s) /\ length h' = length h /\
  (forall j, j < length h -> nth j h' [] =
     if Nat.eqb j (sl_arr s) then overwritten (nth j h []) (sl_off s + sl_len s) [v] else nth j h []).
Proof.
  intros h s v h' s' (A & B & C) L E. unfold append1 in E. apply Nat.ltb_lt in L as L'. rewrite L' in E. inversion E; subst. clear E.
  assert (N : forall j, j < length h -> nth j (put_array h (sl_arr s) (fun a => put a (sl_off s + sl_len s) v)) [] =
     if Nat.eqb j (sl_arr s) then overwritten (nth j h []) (sl_off s + sl_len s) [v] else nth j h []).
  { intros j J. rewrite put_array_nth by assumption. destruct (Nat.eqb_spec j (sl_arr s)); auto. subst. apply put_over. lia. }
  split; [|split; [|split; [reflexivity|split]]].
  - split; [|split]; cbn [sl_arr sl_len sl_cap sl_off]; rewrite ?put_array_length; try lia.
    rewrite N, Nat.eqb_refl by assumption. rewrite over_length; simpl; lia.
  - unfold elems, array_of. cbn [sl_arr sl_len sl_cap sl_off]. rewrite N, Nat.eqb_refl by assumption. apply over_window1. lia.
  - apply put_array_length.
  - exact N.
Qed.

(** with a new array *)
Lemma append1_new : forall (h : arrays V) s v h' s', valid h s -> sl_len s = sl_cap s -> app1 h s v = (h', s') ->
  valid h' s' /\ elems h' s' = elems h s ++ [v] /\ sl_arr s' = length h /\ length h' = S (length h) /\
  (forall j, j < length h -> nth j h' [] = nth j h []).
Proof.
  intros h s v h' s' W L E. unfold append1 in E. rewrite L, Nat.ltb_irrefl in E. eapply alloc_valid; eauto.
Qed.

(** ** slices over arrays of their own *)

(** [own n h s]: the array of [s] was allocated after the first [n] arrays *)
Definition own (n : nat) (h : arrays V) (s : slice) : Prop := valid h s /\ n <= sl_arr s /\ n <= length h.

Lemma appall_own : forall vs n (h : arrays V) s h' s', own n h s -> appall h s vs = (h', s') ->
  own n h' s' /\ elems h' s' = elems h s ++ vs /\ (forall j, j < n -> nth j h' [] = nth j h []).
Proof.
  induction vs as [|v vs IH]; intros n h s h' s' O E.
  - inversion E; subst. rewrite app_nil_r. auto.
  - cbn [append_all] in E. destruct (app1 h s v) as [h1 s1] eqn:E1. destruct O as (W & A & B).
    assert (K : own n h1 s1 /\ elems h1 s1 = elems h s ++ [v] /\ (forall j, j < n -> nth j h1 [] = nth j h [])).
    { destruct (Nat.eq_dec (sl_len s) (sl_cap s)) as [L|L].
      - destruct (append1_new _ _ _ _ _ W L E1) as (W1 & P & Q & R & T). split; [split; [auto|lia]|]. split; auto. intros; apply T; lia.
      - destruct (append1_in _ _ _ _ _ W ltac:(destruct W as (? & ? & ?); lia) E1) as (W1 & P & Q & R & T). subst s1.
        split; [split; [auto|cbn; lia]|]. split; auto. intros. rewrite T by lia. destruct (Nat.eqb_spec j (sl_arr s)); auto. lia. }
    destruct K as (O1 & P & Q). destruct (IH _ _ _ _ _ O1 E) as (O2 & P2 & Q2). split; auto. split.
    + rewrite P2, P, <- app_assoc. reflexivity.
    + intros. rewrite Q2, Q by lia. reflexivity.
Qed.

Lemma keep_own : forall f (h : arrays V) s h' s', valid h s -> sstep zero spare (SKeep f) h s = (h', s') ->
  own (length h) h' s' /\ elems h' s' = filter f (elems h s) /\ (forall j, j < length h -> nth j h' [] = nth j h []).
Proof.
  intros f h s h' s' W E. cbn [sstep] in E.
  assert (O : own (length h) (h ++ [repeat zero (sl_len s)]) (mk_slice (length h) 0 0 (sl_len s))).
  { split; [|split; cbn; rewrite ?app_length; lia]. split; [|split]; cbn [sl_arr sl_len sl_cap sl_off]; rewrite ?app_length; simpl; try lia.
    rewrite app_nth2, Nat.sub_diag by auto. cbn [nth]. rewrite repeat_length. lia. }
  destruct (appall_own _ _ _ _ _ _ O E) as (O' & P & Q). split; auto. split; auto.
  intros. rewrite Q by assumption. now apply nth_app_old.
Qed.

Lemma own_le : forall n m (h : arrays V) s, own n h s -> m <= n -> own m h s.
Proof. intros n m h s (W & A & B) L. split; auto. lia. Qed.

Lemma sruns_own : forall l n (h : arrays V) s h' s', own n h s -> sruns zero spare l h s = (h', s') ->
  own n h' s' /\ elems h' s' = contents l (elems h s) /\ (forall j, j < n -> nth j h' [] = nth j h []).
Proof.
  induction l as [|o l IH]; intros n h s h' s' O E; [inversion E; subst; auto|].
  cbn [sruns] in E. destruct (sstep zero spare o h s) as [h1 s1] eqn:E1. destruct o as [vs|f]; cbn [contents].
  - cbn [sstep] in E1. destruct (appall_own _ _ _ _ _ _ O E1) as (O1 & P & Q).
    destruct (IH _ _ _ _ _ O1 E) as (O2 & P2 & Q2). rewrite P in P2. split; auto. split; auto. intros. now rewrite Q2, Q.
  - destruct (keep_own _ _ _ _ _ (proj1 O) E1) as (O1 & P & Q). destruct O as (W & A & B).
    destruct (IH _ _ _ _ _ (own_le _ n _ _ O1 B) E) as (O2 & P2 & Q2). rewrite P in P2. split; auto. split; auto.
    intros. rewrite Q2, Q by lia. reflexivity.
Qed.

(** ** slices over the caller's array *)

Lemma firstn_nil' : forall n, firstn n ([] : list V) = [].
Proof. destruct n; reflexivity. Qed.

Definition kept (h : arrays V) (s : slice) (vs : list V) (h' : arrays V) : Prop :=
  forall j, j < length h -> nth j h' [] =
    if Nat.eqb j (sl_arr s) then overwritten (nth j h []) (sl_off s + sl_len s) (firstn (sl_cap s - sl_len s) vs) else nth j h [].

Lemma kept_nil : forall (h : arrays V) s, kept h s [] h.
Proof. intros h s j J. rewrite firstn_nil', over_nil. now destruct (Nat.eqb j _). Qed.

Lemma appall_kept : forall vs (h : arrays V) s h' s', valid h s -> appall h s vs = (h', s') ->
  valid h' s' /\ length h <= length h' /\ elems h' s' = elems h s ++ vs /\ kept h s vs h' /\
  (own (length h) h' s' /\ sl_cap s - sl_len s <= length vs \/
   s' = mk_slice (sl_arr s) (sl_off s) (sl_len s + length vs) (sl_cap s) /\ length h' = length h /\ length vs <= sl_cap s - sl_len s).
Proof.
  induction vs as [|v vs IH]; intros h s h' s' W E.
  - inversion E; subst. rewrite app_nil_r. split; auto. split; auto. split; auto. split; [apply kept_nil|].
    right. cbn [length]. rewrite Nat.add_0_r. destruct s'. split; auto. split; auto. lia.
  - cbn [append_all] in E. destruct (app1 h s v) as [h1 s1] eqn:E1.
    pose proof W as (WA & WB & WC).
    destruct (Nat.eq_dec (sl_len s) (sl_cap s)) as [L|L].
    + destruct (append1_new _ _ _ _ _ W L E1) as (W1 & P & Q & R & T).
      assert (O1 : own (length h) h1 s1) by (split; [auto|lia]).
      destruct (appall_own _ _ _ _ _ _ O1 E) as (O2 & P2 & Q2).
      split; [apply O2|]. split; [apply O2|]. rewrite P2, P, <- app_assoc. split; [reflexivity|]. split.
      * intros j J. rewrite Q2, T by assumption. rewrite L, Nat.sub_diag, firstn_O, over_nil. now destruct (Nat.eqb j _).
      * left. split; auto. lia.
    + destruct (append1_in _ _ _ _ _ W ltac:(lia) E1) as (W1 & P & Q & R & T).
      destruct (IH _ _ _ _ W1 E) as (W2 & LE & P2 & K2 & O2). subst s1. cbn [sl_arr sl_len sl_cap sl_off] in *.
      split; auto. split; [lia|]. rewrite P2, P, <- app_assoc. split; [reflexivity|]. split.
      * intros j J. rewrite K2 by lia. rewrite T by assumption. cbn [sl_arr sl_len sl_cap sl_off].
        destruct (Nat.eqb_spec j (sl_arr s)) as [->|]; auto. rewrite ?Nat.eqb_refl.
        replace (sl_cap s - sl_len s) with (S (sl_cap s - S (sl_len s))) by lia. cbn [firstn].
        replace (sl_off s + S (sl_len s)) with (S (sl_off s + sl_len s)) by lia.
        apply over_over. rewrite firstn_length. lia.
      * rewrite R in O2. cbn [length]. destruct O2 as [[O2 O3]|(O2 & O3 & O4)]; [left; split; [auto|lia]|right].
        split; [|lia]. rewrite O2. f_equal. lia.
Qed.

Lemma sruns_kept : forall l (h : arrays V) s h' s', valid h s -> sruns zero spare l h s = (h', s') ->
  valid h' s' /\ elems h' s' = contents l (elems h s) /\ kept h s (added l) h'.
Proof.
  induction l as [|o l IH]; intros h s h' s' W E.
  - inversion E; subst. split; auto. split; auto. apply kept_nil.
  - cbn [sruns] in E. destruct (sstep zero spare o h s) as [h1 s1] eqn:E1. destruct o as [vs|f]; cbn [contents added].
    + cbn [sstep] in E1. destruct (appall_kept _ _ _ _ _ W E1) as (W1 & LE & P & K & O). rewrite <- P.
      destruct O as [[O L]|(-> & O & L)].
      * destruct (sruns_own _ _ _ _ _ _ O E) as (O2 & P2 & Q2). split; [apply O2|]. split; auto.
        intros j J. rewrite Q2 by assumption. rewrite K by assumption.
        rewrite firstn_app. replace (sl_cap s - sl_len s - length vs) with 0 by lia. rewrite firstn_O, app_nil_r. reflexivity.
      * destruct (IH _ _ _ _ W1 E) as (W2 & P2 & K2). split; auto. split; auto.
        intros j J. rewrite K2 by lia. cbn [sl_arr sl_len sl_cap sl_off]. pose proof (K j J) as Kj.
        destruct (Nat.eqb_spec j (sl_arr s)) as [Ej|]; rewrite Kj; auto. rewrite Ej in *.
        rewrite (firstn_all2 vs) by lia. rewrite firstn_app, (firstn_all2 vs) by lia.
        replace (sl_cap s - (sl_len s + length vs)) with (sl_cap s - sl_len s - length vs) by lia.
        destruct W as (WA & WB & WC). rewrite Nat.add_assoc. apply over_app.
        rewrite firstn_length. lia.
    + destruct (keep_own _ _ _ _ _ W E1) as (O & P & Q). rewrite <- P.
      destruct (sruns_own _ _ _ _ _ _ O E) as (O2 & P2 & Q2). split; [apply O2|]. split; auto.
      intros j J. rewrite Q2, Q by assumption. rewrite firstn_nil', over_nil. now destruct (Nat.eqb j _).
Qed.

Lemma callers_elements : forall l (h : arrays V) s h' s', valid h s -> sruns zero spare l h s = (h', s') ->
  elems h' s = elems h s.
Proof.
  intros l h s h' s' W E. destruct (sruns_kept _ _ _ _ _ W E) as (_ & _ & K). destruct W as (A & B & C).
  unfold elems, array_of. rewrite (K _ A), Nat.eqb_refl. apply over_window. lia.
Qed.

Lemma no_spare : forall l (h : arrays V) s h' s', valid h s -> sl_len s = sl_cap s -> sruns zero spare l h s = (h', s') ->
  forall j, j < length h -> nth j h' [] = nth j h [].
Proof.
  intros l h s h' s' W L E j J. destruct (sruns_kept _ _ _ _ _ W E) as (_ & _ & K).
  rewrite (K _ J), L, Nat.sub_diag, firstn_O, over_nil. now destruct (Nat.eqb j _).
Qed.
End Facts.

Lemma source_overwritten : exists (h : arrays nat) src, valid h src /\ elems h src = [1; 2] /\
  forall spare, let '(h', s') := sruns 0 spare [SAppend [3]] h (reslice 1 src) in
    elems h' s' = [1; 3] /\ elems h' src = [1; 3].
Proof. exists [[1; 2]], (mk_slice 0 0 2 2). split; [split; [|split]; simpl; lia|]. split; [reflexivity|]. intros. split; reflexivity. Qed.

Lemma sibling_overwritten : exists (h : arrays nat) s, valid h s /\ elems h s = [1] /\
  forall spare, let '(h1, s1) := sruns 0 spare [SAppend [3]] h s in let '(h2, s2) := sruns 0 spare [SAppend [4]] h1 s in
    elems h1 s1 = [1; 3] /\ elems h2 s1 = [1; 4] /\ elems h2 s2 = [1; 4].
Proof. exists [[1; 0]], (mk_slice 0 0 1 2). split; [split; [|split]; simpl; lia|]. split; [reflexivity|]. intros. split; [|split]; reflexivity. Qed.
