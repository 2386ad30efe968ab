(** What the loader looks at: the part of a tree that counts. *)
From Coq Require Import String List Bool Arith Relations Lia.
From Verif Require Import GoStr Num Lib Types XmlTok Unmarshal DecLemmas SpecSkip SkipFacts.
Import ListNotations.
Local Open Scope string_scope.
Local Open Scope list_scope.

(** ** prefixes and attributes *)
Lemma seen_unnamed : forall ns a, seen ns (map (fun x => (("", fst x), snd x)) (seen ns a)) = seen ns a.
Proof.
  intros ns a. unfold seen. induction a as [|[[p l] v] a IH]; auto. cbn [filter map fst snd]. destruct (mem l ns) eqn:M; auto.
  cbn [map filter fst snd]. rewrite M. cbn [map fst snd]. now rewrite IH.
Qed.
Lemma unnamed_renames : forall t, renames t (unnamed t).
Proof.
  induction t as [q a c IH|s|] using tree_ind'; cbn [unnamed]; constructor; auto.
  - symmetry. apply seen_unnamed.
  - induction IH; cbn [map]; constructor; auto.
Qed.
Lemma renames_unnamed : forall t t', renames t t' -> unnamed t = unnamed t'.
Proof.
  induction t as [q a c IH|s|] using tree_ind'; intros t' R; inversion R as [? q' ? a' ? c' Q A F| |]; subst; auto. cbn [unnamed]. rewrite Q in *. rewrite A. f_equal.
  clear -IH F. induction F as [|x x' l l' X F IHF]; inversion IH; subst; cbn [map]; f_equal; auto.
Qed.
Lemma renames_thinned : forall t t', renames t t' -> renames (thinned t) (thinned t').
Proof.
  assert (CO : forall l x x', renames x x' -> counts l x = counts l x').
  { intros l x x' R. inversion R as [? ? ? ? ? ? Q| |]; subst; auto. unfold counts. now rewrite Q. }
  assert (FI : forall l c c', Forall2 renames c c' -> Forall2 renames (filter (counts l) c) (filter (counts l) c')).
  { intros l c c' F. induction F as [|x x' d d' X F IH]; [constructor|]. cbn [filter]. rewrite (CO l _ _ X). destruct (counts l x'); auto. }
  induction t as [q a c IH|s|] using tree_ind'; intros t' R; inversion R as [? q' ? a' ? c' Q A F| |]; subst; cbn [thinned]; try (constructor; fail). rewrite <- Q.
  constructor; auto. apply FI. destruct (mem (snd q) opaque); auto.
  clear -IH F. induction F as [|x x' l l' X F IHF]; inversion IH; subst; cbn [map]; constructor; auto.
Qed.

(** ** the other changes *)
Lemma filter_app_ : forall (p : tree -> bool) a b, filter p (a ++ b) = filter p a ++ filter p b.
Proof. intros. apply filter_app. Qed.
Lemma counts_thin : forall l x, counts l (thinned x) = counts l x.
Proof. intros l [q a c|s|]; reflexivity. Qed.
Lemma adds_thinned : forall t t', adds t t' -> thinned t = thinned t'.
Proof.
  intros t t' A. induction A as [q a l1 l2 q' a' c' NS NO NK|q a l1 l2 x x' NO A IH]; cbn [thinned]; rewrite (notmem _ _ NO); f_equal; rewrite !map_app, !filter_app; f_equal; cbn [map].
  - cbn [filter]. unfold counts at 2. cbn [thinned]. now rewrite (notmem _ _ NS), (notmem _ _ NO), (notmem _ _ NK).
  - now rewrite IH.
Qed.
Lemma spaces_thinned : forall t t', spaces t t' -> thinned t = thinned t'.
Proof.
  intros t t' A. induction A as [q a l1 l2 s NS NW NF|q a l1 l2 NS NF|q a l1 l2 x x' NO A IH]; cbn [thinned]; f_equal.
  - apply String.eqb_neq in NF. assert (C : counts (snd q) (Chr s) = false) by (unfold counts; now rewrite (notmem _ _ NS), (notmem _ _ NW), NF).
    destruct (mem (snd q) opaque); rewrite ?map_app, !filter_app; cbn [map filter thinned]; now rewrite C.
  - apply String.eqb_neq in NF. assert (C : counts (snd q) Cmt = false) by (unfold counts; now rewrite (notmem _ _ NS), NF).
    destruct (mem (snd q) opaque); rewrite ?map_app, !filter_app; cbn [map filter thinned]; now rewrite C.
  - rewrite (notmem _ _ NO), !map_app. cbn [map]. now rewrite IH.
Qed.
Lemma same_trimmed : forall t t', same_to_loader t t' -> trimmed t = trimmed t'.
Proof.
  intros t t' S. unfold trimmed. induction S as [t t' [A|[A|[_ A]]]| | |]; auto; [now rewrite (adds_thinned _ _ A)| |now rewrite (spaces_thinned _ _ A)|congruence].
  now apply renames_unnamed, renames_thinned.
Qed.

(** ** taking out what does not count *)
Definition step (t t' : tree) : Prop := sturdy t /\ sturdy t' /\ (adds t t' \/ spaces t t').
Definition chain : tree -> tree -> Prop := clos_refl_trans tree step.
Lemma chain_same : forall t t', chain t t' -> same_to_loader t t'.
Proof.
  intros t t' C. induction C as [t t' (S & _ & [A|A])| |]; [apply rst_step; auto|apply rst_step; auto|apply rst_refl|eapply rst_trans; eauto].
Qed.
Lemma step_elem : forall x x', step x x' -> is_elem x /\ is_elem x'.
Proof. intros x x' (_ & _ & [A|A]); inversion A; split; exact I. Qed.
Lemma sturdy_at : forall q a l1 l2 x, (snd q = fragile -> Forall is_elem (l1 ++ l2)) -> Forall sturdy l1 -> Forall sturdy l2 -> sturdy x -> (snd q = fragile -> is_elem x) ->
  sturdy (Elem q a (l1 ++ x :: l2)).
Proof.
  intros q a l1 l2 x F S1 S2 S X. apply sturdy_elem. split.
  - intros E. specialize (F E). apply Forall_app in F as [F1 F2]. apply Forall_app. split; auto.
  - apply Forall_app. split; auto.
Qed.
Lemma chain_in : forall q a l1 l2, ~ In (snd q) opaque -> (snd q = fragile -> Forall is_elem (l1 ++ l2)) -> Forall sturdy l1 -> Forall sturdy l2 ->
  forall x x', chain x x' -> chain (Elem q a (l1 ++ x :: l2)) (Elem q a (l1 ++ x' :: l2)).
Proof.
  intros q a l1 l2 NO F S1 S2 x x' C. induction C as [x x' S| |]; [|apply rt_refl|eapply rt_trans; eauto].
  apply rt_step. destruct (step_elem _ _ S) as [E E']. destruct S as (SX & SX' & [A|A]).
  - split; [now apply sturdy_at|]. split; [now apply sturdy_at|]. left. now apply adds_in.
  - split; [now apply sturdy_at|]. split; [now apply sturdy_at|]. right. now apply sp_in.
Qed.
Lemma thin_elem : forall x, is_elem x -> is_elem (thinned x).
Proof. intros [q a c| |] E; exact E. Qed.

(** the children [c], of which [g] is taken *)
Lemma chain_children : forall q a (g : tree -> tree), (forall x, counts (snd q) (g x) = counts (snd q) x) -> (forall x, is_elem x -> is_elem (g x)) ->
  forall c, Forall (fun x => sturdy (g x) /\ sturdy x /\ (forall l1 l2, (snd q = fragile -> Forall is_elem (l1 ++ l2)) -> Forall sturdy l1 -> Forall sturdy l2 ->
                                     chain (Elem q a (l1 ++ g x :: l2)) (Elem q a (l1 ++ x :: l2)))) c ->
  forall l1, Forall sturdy l1 -> (snd q = fragile -> Forall is_elem (l1 ++ c)) ->
  chain (Elem q a (l1 ++ filter (counts (snd q)) (map g c))) (Elem q a (l1 ++ c)).
Proof.
  intros q a g CG EG c F. induction F as [|x c (SG & SX & K) F IH]; intros l1 S1 FR; [apply rt_refl|].
  cbn [map filter]. rewrite CG.
  assert (SF : Forall sturdy (filter (counts (snd q)) (map g c))).
  { clear -F. induction F as [|y c (Sy & _) F IHF]; cbn [map filter]; auto. destruct (counts (snd q) (g y)); auto. }
  assert (EF : snd q = fragile -> Forall is_elem (l1 ++ filter (counts (snd q)) (map g c))).
  { intros E. specialize (FR E). apply Forall_app in FR as [F1 F2]. apply Forall_app. split; auto. inversion F2 as [|? ? _ F3]; subst.
    clear -F3 EG. induction F3 as [|y c Y F IHF]; cbn [map filter]; auto. destruct (counts (snd q) (g y)); auto. }
  assert (EX : snd q = fragile -> is_elem x).
  { intros E. specialize (FR E). apply Forall_app in FR as [F1 F2]. now inversion F2. }
  assert (N : chain (Elem q a (l1 ++ x :: filter (counts (snd q)) (map g c))) (Elem q a (l1 ++ x :: c))).
  { specialize (IH (l1 ++ [x])). rewrite <- !app_assoc in IH. apply IH; [apply Forall_app; auto|exact FR]. }
  eapply rt_trans; [|exact N]. destruct (counts (snd q) x) eqn:CX.
  - now apply K.
  - apply rt_step. split; [|split; [now apply sturdy_at|]].
    + apply sturdy_elem. split; [exact EF|]. apply Forall_app. auto.
    + unfold counts in CX. apply orb_false_elim in CX as [C1 C2]. apply notin in C1. destruct x as [q' a' c'|s|].
      * left. apply orb_false_elim in C2 as [C2 C3]. apply notin in C2, C3. now apply adds_here.
      * right. apply orb_false_elim in C2 as [C2 C3]. apply notin in C2. apply String.eqb_neq in C3. now apply sp_text.
      * right. apply String.eqb_neq in C2. now apply sp_misc.
Qed.
Lemma thin_chain : forall t, sturdy t -> sturdy (thinned t) /\ chain (thinned t) t.
Proof.
  induction t as [q a c IH|s|] using tree_ind'; intros S; [|split; [exact I|apply rt_refl]|split; [exact I|apply rt_refl]].
  pose proof (proj1 (sturdy_elem _ _ _) S) as [FR SC]. cbn [thinned]. destruct (mem (snd q) opaque) eqn:O.
  - split.
    + apply sturdy_elem. split; [intros E; rewrite E in O; discriminate|].
      clear -SC. induction SC as [|y c Y F IHF]; cbn [filter]; auto. destruct (counts (snd q) y); auto.
    + rewrite <- (map_id c) at 1. apply (chain_children q a (fun x => x)) with (l1 := []); auto.
      eapply Forall_impl; [|exact SC]. intros x SX. split; auto. split; auto. intros. apply rt_refl.
  - apply notin in O. split.
    + apply sturdy_elem. split.
      * intros E. specialize (FR E). clear -FR. induction FR as [|y c Y F IHF]; cbn [map filter]; auto. destruct (counts (snd q) (thinned y)); auto. constructor; auto. now apply thin_elem.
      * clear -IH SC. induction SC as [|y c Y F IHF]; cbn [map filter]; auto. inversion IH as [|? ? K KF]; subst. destruct (counts (snd q) (thinned y)); auto. constructor; auto. now apply K.
    + apply (chain_children q a thinned) with (l1 := []); auto using counts_thin, thin_elem.
      clear FR S. induction SC as [|y c Y F IHF]; constructor; inversion IH as [|? ? K KF]; subst; auto.
      destruct (K Y) as [K1 K2]. split; auto. split; auto. intros. now apply chain_in.
Qed.
Lemma trimmed_same : forall t, sturdy t -> same_to_loader t (trimmed t).
Proof.
  intros t S. destruct (thin_chain t S) as [_ C]. eapply rst_trans; [apply rst_sym, chain_same, C|]. apply rst_step. right. left. apply unnamed_renames.
Qed.
Lemma same_iff_trimmed : forall t t', sturdy t -> sturdy t' -> (same_to_loader t t' <-> trimmed t = trimmed t').
Proof.
  intros t t' S S'. split; [apply same_trimmed|]. intros E. eapply rst_trans; [apply trimmed_same, S|]. rewrite E. apply rst_sym. now apply trimmed_same.
Qed.
