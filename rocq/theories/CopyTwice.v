(** A copy of a copy is a copy; splitting and appending the parts. *)
From Coq Require Import String Ascii List Bool Arith NArith ZArith Lia.
From Verif Require Import GoStr Num Lib Types Docx Text Api Keep Copy History RegFacts SpecApi SpecEdit SpecCopy SpecJoin CopyFacts CopyFacts2.
Import ListNotations.
Local Open Scope list_scope.
Local Open Scope string_scope.

Section Twice.
Variables (w w1 : world) (k to : nat) (d1 : docx) (g2 : reg).
Hypothesis N1 : nth_error w1 k = Some d1.
Notation g1 := (d_reg d1).

Lemma graphic_trans : forall f og c c2, same_graphic w k g1 f og c -> (c = None -> c2 = None) ->
  (forall f' og', c = Some (f', og') -> same_graphic w1 to g2 f' og' c2) -> same_graphic w to g2 f og c2.
Proof.
  intros f og c c2 S1 Z S2. unfold same_graphic in *. destruct (graphic_pic og) as [p|] eqn:GP.
  - destruct (pic_embed p) as [e|]; [|auto]. intros t data P. destruct (S1 t data P) as (og' & p' & e' & t' & -> & A & B & C & D & E & F).
    specialize (S2 _ _ eq_refl). rewrite A, B in S2. destruct (S2 t' data) as (og2 & p2 & e2 & t2 & A2 & B2 & C2 & D2 & E2 & F2 & G2); [exists k, d1; auto|].
    exists og2, p2, e2, t2. split; [assumption|]. split; [assumption|]. split; [assumption|]. split; [assumption|]. split; [auto|]. split; congruence.
  - destruct og as [gr|]; [|contradiction]. destruct (graphicR_data gr) as [d|] eqn:GD; [|contradiction].
    destruct (match gdataR_shape d, gdataR_canvas d with None, None => true | _, _ => false end) eqn:B; [auto|]. specialize (S2 _ _ S1). cbv beta zeta in S2.
    rewrite GP, GD in S2. rewrite B in S2. exact S2.
Qed.
Lemma rchild_trans : forall c c1 c2, same_rchild w k g1 c c1 -> same_rchild w1 to g2 c1 c2 -> same_rchild w to g2 c c2.
Proof.
  intros [t|t|t|[x|] [a|]] c1 c2 S1 S2; cbn [same_rchild] in *; subst; cbn [same_rchild] in *; auto.
  - destruct S1 as (y & -> & G & F). destruct y as [z|]; cbn [same_rchild] in S2.
    + destruct S2 as (y2 & -> & G2 & F2). exists y2. split; [reflexivity|]. split.
      * eapply graphic_trans; [exact G|discriminate|]. intros f' og' E. injection E as <- <-. exact G2.
      * intros z2 E. rewrite (F2 _ E). now apply F.
    + exists None. split; [assumption|]. split; [|discriminate]. eapply graphic_trans; [exact G|reflexivity|discriminate].
  - destruct S1 as (y & -> & G & F). destruct y as [z|]; cbn [same_rchild] in S2.
    + destruct S2 as (y2 & -> & G2 & F2). exists y2. split; [reflexivity|]. split.
      * eapply graphic_trans; [exact G|discriminate|]. intros f' og' E. injection E as <- <-. exact G2.
      * intros z2 E. rewrite (F2 _ E). now apply F.
    + exists None. split; [assumption|]. split; [|discriminate]. eapply graphic_trans; [exact G|reflexivity|discriminate].
  - destruct S1 as (y & -> & G & F). destruct y as [z|]; cbn [same_rchild] in S2.
    + destruct S2 as (y2 & -> & G2 & F2). exists y2. split; [reflexivity|]. split.
      * eapply graphic_trans; [exact G|discriminate|]. intros f' og' E. injection E as <- <-. exact G2.
      * intros z2 E. rewrite (F2 _ E). now apply F.
    + exists None. split; [assumption|]. split; [|discriminate]. eapply graphic_trans; [exact G|reflexivity|discriminate].
Qed.
Lemma f2_trans : forall A (P Q R : A -> A -> Prop), (forall x y z, P x y -> Q y z -> R x z) -> forall a b c, Forall2 P a b -> Forall2 Q b c -> Forall2 R a c.
Proof. intros A P Q R T a b c F. revert c. induction F; intros c G; inversion G; subst; constructor; eauto. Qed.
Lemma run_trans : forall r r1 r2, same_run w k g1 r r1 -> same_run w1 to g2 r1 r2 -> same_run w to g2 r r2.
Proof.
  intros r r1 r2 (A & B & C & D) (A' & B' & C' & D'). split; [congruence|]. split; [congruence|]. split; [congruence|]. eapply f2_trans; [|exact D|exact D']. apply rchild_trans.
Qed.
Lemma children_trans : forall f l l1 l2, same_children w k g1 f l l1 -> same_children w1 to g2 (Some k) l1 l2 -> same_children w to g2 f l l2.
Proof.
  intros f l l1 l2 S. revert l2. induction S as [|r r' l l' R S IH|q l l' S IH|id r id' r' l l' T R S IH|id r l l' T S IH]; intros l2 S2.
  - inversion S2; subst; constructor.
  - inversion S2; subst. constructor; eauto using run_trans.
  - inversion S2; subst. constructor; eauto.
  - inversion S2 as [| | |? ? ? ? ? ? T2 R2 S2'|? ? ? ? T2 S2']; subst.
    + apply sc_link; eauto using run_trans. intros t K. apply T2. exists k, d1. auto.
    + apply sc_lost; eauto. intros t K. apply (T2 t). exists k, d1. auto.
  - apply sc_lost; auto.
Qed.
Lemma para_trans : forall p p1 p2, same_para w k g1 p p1 -> same_para w1 to g2 p1 p2 -> same_para w to g2 p p2.
Proof. intros p p1 p2 (A & B & C) (A' & B' & C'). split; [congruence|]. split; [assumption|]. rewrite B in C'. eapply children_trans; eauto. Qed.
Lemma cell_trans : forall p p1 p2, same_cell w k g1 p p1 -> same_cell w1 to g2 p1 p2 -> same_cell w to g2 p p2.
Proof. intros p p1 p2 (A & B & C) (A' & B' & C'). split; [congruence|]. split; [assumption|]. eapply f2_trans; [|exact C|exact C']. apply para_trans. Qed.
Lemma row_trans : forall p p1 p2, same_row w k g1 p p1 -> same_row w1 to g2 p1 p2 -> same_row w to g2 p p2.
Proof. intros p p1 p2 (A & C) (A' & C'). split; [congruence|]. eapply f2_trans; [|exact C|exact C']. apply cell_trans. Qed.
Lemma item_trans : forall x x1 x2, same_item w k g1 x x1 -> same_item w1 to g2 x1 x2 -> same_item w to g2 x x2.
Proof.
  intros [p|t|s] [p1|t1|s1] [p2|t2|s2]; cbn; try tauto; [apply para_trans| |congruence].
  intros (A & B & C) (A' & B' & C'). split; [congruence|]. split; [congruence|]. eapply f2_trans; [|exact C|exact C']. apply row_trans.
Qed.
End Twice.

Section Join.
Context `{GoLib}.
Lemma calls_run : forall l w w', calls_ok l w w' -> run_ops l w = Some w'.
Proof. intros l w w' C. induction C as [|o l a b c E C IH]; cbn [run_ops]; [reflexivity|]. now rewrite E. Qed.
Lemma run_snoc : forall l w w1 o w2, run_ops l w = Some w1 -> exec o w1 = Ok w2 -> run_ops (l ++ [o])%list w = Some w2.
Proof.
  induction l as [|x l IH]; intros w w1 o w2 E X; cbn [app run_ops] in *; [injection E as ->; now rewrite X|]. destruct (exec x w) as [w'|e|]; [eauto|eauto|discriminate].
Qed.
Lemma join : forall wp w1 l2 l1 wj dj w2, run_ops l1 (w1 ++ [new_docx])%list = Some wj -> (forall p, p < length w1 -> nth_error wj p = nth_error w1 p) ->
  calls_ok (map (OAppend (length w1)) (map fst l2)) wj w2 -> nth_error wj (length w1) = Some dj ->
  Forall (fun x => exists e, nth_error w1 (fst x) = Some e /\ Forall2 (same_item wp (fst x) (d_reg e)) (snd x) (d_items e)) l2 ->
  exists dn new, nth_error w2 (length w1) = Some dn /\ d_items dn = (d_items dj ++ new)%list /\ (forall p, p < length w1 -> nth_error w2 p = nth_error w1 p) /\
    ((N.of_nat (length (rels (d_reg dn))) < two63)%N -> Forall2 (same_item wp (length w1) (d_reg dn)) (concat (map snd l2)) new).
Proof.
  intros wp w1. induction l2 as [|[p piece] l2 IH]; intros l1 wj dj w2 R K C N F; cbn [map fst snd concat] in *.
  - inversion C; subst. exists dj, []. rewrite app_nil_r. auto.
  - inversion C as [|o l a b c E C2]; subst. inversion F as [|? ? (e & Ne & Fe) F2]; subst. cbn [fst snd] in *.
    assert (Lp : p < length w1) by (apply nth_error_Some; congruence). pose proof (run_snoc _ _ _ _ _ R E) as R2. cbn [exec] in E. rewrite N in E.
    assert (Np : nth_error wj p = Some e) by (rewrite K; auto).
    destruct (append_keeps _ _ _ _ _ _ N Np E) as (_ & O & d' & new & Nd & Id & _).
    assert (K2 : forall q, q < length w1 -> nth_error b q = nth_error w1 q) by (intros q Q; rewrite O by lia; auto).
    destruct (IH _ _ _ _ R2 K2 C2 Nd F2) as (dn & new2 & Nn & In2 & K3 & S2).
    exists dn, (new ++ new2)%list. split; [assumption|]. split; [rewrite In2, Id; now rewrite app_assoc|]. split; [assumption|]. intros B.
    destruct (append_links_pictures w1 l1 wj dj p e b _ w2 dn R N Np E (calls_run _ _ _ C2) Nn B) as (d'' & new' & Nd' & Id' & S).
    rewrite Nd in Nd'. injection Nd' as <-. rewrite Id in Id'. apply app_inv_head in Id'. subst new'.
    apply Forall2_app; [|now apply S2]. eapply f2_trans; [|exact Fe|exact S]. apply item_trans. exact Np.
Qed.
Theorem rejoined : forall i sep w w1 d w2, nth_error w i = Some d -> split_by_paragraph i sep w = Ok w1 ->
  calls_ok (ONew :: map (OAppend (length w1)) (seq (length w) (length w1 - length w))) w1 w2 ->
  (forall e, In e w2 -> (N.of_nat (length (rels (d_reg e))) < two63)%N) ->
  exists dn, nth_error w2 (length w1) = Some dn /\ Forall2 (same_item w (length w1) (d_reg dn)) (d_items d) (d_items dn).
Proof.
  intros i sep w w1 d w2 N E C B. inversion C as [|o l a b c X C2]; subst. cbn [exec] in X. injection X as <-.
  destruct (split_same _ _ _ _ _ N E) as (ps & A1 & A2 & A3).
  assert (Q : seq (length w) (length w1 - length w) = map fst (combine (seq (length w) (length ps)) ps)).
  { rewrite A2. replace (length w + length ps - length w) with (length ps) by lia. clear. generalize (length w). induction ps as [|x ps IH]; intros n; cbn; [reflexivity|]. now rewrite <- IH. }
  assert (Q2 : map snd (combine (seq (length w) (length ps)) ps) = ps).
  { clear. generalize (length w). induction ps as [|x ps IH]; intros n; cbn; [reflexivity|]. now rewrite IH. }
  assert (NN : nth_error (w1 ++ [new_docx]) (length w1) = Some new_docx) by (rewrite nth_error_app2, Nat.sub_diag by lia; reflexivity).
  assert (KK : forall p, p < length w1 -> nth_error (w1 ++ [new_docx]) p = nth_error w1 p) by (intros p P; now rewrite nth_error_app1).
  rewrite Q in C2.
  (* the parts are unchanged at the end, so they are bounded *)
  assert (PB : forall p e, nth_error w1 p = Some e -> (N.of_nat (length (rels (d_reg e))) < two63)%N).
  { assert (G : forall l wj w3, calls_ok (map (OAppend (length w1)) l) wj w3 -> (forall p, p < length w1 -> nth_error wj p = nth_error w1 p) -> forall p, p < length w1 -> nth_error w3 p = nth_error w1 p).
    { induction l as [|x l IH]; intros wj w3 D K p P; cbn [map] in D; inversion D as [|? ? ? ? ? X D2]; subst; [auto|]. eapply IH; [exact D2| |exact P]. intros q Hq.
      cbn [exec] in X. destruct (nth_error wj (length w1)) as [dj|] eqn:NJ; [|discriminate]. destruct (nth_error wj x) as [e|] eqn:NX; [|unfold append_file in X; rewrite NX in X; discriminate].
      destruct (append_keeps _ _ _ _ _ _ NJ NX X) as (_ & O & _). rewrite O by lia. auto. }
    intros p e P. apply B. eapply nth_error_In. rewrite (G _ _ _ C2 KK p) by (apply nth_error_Some; congruence). exact P. }
  destruct (join w w1 (combine (seq (length w) (length ps)) ps) [] (w1 ++ [new_docx])%list new_docx w2 eq_refl KK C2 NN) as (dn & new & Nn & In2 & _ & S).
  { assert (G : forall j, (forall k s, nth_error ps k = Some s -> exists e, nth_error w1 (j + k) = Some e /\ Forall2 (same_item w (j + k) (d_reg e)) s (d_items e)) ->
      Forall (fun x => exists e, nth_error w1 (fst x) = Some e /\ Forall2 (same_item w (fst x) (d_reg e)) (snd x) (d_items e)) (combine (seq j (length ps)) ps)).
    { clear. induction ps as [|x ps IH]; intros j T; cbn [length seq combine]; constructor.
      - cbn [fst snd]. specialize (T 0 x eq_refl). now rewrite Nat.add_0_r in T.
      - apply IH. intros k s Z. specialize (T (S k) s Z). now rewrite Nat.add_succ_r in T. }
    apply G. intros k s Z. destruct (A3 k s Z) as (e & Ne & Se). exists e. split; auto. apply Se. eapply PB; eauto. }
  exists dn. split; [assumption|]. rewrite In2. cbn [d_items new_docx app]. rewrite Q2, A1 in S. apply S. apply B. eapply nth_error_In; eauto.
Qed.
End Join.
