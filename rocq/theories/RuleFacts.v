(** The rules of MergeText. *)
From Coq Require Import String Ascii List Bool Arith NArith ZArith Lia.
From Verif Require Import GoStr Num Lib Types Docx Merge SpecApi SpecMerge MergeFacts.
Import ListNotations.
Local Open Scope list_scope.
Local Open Scope string_scope.

Lemma rule_same_prop : forall a b, exists v, merge_same_prop_runs a b = Ok v /\ (v = true <-> runR_rpr a = runR_rpr b).
Proof. intros a b. eexists. split; [reflexivity|]. apply same_prop_spec. discriminate. Qed.
Lemma rule_same_prop_of : forall names a b, (forall n, In n names -> In n (map fst rnames)) ->
  exists v, merge_same_prop_runs_of names a b = Ok v /\
  (v = true <-> (runR_rpr a = None /\ runR_rpr b = None) \/
     exists p q, runR_rpr a = Some p /\ runR_rpr b = Some q /\ forall n f, In n names -> In (n, f) rnames -> rget f p = rget f q).
Proof.
  intros names a b N. unfold merge_same_prop_runs_of. destruct (runR_rpr a) as [p|] eqn:Ea, (runR_rpr b) as [q|] eqn:Eb.
  - destruct (same_prop_of_spec names a b p q Ea Eb N) as (v & E & I). exists v. split; [exact E|]. rewrite I. split.
    + intros K. right. exists p, q. auto.
    + intros [[K _]|(p' & q' & Ep & Eq & K)]; [discriminate|]. injection Ep as <-. injection Eq as <-. exact K.
  - unfold same_prop_of. rewrite Ea, Eb. eexists. split; [reflexivity|]. split; [discriminate|]. intros [[K _]|(p' & q' & Ep & Eq & K)]; discriminate.
  - unfold same_prop_of. rewrite Ea, Eb. eexists. split; [reflexivity|]. split; [discriminate|]. intros [[_ K]|(p' & q' & Ep & Eq & K)]; discriminate.
  - unfold same_prop_of. rewrite Ea, Eb. eexists. split; [reflexivity|]. split; auto.
Qed.
