(** Documents built with any bytes at all can be saved and opened again. *)
From Coq Require Import String Ascii List Bool Arith NArith ZArith Lia Permutation.
From Verif Require Import GoStr Num Lib Types Docx Reload Pack History SpecLex SpecPack SpecReopen SpecClean IdFacts PackFacts3 OpcFacts ReopenFacts CleanFacts2.
Import ListNotations.
Local Open Scope list_scope.
Local Open Scope string_scope.

Section R.
Context {L : GoLib}.
Lemma origin_load : forall ms, NoDup (map fst ms) -> (forall m n f, In m ms -> fst m = picture_name n f -> n = 0%N) -> origin (load_reg ms).
Proof.
  intros ms N H. exists (load_reg ms). split; [constructor|]. split; [apply load_numbered|]. split; [exact (proj1 (origin_nums _ origin_new eq_refl))|]. split; [exact N|].
  split; [intros m n f I E; rewrite (H m n f I E); cbn; lia|]. split; [vm_compute; reflexivity|vm_compute; discriminate].
Qed.
Lemma origin_sane : forall o, sane_call o -> admits origin o.
Proof.
  intros o G. destruct o; cbn in *; auto; [now apply origin_load|]. intros f d U. eapply origin_parse; [exact (proj1 G)|exact U|exact (proj2 G f d U)].
Qed.
Lemma reopen_any : forall l w i d ar f, Forall sane_call l -> run_ops l [] = Some w -> nth_error w i = Some d -> (N.of_nat (length (rels (d_reg d))) < 2 ^ 62)%N ->
  no_media_tmpl d -> writes d (Ok ar) ->
  forall c, (forall s, cleans s (c s)) ->
  exists d', unpack f ar = Ok d' /\ d_items d' = map (reload_item (Some f)) (map (clean_item c) (d_items d)) /\
    rels (d_reg d') = map (clean_rel c) (rels (d_reg d)) /\ relns (d_reg d') = c (relns (d_reg d)) /\
    Permutation (media (d_reg d')) (media (d_reg d)) /\
    (forall m, In m (media (d_reg d)) <-> media_of (d_reg d') (fst m) = Ok (Some m)).
Proof.
  intros l w i d ar f F R N LN NM W c C.
  assert (O : origin (d_reg d)).
  { apply (run_regs origin origin_step origin_new) with (l := l) (w := []) (w' := w) (i := i); auto.
    - eapply Forall_impl; [|exact F]. apply origin_sane.
    - intros k x K. destruct k; discriminate. }
  destruct (origin_nums _ O LN) as (HN & ND).
  destruct (write_read f (clean_docx c d) ar) as (d' & A1 & A2 & A3 & A4 & _ & A6 & A7 & _); [now apply clean_writes|now apply clean_xml|now apply clean_has_num|exact ND|exact NM|].
  exists d'. auto 10.
Qed.
End R.
Lemma cleaning : exists c, forall s, cleans s (c s) /\ (forall s', cleans s s' -> s' = c s) /\ xml_string (c s) /\ (xml_string s -> c s = s).
Proof.
  exists clean. intros s. pose proof (clean_cleans s) as C. split; [exact C|]. split; [intros s' D; now apply (cleans_unique s)|]. split; [now apply (cleans_xml s)|apply clean_same].
Qed.
