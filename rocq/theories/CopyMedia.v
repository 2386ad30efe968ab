(** What AppendFile does to the media lookups of a destination of any origin. *)
From Coq Require Import String Ascii List Bool Arith NArith ZArith Lia.
From Verif Require Import GoStr Num Lib Types XmlTok Marshal Unmarshal Reload Docx Text Api Copy Keep History Lex Rels Pack SpecNum SpecApi SpecEdit SpecPack RegFacts IdFacts ApiFacts HistFacts HistFacts2 NewFacts CopyFacts CopyFacts2 PackFacts PackFacts2 PackFacts3 PackFacts4 PackFacts6 BreakFacts.
Import ListNotations.
Local Open Scope list_scope.
Local Open Scope string_scope.

Lemma append_steps : forall to from w w' d d', nth_error w to = Some d -> append_file to from w = Ok w' -> nth_error w' to = Some d' -> reg_steps (d_reg d) (d_reg d').
Proof.
  intros to from w w' d d' N E N'. unfold append_file in E. destruct (nth_error w from) as [s|]; [|discriminate].
  destruct (append_items_kinds _ _ _ _ _ N E) as (x & new & A & _ & _ & S & _). rewrite N' in A. now injection A as ->.
Qed.
Section A.
Context `{GoLib}.
Lemma append_media_exactly : forall l w to from w' d d', run_ops l [] = Some w -> nth_error w to = Some d ->
  append_file to from w = Ok w' -> nth_error w' to = Some d' ->
  exists new, media (d_reg d') = (media (d_reg d) ++ new)%list /\
    (forall n, ~ In n (map fst new) -> media_of (d_reg d') n = media_of (d_reg d) n) /\
    (forall n m, last_media new n m -> media_of (d_reg d') n = Ok (Some m)).
Proof.
  intros l w to from w' d d' R N E N'. pose proof (append_steps _ _ _ _ _ _ N E N') as S.
  assert (MO : media_ok (d_reg d)) by (eapply (run_sound _ _ _ R); eauto; exact sound_nil).
  destruct (steps_media _ _ S) as (new & EQ & _). exists new. split; [assumption|]. split.
  - intros n K. rewrite (steps_media_ok _ _ S MO n), (MO n), EQ, last_named_app. now rewrite (last_named_none n new) by auto.
  - intros n m LM. rewrite (steps_media_ok _ _ S MO n), EQ, last_named_app. apply last_named_spec in LM. now rewrite LM.
Qed.
(** [b]: where the numbers of the pictures begin *)
Lemma append_media_names : forall w0 d0 l w from w' d d' b, (made d0 /\ b = 0%N) \/ (exists a, parse a w0 = Ok (w0 ++ [d0])%list /\ b = 100000%N) ->
  run_ops l (w0 ++ [d0])%list = Some w -> nth_error w (length w0) = Some d ->
  append_file (length w0) from w = Ok w' -> nth_error w' (length w0) = Some d' ->
  exists old new, media (d_reg d) = (media (d_reg d0) ++ old)%list /\ media (d_reg d') = (media (d_reg d) ++ new)%list /\
    ((b + N.of_nat (length old + length new) < two63)%N ->
     NoDup (map fst new) /\
     forall k m, nth_error new k = Some m -> exists fmt, fst m = picture_name (b + N.of_nat (length old + k + 1)) fmt).
Proof.
  intros w0 d0 l w from w' d d' b M R N E N'. pose proof (append_steps _ _ _ _ _ _ N E N') as S. pose proof (from_start _ _ _ _ _ R N) as S0.
  assert (IB : imgid (d_reg d0) = b).
  { destruct M as [[[|? ?] ->]|(a & P & ->)]; try reflexivity. apply parse_inv in P. destruct P as (d1 & EQ & U). apply app_inj_tail in EQ. destruct EQ as [_ <-].
    apply (unpack_inv _ _ _ U). }
  destruct (steps_media _ _ S0) as (old & E0 & _ & Q0). destruct (steps_media _ _ S) as (new & E1 & _ & Q1). exists old, new. split; [assumption|]. split; [assumption|].
  intros B. rewrite IB in Q0. unfold two63 in *. destruct Q0 as [I0 _]; [lia|]. destruct Q1 as [_ NF]; [lia|]. split; [eapply names_from_nodup; eauto|].
  intros k m K. destruct (names_from_nth _ _ _ _ NF K) as [f F]. exists f. rewrite F. unfold img_name, picture_name. do 3 f_equal. lia.
Qed.
End A.
