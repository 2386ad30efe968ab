(** What pictures added to a parsed document do to its media files. *)
From Coq Require Import String Ascii List Bool Arith NArith ZArith Lia.
From Verif Require Import GoStr Num Lib Types XmlTok Marshal Unmarshal Reload Docx Text Api Copy Keep History Lex Rels Pack SpecLex SpecNum SpecApi SpecEdit SpecPack RegFacts IdFacts ApiFacts HistFacts HistFacts2 NewFacts LexFacts LexFacts2 RelsFacts PackFacts PackFacts2 PackFacts3 PackFacts4.
Import ListNotations.
Local Open Scope list_scope.
Local Open Scope string_scope.

Section A.
Context `{GoLib}.

(** without a condition on the names *)
Lemma names_from_nth : forall l n k m, names_from n l -> nth_error l k = Some m -> exists fmt, fst m = img_name (n + 1 + N.of_nat k) fmt.
Proof.
  induction l as [|x l IH]; intros n [|k] m NF E; cbn in E; try discriminate; destruct NF as [[fmt F] R].
  - injection E as <-. exists fmt. now rewrite N.add_0_r.
  - destruct (IH _ _ _ R E) as [f G]. exists f. rewrite G. f_equal. lia.
Qed.
Lemma parsed_media_exactly : forall a w0 w1 d0 l w d, parse a w0 = Ok w1 -> nth_error w1 (length w0) = Some d0 ->
  run_ops l w1 = Some w -> nth_error w (length w0) = Some d ->
  exists new, media (d_reg d) = (media (d_reg d0) ++ new)%list /\
    ((100000 + N.of_nat (length new) < two63)%N ->
      (forall k m, nth_error new k = Some m -> exists fmt, fst m = picture_name (100001 + N.of_nat k) fmt) /\
      (forall n, ~ In n (map fst new) -> media_of (d_reg d) n = media_of (d_reg d0) n) /\
      (forall m, In m new -> media_of (d_reg d) (fst m) = Ok (Some m)) /\
      (forall ar, writes d (Ok ar) ->
         (forall n m, last_media (media (d_reg d0)) n m -> (In ("word/media/" ++ n, Some (snd m)) ar <-> ~ In n (map fst new) \/ In (n, snd m) new)) /\
         (forall m, In m new -> In ("word/media/" ++ fst m, Some (snd m)) ar))).
Proof.
  intros a w0 w1 d0 l w d P N0 R N. apply parse_inv in P. destruct P as (d0' & -> & U).
  rewrite nth_error_app2, Nat.sub_diag in N0 by lia. injection N0 as ->.
  pose proof (from_start _ _ _ _ _ R N) as S. destruct (steps_media _ _ S) as (new & E & _ & Q). exists new. split; [assumption|].
  intros B. destruct (unpack_inv _ _ _ U) as (_ & _ & MO & _ & IM & _). rewrite IM in Q. destruct (Q B) as (_ & NF).
  assert (ND : NoDup (map fst new)) by (eapply names_from_nodup; eauto).
  split; [intros k m K; destruct (names_from_nth _ _ _ _ NF K) as [f F]; exists f; exact F|].
  assert (LN : forall m, In m new -> last_media (media (d_reg d)) (fst m) m).
  { intros m I. apply (last_media_in _ m ND) in I. destruct I as (u & v & EU & EN & AV).
    exists (media (d_reg d0) ++ u)%list, v. rewrite E, EU, <- app_assoc. auto. }
  split.
  { intros n K. rewrite (steps_media_ok _ _ S MO n), (MO n), E, last_named_app. now rewrite (last_named_none n new) by auto. }
  split.
  { intros m I. rewrite (steps_media_ok _ _ S MO (fst m)). f_equal. apply last_named_spec. apply LN. exact I. }
  intros ar W. destruct (written_parts d ar W) as (NDA & G). split.
  - intros n m LM. split.
    + intros I. destruct (in_dec string_dec n (map fst new)) as [J|J]; [right|now left].
      apply in_map_iff in J. destruct J as (m' & <- & J).
      assert (K : In ("word/media/" ++ fst m', Some (snd m')) ar) by (apply G; eexists; split; [reflexivity|]; apply part_media; auto).
      apply (fget_in _ _ _ NDA) in I. apply (fget_in _ _ _ NDA) in K. rewrite I in K. injection K as ->. now destruct m'.
    + intros [K|K].
      * apply G. eexists. split; [reflexivity|]. apply part_media. destruct LM as (u & v & EU & EN & AV).
        exists u, (v ++ new)%list. rewrite E, EU, <- app_assoc. split; [reflexivity|]. split; [assumption|]. intros y I. apply in_app_iff in I. destruct I as [I|I]; [auto|].
        intros EY. apply K. rewrite <- EY. now apply in_map.
      * apply G. eexists. split; [reflexivity|]. apply part_media. destruct LM as (u & v & _ & EN & _). destruct m as [x y]. cbn in EN. subst x. exact (LN _ K).
  - intros m I. apply G. eexists. split; [reflexivity|]. apply part_media. auto.
Qed.
End A.
