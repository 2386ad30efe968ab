(** What Paragraph.String shows, drawings included. *)
From Coq Require Import String Ascii List Bool Arith NArith ZArith Lia.
From Verif Require Import GoStr Num Lib Types Docx Text History SpecApi ApiFacts SpecPanic SpecBreak RegFacts IdFacts HistFacts CopyFacts BreakFacts SpecShow.
Import ListNotations.
Local Open Scope list_scope.
Local Open Scope string_scope.

Section Show.
Context `{GoLib}.
Variable w : world.
Hypothesis S0 : sound w.

Lemma called_iff : forall dp p n, pic_name dp p = Ok n <-> pic_called dp p n.
Proof.
  intros dp p n. unfold pic_name. split.
  - destruct dp as [x|]; [intros E; injection E as <-; constructor|]. destruct (pic_nvpic p) as [x|] eqn:N; [intros E; injection E as <-; now constructor|].
    destruct (pic_blip p) as [b|] eqn:B; [|discriminate]. intros E; injection E as <-. now constructor.
  - intros [x q|x q N|b q N B]; [reflexivity|now rewrite N|now rewrite N, B].
Qed.

Lemma no_points : forall x id, (forall tgt, ~ points_to x id tgt) <-> refer_target (d_reg x) id = Err ERR_REFID.
Proof.
  intros x id. destruct (refer_target (d_reg x) id) as [tgt|e|] eqn:R.
  - split; [|discriminate]. intros N. exfalso. apply (N tgt). now apply refer_points.
  - assert (e = ERR_REFID) as ->.
    { unfold refer_target in R. induction (rels (d_reg x)) as [|a l IH]; cbn in R; [congruence|]. destruct (rel_id a =? id); [discriminate|auto]. }
    split; [reflexivity|]. intros _ tgt P. apply refer_points in P. congruence.
  - exfalso. eapply refer_never_panics; eauto.
Qed.

Lemma sum_iff : forall f p h, pic_hash w f p = Ok h <-> pic_sum w f p h.
Proof.
  intros f p h. unfold pic_hash. destruct (pic_blip p) as [b|] eqn:B.
  2: { split; [intros E; injection E as <-; now constructor|]. intros K. inversion K; subst; [reflexivity|congruence|congruence]. }
  rewrite file_reg_owner. split.
  - destruct (owner w f) as [x|] eqn:O; cbn [bind]; [|discriminate].
    destruct (refer_target (d_reg x) (ablip_embed (picblip_blip b))) as [tgt|e|] eqn:R; [| |discriminate].
    + destruct (drop 6 tgt) as [name|] eqn:D; [|discriminate]. apply refer_points in R. apply drop_some in D. destruct D as (pre & -> & Lp).
      assert (M : media_ok (d_reg x)). { destruct f as [i|]; [|discriminate]. exact (S0 i x O). }
      rewrite M. cbn [bind]. destruct (last_named name (media (d_reg x))) as [m|] eqn:LN; [|discriminate]. intros E. injection E as <-.
      eapply ps_media; eauto. now apply last_named_spec.
    + intros E. injection E as <-. assert (e = ERR_REFID) as ->.
      { destruct (no_points x (ablip_embed (picblip_blip b))) as [A _]. enough (K : @Err string e = Err ERR_REFID) by congruence.
        rewrite <- R. apply A. intros tgt P. apply refer_points in P. congruence. }
      eapply ps_unknown; eauto. now apply no_points.
  - intros K. inversion K as [q Q|q b' x Q O N|q b' x pre nm m Q O P Lp LM]; subst; [congruence| |]; rewrite B in Q; injection Q as <-; rewrite O; cbn [bind].
    + rewrite (proj1 (no_points _ _) N). reflexivity.
    + apply refer_points in P. rewrite P. assert (D : drop 6 (pre ++ nm) = Some nm) by (apply drop_some; eauto). rewrite D.
      assert (M : media_ok (d_reg x)). { destruct f as [i|]; [|discriminate]. exact (S0 i x O). }
      rewrite M. apply last_named_spec in LM. rewrite LM. reflexivity.
Qed.

Lemma shape_called_iff : forall dp s n, shape_name dp s = n <-> shape_called dp s n.
Proof.
  intros dp [r] n. cbn [shape_name]. split.
  - destruct dp as [x|]; [intros <-; constructor|]. destruct (shapeR_cnvPr r) as [x|] eqn:N; [intros <-; now constructor|].
    destruct (shapeR_sp r) as [sp|] eqn:P; intros <-; now constructor.
  - intros K. inversion K as [x s|x q N|sp q N P|q N P]; subst; [reflexivity|now rewrite N|now rewrite N, P|now rewrite N, P].
Qed.

Lemma data_iff : forall k f dp d s, gdata_string w k f dp d = Ok s <-> data_shown w k f dp d s.
Proof.
  intros k f dp d s. unfold gdata_string. split.
  - destruct (gdataR_pic d) as [p|] eqn:P.
    { destruct (pic_name dp p) as [n| |] eqn:N; cbn [bind]; try discriminate. destruct (pic_hash w f p) as [h| |] eqn:Hh; cbn [bind]; try discriminate.
      intros E. injection E as <-. eapply ds_pic; eauto; [now apply called_iff|now apply sum_iff]. }
    destruct (gdataR_shape d) as [x|] eqn:Sh.
    { intros E. injection E as <-. change (shape_prst x) with (shape_kind x). eapply ds_shape; eauto. now apply shape_called_iff. }
    destruct (gdataR_canvas d) as [c|] eqn:C; [|intros E; injection E as <-; now constructor].
    intros E. injection E as <-. destruct dp as [n|]; [eapply ds_canvas|eapply ds_canvas_nil]; eauto.
  - intros K. inversion K as [p n h P N S1 E|x n P Sh N E|c n P Sh C D E|c P Sh C D E|P Sh C E]; subst.
    + rewrite P. apply called_iff in N. apply sum_iff in S1. rewrite N, S1. reflexivity.
    + rewrite P, Sh. apply shape_called_iff in N. subst n. reflexivity.
    + rewrite P, Sh, C. reflexivity.
    + rewrite P, Sh, C. reflexivity.
    + rewrite P, Sh, C. reflexivity.
Qed.

Lemma child_iff : forall c s, rchild_string w c = Ok s <-> child_shown w c s.
Proof.
  intros c s. split.
  - destruct c as [t|t|t|[i|] [a|]]; cbn [rchild_string]; try (intros E; injection E as <-; constructor; fail).
    + unfold inline_string. destruct (@inlineR_graphic graphic i) as [g|] eqn:G; [|discriminate]. destruct (graphicR_data g) as [d|] eqn:D; [|discriminate].
      intros E. eapply cs_inline; [unfold graphic_data; unfold inline, graphic in *; rewrite G; exact D|]. now apply data_iff.
    + unfold inline_string. destruct (@inlineR_graphic graphic i) as [g|] eqn:G; [|discriminate]. destruct (graphicR_data g) as [d|] eqn:D; [|discriminate].
      intros E. eapply cs_inline; [unfold graphic_data; unfold inline, graphic in *; rewrite G; exact D|]. now apply data_iff.
    + unfold anchor_string. destruct (@anchorR_graphic graphic a) as [g|] eqn:G.
      2: { intros E. injection E as <-. apply cs_anchor_empty. unfold graphic_data. unfold anchor, graphic in *. now rewrite G. }
      destruct (graphicR_data g) as [d|] eqn:D.
      * intros E. eapply cs_anchor; [unfold graphic_data; unfold anchor, graphic in *; rewrite G; exact D|]. now apply data_iff.
      * intros E. injection E as <-. apply cs_anchor_empty. unfold graphic_data. unfold anchor, graphic in *. now rewrite G.
  - intros K. inversion K as [t|t|b|i a d s1 G D|a d s1 G D|a G|]; subst; try reflexivity; cbn [rchild_string].
    + unfold inline_string. unfold graphic_data in G. destruct (@inlineR_graphic graphic i) as [g|]; [|discriminate]. rewrite G. now apply data_iff.
    + unfold anchor_string. unfold graphic_data in G. destruct (@anchorR_graphic graphic a) as [g|]; [|discriminate]. rewrite G. now apply data_iff.
    + unfold anchor_string. unfold graphic_data in G. destruct (@anchorR_graphic graphic a) as [g|]; [|reflexivity]. now rewrite G.
Qed.

Lemma all_iff : forall A (f : A -> res string) (R : A -> string -> Prop), (forall x s, f x = Ok s <-> R x s) ->
  forall l s, rconcat f l = Ok s <-> all_shown R l s.
Proof.
  intros A f R E. induction l as [|x l IH]; intros s; cbn [rconcat].
  - split; [intros K; injection K as <-; constructor | intros K; inversion K; reflexivity].
  - split.
    + destruct (f x) as [a| |] eqn:F; cbn [bind]; try discriminate. destruct (rconcat f l) as [b| |] eqn:R0; cbn [bind]; try discriminate.
      intros K. injection K as <-. constructor; [now apply E|now apply IH].
    + intros K. inversion K as [|x' l' a b Ra Rb]; subst. apply E in Ra. apply IH in Rb. rewrite Ra, Rb. reflexivity.
Qed.

Lemma part_iff : forall f c s, pchild_string w f c = Ok s <-> part_shown w f c s.
Proof.
  intros f c s. destruct c as [r|id r|r]; cbn [pchild_string].
  - rewrite (all_iff _ _ _ child_iff). split; [now constructor | intros K; now inversion K].
  - rewrite file_reg_owner. split.
    + destruct (owner w f) as [x|] eqn:O; cbn [bind]; [|discriminate]. intros E. injection E as <-.
      destruct (refer_target (d_reg x) id) as [tgt|e|] eqn:R.
      * eapply pa_link; eauto. now apply refer_points.
      * eapply pa_dead; eauto. intros tgt P. apply refer_points in P. congruence.
      * exfalso. eapply refer_never_panics; eauto.
    + intros K. inversion K as [|id' r' x tgt O P|id' r' x O N|]; subst; rewrite O; cbn [bind].
      * apply refer_points in P. now rewrite P.
      * rewrite (proj1 (no_points _ _) N). reflexivity.
  - split; [intros E; injection E as <-; constructor | intros K; inversion K; reflexivity].
Qed.
End Show.

Lemma para_shown_iff : forall (L : GoLib) l w p s, run_ops l [] = Some w -> (para_string w p = Ok s <-> para_shown w p s).
Proof.
  intros L l w p s R. assert (S0 : sound w) by (eapply run_sound; eauto; exact sound_nil).
  unfold para_string, para_shown. apply all_iff. intros x t. now apply part_iff.
Qed.
