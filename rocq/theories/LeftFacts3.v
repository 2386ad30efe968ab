(** Histories and the package of a document. *)
From Coq Require Import String Ascii List Bool Arith NArith ZArith Lia Permutation.
From Verif Require Import GoStr Num Lib Types XmlTok Marshal Docx Api Lex Rels Pack History SpecLex SpecApi SpecPack SpecOpc SpecReopen SpecClean SpecLeft LexFacts LexFacts3 RegFacts IdFacts PackFacts PackFacts2
  StableFacts2 ReopenFacts HomeFacts OpcFacts CleanFacts2 CleanFacts3 LeftFacts LeftFacts2.
Import ListNotations.
Local Open Scope list_scope.
Local Open Scope string_scope.

(** ** nothing is there that is not used *)
Lemma history_left `{GoLib} : forall l1 w l2 w' i d ar, run_ops l1 [] = Some w -> Forall own_or_parsed l1 -> length w <= i ->
  run_ops l2 w = Some w' -> Forall (adding i) l2 -> nth_error w' i = Some d -> no_media_tmpl d -> writes d (Ok ar) -> nothing_left ar.
Proof.
  intros l1 w l2 w' i d ar R1 F1 LE R2 F2 N NM W.
  assert (HM : home w). { eapply run_home; [exact R1| |]; [eapply Forall_impl; [|exact F1]; intros []; auto|intros k x K; destruct k; discriminate]. }
  assert (Z : nth_error w i = None) by now apply nth_error_None.
  destruct (run_JJ i l2 w w' R2 F2 HM) as (A & B); [intros x K; congruence|intros x K; congruence|].
  eapply used_package; eauto.
Qed.

(** ** nothing goes *)
Lemma exact_attrs : forall a a' : list attr, Forall2 (fun x y => fst x = fst y /\ cleaned (snd x) (snd y)) a a' -> Forall (fun x => xml_string (snd x)) a -> a' = a.
Proof.
  induction 1 as [|[q v] [q' v'] a a' (E & C) F IH]; intros X; [reflexivity|]. inversion X; subst. cbn [fst snd] in *. subst q'.
  rewrite IH by assumption. now rewrite (LeftFacts2.clean_xml _ _ C).
Qed.
Lemma cleaned_rel_xml : forall r, Forall (fun x : attr => xml_string (snd x)) (rel_attrs (clean_rel clean r)).
Proof.
  intros [i t g m]. assert (K : forall s, xml_string (clean s)) by (intros s; exact (cleans_xml _ _ (clean_cleans s))).
  unfold rel_attrs, at_, ato. cbn [clean_rel rel_id rel_type rel_target rel_mode app]. constructor; [apply K|]. constructor; [apply K|]. constructor; [apply K|].
  destruct (String.eqb _ ""); repeat constructor. apply K.
Qed.
Lemma rels_exactly : forall d ar r a, writes d (Ok ar) -> files_of ar MAIN_RELS r ->
  (In a (elems r "Relationship") <-> exists x, In x (rels (d_reg d)) /\ a = rel_attrs (clean_rel clean x)).
Proof.
  intros d ar r a W F. apply clean_writes with (c := clean) in W; [|apply clean_cleans]. pose proof (rels_part _ _ W) as RP.
  assert (r = write_xml (m_rels (d_reg (clean_docx clean d)))) as -> by (eapply file_once; eauto).
  assert (E : rels (d_reg (clean_docx clean d)) = map (clean_rel clean) (rels (d_reg d))) by reflexivity. split.
  - intros I. apply written_rels in I as (x & X & Q). rewrite E in X. apply in_map_iff in X as (y & <- & Y). exists y. split; [exact Y|]. apply exact_attrs; [exact Q|apply cleaned_rel_xml].
  - intros (x & X & ->). destruct (rels_written (d_reg (clean_docx clean d)) (clean_rel clean x)) as (b & B & Q); [rewrite E; now apply in_map|].
    apply exact_attrs in Q; [|apply cleaned_rel_xml]. now subst b.
Qed.
Section H.
Context {L : GoLib}.
Lemma sane_origin : forall l w i d, Forall sane_call l -> run_ops l [] = Some w -> nth_error w i = Some d -> origin (d_reg d).
Proof.
  intros l w i d F R N. apply (run_regs origin origin_step origin_new) with (l := l) (w := []) (w' := w) (i := i); auto.
  - eapply Forall_impl; [|exact F]. apply origin_sane.
  - intros k x K. destruct k; discriminate.
Qed.
Lemma run_app : forall l1 l2 w w1, run_ops l1 w = Some w1 -> run_ops (l1 ++ l2)%list w = run_ops l2 w1.
Proof.
  induction l1 as [|o l1 IH]; intros l2 w w1 E; cbn in *; [now injection E as <-|]. destruct (exec o w); [eauto|eauto|discriminate].
Qed.
Lemma history_stays : forall l1 w l2 w' i d d' ar ar', Forall sane_call l1 -> Forall sane_call l2 -> run_ops l1 [] = Some w -> run_ops l2 w = Some w' ->
  nth_error w i = Some d -> nth_error w' i = Some d' -> (N.of_nat (length (rels (d_reg d'))) < 2 ^ 62)%N -> no_media_tmpl d -> writes d (Ok ar) -> writes d' (Ok ar') ->
  (forall n b, files_of ar ("word/media/" ++ n) b -> files_of ar' ("word/media/" ++ n) b) /\
  (forall r r' a, files_of ar MAIN_RELS r -> files_of ar' MAIN_RELS r' -> In a (elems r "Relationship") -> In a (elems r' "Relationship")).
Proof.
  intros l1 w l2 w' i d d' ar ar' F1 F2 R1 R2 N N' LN NM W W'. destruct (run_ops_grows _ _ _ R2 i d N) as (d2 & N2 & S). rewrite N' in N2. injection N2 as <-.
  assert (O : origin (d_reg d')). { eapply (sane_origin (l1 ++ l2)%list); [apply Forall_app; eauto| |exact N']. rewrite (run_app _ _ _ _ R1). exact R2. }
  destruct (origin_nums _ O LN) as (_ & ND). split.
  - intros n b F. apply (proj2 (written_parts d ar W)) in F as (s & E & F). injection E as <-.
    assert (M : exists m, In m (media (d_reg d)) /\ fst m = n /\ snd m = b).
    { inversion F as [A B|A B|n' y LM A B|n' c' LM G X1 X2 X3 A B]; subst.
      - exists y. destruct LM as (m1 & m2 & E & K & _). rewrite E. split; [apply in_or_app; right; now left|auto].
      - apply NM in LM. cbn in LM. discriminate LM. }
    destruct M as (m & M & <- & <-). destruct (steps_media _ _ S) as (more & E & _). apply (proj2 (written_parts d' ar' W')). eexists. split; [reflexivity|]. apply part_media.
    assert (M' : In m (media (d_reg d'))) by (rewrite E; apply in_or_app; now left). apply in_split in M' as (m1 & m2 & E').
    exists m1, m2. split; [exact E'|]. split; [reflexivity|]. intros x X Y. rewrite E', map_app in ND. cbn [map] in ND. apply NoDup_remove_2 in ND. apply ND. apply in_or_app. right. rewrite <- Y. now apply in_map.
  - intros r r' a F F' I. apply (proj1 (rels_exactly _ _ _ _ W F)) in I as (x & X & ->). apply (proj2 (rels_exactly _ _ _ _ W' F')). exists x. split; [|reflexivity].
    destruct (steps_rels _ _ S) as (l & E & _). rewrite E. apply in_or_app. now left.
Qed.
End H.
