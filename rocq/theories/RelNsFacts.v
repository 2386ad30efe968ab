(** The namespace of the relationship part. *)
From Coq Require Import String Ascii List Bool Arith NArith ZArith Lia.
From Verif Require Import GoStr Num Lib Types Docx Api Copy XmlTok Rels Lex Pack History SpecForm SpecError SpecPack SpecRelNs RegFacts PackFacts DecLemmas RoundTrip2 SkipFacts ErrorFacts WellFacts OpcFacts OpcFacts2.
Import ListNotations.
Local Open Scope list_scope.
Local Open Scope string_scope.

(** ** reading *)
Lemma root_ns : forall pre q a c rest ns l, Forall misc pre ->
  fst (fst (rels_root ns l (check [] (ftoks pre ++ toks (Elem q a c) ++ rest)%list))) = fold_left ns_attr a ns.
Proof.
  intros pre q a c rest ns l F. induction F as [|t pre M F IH].
  - change (ftoks []) with (@nil token). cbn [app]. rewrite check_tree, toks_elem. cbn [app rels_root].
    destruct (rels_n _ l _). reflexivity.
  - destruct t; [destruct M| |]; exact IH.
Qed.
Lemma part_ns : forall a s g g', root_attributes a s -> parse_doc_relation s g = Ok g' -> relns g' = fold_left ns_attr a XMLNS_R.
Proof.
  intros a s g g' (q & c & B) E. apply begins_lex in B. destruct B as (pre & rest & M & K).
  pose proof (root_ns pre q a c rest XMLNS_R (rels g) M) as R. unfold parse_doc_relation in E. rewrite K in E.
  destruct (rels_root _ _ _) as [[ns l] st]. cbn in R. destruct st; try discriminate. destruct (max_id l (rid g)); [|discriminate]. injection E as <-. exact R.
Qed.
Lemma none_ns : forall a ns, declares_none a -> fold_left ns_attr a ns = ns.
Proof.
  induction a as [|b a IH]; intros ns D; [reflexivity|]. cbn [fold_left]. unfold ns_attr at 2. destruct (String.eqb_spec (snd (fst b)) "xmlns") as [K|K].
  - exfalso. apply (D b); [now left|exact K].
  - apply IH. intros x I. apply D. now right.
Qed.
Lemma some_ns : forall a ns ns0, declares ns a -> fold_left ns_attr a ns0 = ns.
Proof. intros a ns ns0 (l1 & p & l2 & -> & D). rewrite fold_left_app. cbn [fold_left]. unfold ns_attr at 2. cbn [snd fst String.eqb Ascii.eqb Bool.eqb]. now apply none_ns. Qed.

Section WithL.
Context `{L : GoLib}.
Lemma entry_ns : forall f d e d', unpack_entry f d e = Ok d' ->
  (fst e <> RELS_NAME -> relns (d_reg d') = relns (d_reg d)) /\
  (fst e = RELS_NAME -> exists s, snd e = Some s /\ exists g', parse_doc_relation s (d_reg d) = Ok g' /\ d_reg d' = g').
Proof.
  intros f d [n c] d' E. unfold unpack_entry in E. cbn [fst] in *. change RELS_NAME with RELS_PART. destruct (String.eqb_spec n RELS_PART) as [->|N].
  - split; [congruence|]. intros _. unfold read_entry in E. cbn [fst snd] in E. destruct c as [s|]; [|discriminate].
    assert (X : ends_slash RELS_PART = false) by reflexivity. rewrite X in E. cbn [andb] in E.
    destruct (parse_doc_relation s (d_reg d)) as [g'| |] eqn:P; try discriminate. cbn in E. injection E as <-. exists s. split; [reflexivity|]. exists g'. split; [exact P|]. reflexivity.
  - split; [|congruence]. intros _. destruct (String.eqb n DOC_PART).
    + destruct (read_entry (n, c)); [|discriminate]. unfold parse_doc_part in E. destruct (root _ _ _) as [l []]; try discriminate. injection E as <-. reflexivity.
    + destruct (has_prefix MEDIA_FOLDER n).
      * destruct (read_entry (n, c)); [|discriminate]. injection E as <-. reflexivity.
      * injection E as <-. reflexivity.
Qed.
Lemma entries_ns : forall (v : string) a f d d', unpack_entries f d a = Ok d' ->
  (forall s g g', In (RELS_NAME, Some s) a -> parse_doc_relation s g = Ok g' -> relns g' = v) ->
  (exists c, In (RELS_NAME, c) a) \/ relns (d_reg d) = v -> relns (d_reg d') = v.
Proof.
  intros v. induction a as [|e a IH]; intros f d d' E A S.
  - cbn in E. injection E as <-. destruct S as [(c & [])|S]; exact S.
  - cbn [unpack_entries] in E. destruct (unpack_entry f d e) as [d1| |] eqn:U; try discriminate. cbn [bind] in E. destruct (entry_ns _ _ _ _ U) as [B C].
    apply (IH f d1 d' E); [intros s g g' I; apply A; now right|]. destruct (string_dec (fst e) RELS_NAME) as [K|K].
    + right. destruct (C K) as (s & K2 & g' & P & ->). apply (A s (d_reg d) g'); [|exact P]. left. destruct e as [n c]. cbn in *. congruence.
    + destruct S as [(c & [->|I])|S]; [exfalso; apply K; reflexivity|left; eauto|]. right. rewrite (B K). exact S.
Qed.
Lemma unpack_ns : forall v a f d, unpack f a = Ok d ->
  (forall s g g', In (RELS_NAME, Some s) a -> parse_doc_relation s g = Ok g' -> relns g' = v) ->
  (exists c, In (RELS_NAME, c) a) \/ v = "" -> relns (d_reg d) = v.
Proof.
  intros v a f d E A S. unfold unpack in E. destruct (unpack_entries _ _ a) as [d1| |] eqn:U; try discriminate. cbn [bind] in E. injection E as <-. cbn [d_reg set_d_reg set_imgid relns].
  eapply entries_ns; eauto. destruct S as [S| ->]; [now left|now right].
Qed.

(** ** editing *)
Lemma step_ns : forall g g', reg_step g g' -> relns g' = relns g.
Proof.
  intros g g' []; try reflexivity; unfold add_link_relation, add_image, increase_id; cbn; try reflexivity.
Qed.
Lemma steps_ns : forall g g', reg_steps g g' -> relns g' = relns g.
Proof. induction 1; [reflexivity|]. rewrite IHreg_steps. now apply step_ns. Qed.
Lemma run_ns : forall l w w' i d d', run_ops l w = Some w' -> nth_error w i = Some d -> nth_error w' i = Some d' -> relns (d_reg d') = relns (d_reg d).
Proof. intros l w w' i d d' R N N'. destruct (run_ops_grows _ _ _ R i d N) as (x & A & B). rewrite N' in A. injection A as <-. now apply steps_ns. Qed.
Lemma usual_ns : forall l w i d, run_ops l [] = Some w -> Forall usual_part l -> nth_error w i = Some d -> relns (d_reg d) = PACKAGE_NS.
Proof.
  intros l w i d R F N. apply (run_regs (fun g => relns g = PACKAGE_NS)) with (l := l) (w := []) (w' := w) (i := i); auto.
  - intros g g' S K. rewrite (step_ns _ _ S). exact K.
  - eapply Forall_impl; [|exact F]. intros [] K; cbn; auto. intros f x U. destruct K as [K1 K2]. eapply unpack_ns; [exact U| |left; exact K1].
    intros s g g' I P. destruct (K2 s I) as (at_s & B & D). rewrite (part_ns _ _ _ _ B P). now apply some_ns.
  - intros k x K. destruct k; discriminate.
Qed.

(** ** writing *)
Lemma shown_ns : forall ns g, relns g = ns -> escape ns = ns -> in_namespace ns (write_xml (m_rels g)).
Proof.
  intros ns g <- E. unfold in_namespace, write_xml, m_rels. cbn [show at_ show_attrs]. rewrite E.
  match goal with |- context [">" ++ ?t] => exists t; generalize t end. intros t. generalize (relns g). intros n.
  change (show_name (nn "Relationships")) with "Relationships". change (show_name (nn "xmlns")) with "xmlns".
  change XML_HEADER with ("<?xml version=""1.0"" encoding=""UTF-8""?>" ++ String (ascii_of_nat 10) "").
  cbn [String.append]. rewrite <- GoStr.sapp_assoc. reflexivity.
Qed.
Lemma saved_ns : forall ns d ar x, relns (d_reg d) = ns -> escape ns = ns -> writes d (Ok ar) -> In (RELS_NAME, Some x) ar -> in_namespace ns x.
Proof. intros ns d ar x R E W I. rewrite (file_once d ar RELS_NAME x (write_xml (m_rels (d_reg d))) W I (rels_part d ar W)). now apply shown_ns. Qed.
Lemma package_plain : escape PACKAGE_NS = PACKAGE_NS.
Proof. vm_compute. reflexivity. Qed.
Lemma office_plain : escape OFFICE_NS = OFFICE_NS.
Proof. vm_compute. reflexivity. Qed.

Lemma usual_saved : forall l w i d ar x, run_ops l [] = Some w -> Forall usual_part l -> nth_error w i = Some d ->
  writes d (Ok ar) -> In (RELS_NAME, Some x) ar -> in_namespace PACKAGE_NS x.
Proof. intros l w i d ar x R F N W I. eapply saved_ns; eauto using package_plain. eapply usual_ns; eauto. Qed.
Lemma parsed_saved : forall v a w w1 l w' d' ar x, escape v = v ->
  (forall s g g', In (RELS_NAME, Some s) a -> parse_doc_relation s g = Ok g' -> relns g' = v) -> (exists c, In (RELS_NAME, c) a) \/ v = "" ->
  parse a w = Ok w1 -> run_ops l w1 = Some w' -> nth_error w' (length w) = Some d' -> writes d' (Ok ar) -> In (RELS_NAME, Some x) ar -> in_namespace v x.
Proof.
  intros v a w w1 l w' d' ar x E A S P R N W I. unfold parse in P. destruct (unpack (length w) a) as [d| |] eqn:U; try discriminate. cbn [bind] in P. injection P as <-.
  eapply saved_ns; [|exact E|exact W|exact I]. rewrite (run_ns _ _ _ (length w) d d' R); [eapply unpack_ns; eauto| |exact N].
  rewrite nth_error_app2 by lia. now rewrite Nat.sub_diag.
Qed.
Lemma declared_saved : forall ns a w w1 l w' d' ar x, escape ns = ns -> relationships_are (declares ns) a ->
  parse a w = Ok w1 -> run_ops l w1 = Some w' -> nth_error w' (length w) = Some d' -> writes d' (Ok ar) -> In (RELS_NAME, Some x) ar -> in_namespace ns x.
Proof.
  intros ns a w w1 l w' d' ar x E [K1 K2]. apply parsed_saved; auto. intros s g g' I P. destruct (K2 s I) as (at_s & B & D). rewrite (part_ns _ _ _ _ B P). now apply some_ns.
Qed.
Lemma prefixed_saved : forall a w w1 l w' d' ar x, relationships_are declares_none a ->
  parse a w = Ok w1 -> run_ops l w1 = Some w' -> nth_error w' (length w) = Some d' -> writes d' (Ok ar) -> In (RELS_NAME, Some x) ar -> in_namespace OFFICE_NS x.
Proof.
  intros a w w1 l w' d' ar x [K1 K2]. apply parsed_saved; auto using office_plain. intros s g g' I P. destruct (K2 s I) as (at_s & B & D). rewrite (part_ns _ _ _ _ B P). now apply none_ns.
Qed.
Lemma missing_saved : forall a w w1 l w' d' ar x, ~ In RELS_NAME (map fst a) ->
  parse a w = Ok w1 -> run_ops l w1 = Some w' -> nth_error w' (length w) = Some d' -> writes d' (Ok ar) -> In (RELS_NAME, Some x) ar -> in_namespace "" x.
Proof.
  intros a w w1 l w' d' ar x K. apply parsed_saved; auto. intros s g g' I. exfalso. apply K. now apply (in_map fst) in I.
Qed.
End WithL.
