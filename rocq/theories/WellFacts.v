(** Only well-formed XML is loaded. *)
From Coq Require Import String Ascii List Bool Arith NArith ZArith Lia.
From Verif Require Import GoStr Num Lib Types XmlTok Unmarshal Docx Lex Rels Api Pack SpecNum SpecStrict SpecLex SpecApi SpecPack SpecForm SpecError
  DecLemmas RoundTrip2 RelsFacts StrictFacts2 ReadFacts3 FormFacts SkipFacts ErrorFacts.
Import ListNotations.
Local Open Scope list_scope.
Local Open Scope string_scope.

Lemma skip_twice : forall ts a b r, skip_from (a + S b) ts = (SOk, r) -> exists r1, skip_from a ts = (SOk, r1) /\ skip_from b r1 = (SOk, r).
Proof.
  induction ts as [|t ts IH]; intros a b r E; [discriminate|].
  destruct t; cbn [skip_from] in *; try discriminate; try (now apply IH).
  destruct a as [|a]; cbn [Nat.add] in E; [exists ts; auto|now apply IH].
Qed.
(** in a checked stream, what Skip passes over is a forest and the end element *)
Lemma skip_inv : forall n us q open r, length us < n -> ~ In TEof us -> skip (check (q :: open) us) = (SOk, r) ->
  exists c us', us = (ftoks c ++ TEnd q :: us')%list /\ r = check open us'.
Proof.
  induction n as [|n IH]; intros us q open r N NE E; [lia|].
  destruct us as [|t us]; [discriminate|]. cbn [length] in N. assert (NE' : ~ In TEof us) by (intros I; apply NE; now right).
  destruct t; cbn [check skip skip_from] in E; try discriminate.
  - apply (skip_twice _ 0 0) in E as (r1 & E1 & E2). destruct (IH us q0 (q :: open) r1) as (c & us' & -> & ->); auto; [lia|].
    rewrite app_length in N. cbn [length] in N.
    destruct (IH us' q open r) as (c' & us'' & -> & ->); auto; [lia| |].
    { intros I. apply NE'. apply in_or_app. right. now right. }
    exists (Elem q0 a c :: c'), us''. split; auto. rewrite ftoks_cons, toks_elem. cbn [app]. now rewrite <- !app_assoc.
  - destruct (_ && _)%bool eqn:B; [|discriminate]. apply andb_true_iff in B as [B1 B2]. apply String.eqb_eq in B1, B2.
    cbn in E. injection E as <-. exists [], us. destruct q0, q. cbn in B1, B2. subst. auto.
  - destruct (IH us q open r) as (c & us' & -> & ->); auto; [lia|]. exists (Chr s :: c), us'. auto.
  - destruct (IH us q open r) as (c & us' & -> & ->); auto; [lia|]. exists (Cmt :: c), us'. auto.
  - destruct NE. now left.
Qed.
Lemma rels_inv : forall n l us q l', ~ In TEof us -> rels_n n l (check [q] us) = (l', SOk) ->
  exists c us', us = (ftoks c ++ TEnd q :: us')%list.
Proof.
  induction n as [|n IH]; intros l us q l' NE E; [discriminate|].
  destruct us as [|t us]; [discriminate|]. assert (NE' : ~ In TEof us) by (intros I; apply NE; now right).
  destruct t; cbn [check rels_n] in E; try discriminate.
  - destruct (skip (check [q0; q] us)) as [st r] eqn:S. destruct st; try discriminate.
    destruct (skip_inv (Datatypes.S (length us)) us q0 [q] r) as (c & us' & -> & ->); auto.
    assert (NE2 : ~ In TEof us') by (intros I; apply NE', in_or_app; right; now right).
    destruct (IH _ us' q _ NE2 E) as (c' & us'' & ->).
    exists (Elem q0 a c :: c'), us''. rewrite ftoks_cons, toks_elem. cbn [app]. now rewrite <- !app_assoc.
  - destruct (_ && _)%bool eqn:B; [|discriminate]. apply andb_true_iff in B as [B1 B2]. apply String.eqb_eq in B1, B2.
    exists [], us. destruct q0, q. cbn in B1, B2. subst. auto.
  - destruct (IH _ us q _ NE' E) as (c & us' & ->). exists (Chr s :: c), us'. auto.
  - destruct (IH _ us q _ NE' E) as (c & us' & ->). exists (Cmt :: c), us'. auto.
  - destruct NE. now left.
Qed.
Lemma root_inv : forall us ns l x y, ~ In TEof us -> rels_root ns l (check [] us) = (x, y, SOk) ->
  exists pre q a c us', us = (ftoks pre ++ toks (Elem q a c) ++ us')%list /\ Forall misc pre.
Proof.
  induction us as [|t us IH]; intros ns l x y NE E; [discriminate|]. assert (NE' : ~ In TEof us) by (intros I; apply NE; now right).
  destruct t; cbn [check rels_root] in E; try discriminate.
  - destruct (rels_n _ _ _) as [l' st] eqn:R. injection E as _ _ ->. apply rels_inv in R as (c & us' & ->); auto.
    exists [], q, a, c, us'. rewrite toks_elem. cbn [ftoks flat_map app]. split; [|constructor]. cbn [app]. f_equal.
  - destruct (IH _ _ _ _ NE' E) as (pre & q & a & c & us' & -> & M). exists (Chr s :: pre), q, a, c, us'. split; auto. constructor; cbn; auto.
  - destruct (IH _ _ _ _ NE' E) as (pre & q & a & c & us' & -> & M). exists (Cmt :: pre), q, a, c, us'. split; auto. constructor; cbn; auto.
  - destruct NE. now left.
Qed.

(** what stands behind the root element does not matter *)
Lemma spelled_snoc : forall pre q a c s s2, list_spelling (pre ++ [Elem q a c])%list s ->
  lex (s ++ s2) = (ftoks pre ++ toks (Elem q a c) ++ lex s2)%list.
Proof.
  intros pre q a c. induction pre as [|t pre IH]; intros s s2 H; cbn [app] in H.
  - inversion H as [|? ? ? ? T N|]; subst. inversion N; subst. rewrite GoStr.sapp_nil_r. apply (proj1 spelled_lex_both _ _ T).
  - inversion H as [|t' s1 l s' T N|v s1 l s' NE SP X L N B]; subst.
    + rewrite <- GoStr.sapp_assoc, (proj1 spelled_lex_both _ _ T), (IH _ s2 N). rewrite ftoks_cons. now rewrite <- app_assoc.
    + rewrite <- GoStr.sapp_assoc.
      assert (B' : FormFacts.breaks (s' ++ s2)).
      { destruct B as [->|(u & ->)]; [|right; eexists; reflexivity]. exfalso.
        destruct pre as [|t' pre]; cbn [app] in N.
        - inversion N as [|t0 s0 ? ? T ? E1 E2|]. apply markup_lt in T as (u & ->). discriminate.
        - inversion N as [|t0 s0 ? ? T ? E1 E2|v0 s0 ? ? NN ? ? ? ? ? E1 E2]; [apply markup_lt in T as (u & ->); discriminate|]. destruct s0; [now apply NN|discriminate]. }
      pose proof (ls_text v s1 [] "" NE SP X L ls_nil (or_introl eq_refl)) as S1. rewrite GoStr.sapp_nil_r in S1.
      rewrite (proj2 spelled_lex_both _ _ S1 _ B'), (IH _ s2 N). reflexivity.
Qed.

Lemma begins_lex : forall q a c s, begins_with (Elem q a c) s <-> exists pre rest, Forall misc pre /\ lex s = (ftoks pre ++ toks (Elem q a c) ++ rest)%list.
Proof.
  intros q a c s. split.
  - intros (pre & s1 & s2 & -> & H & M). exists pre, (lex s2). split; auto. now apply spelled_snoc.
  - intros (pre & rest & M & E). destruct (lex_split (pre ++ [Elem q a c])%list s rest) as (s1 & s2 & -> & _ & H); [|exists pre, s1, s2; auto].
    rewrite E. unfold ftoks. rewrite flat_map_app. cbn [flat_map]. now rewrite app_nil_r, app_assoc.
Qed.

Lemma rels_reads : forall pre q a c s w rest, Forall misc pre -> lex s = (ftoks pre ++ toks (Elem q a c) ++ rest)%list -> forall (L : GoLib),
  ((exists w', parse [(RELS_PART, Some s)] w = Ok w') <->
   forall q' a' c', In (Elem q' a' c') c -> snd q' = "Relationship" -> numbered a').
Proof.
  intros pre q a c s w rest M E L.
  assert (P : parse_doc_relation s (mk_reg [] "" [] [] 0 0 0 []) =
    match max_id (flat_map rel_of c) 0 with
    | Some m => Ok (mk_reg (flat_map rel_of c) (fold_left ns_attr a XMLNS_R) [] [] m 0 0 [])
    | None => Err ERR_RELID
    end).
  { unfold parse_doc_relation. rewrite E. cbn [rels]. rewrite rels_misc by assumption. rewrite check_tree, toks_elem. cbn [rels_root app].
    rewrite (rels_forest c []); [reflexivity|]. rewrite app_length. pose proof (forest_length c). cbn [length]. lia. }
  assert (Q : (exists w', parse [(RELS_PART, Some s)] w = Ok w') <-> Forall has_num (flat_map rel_of c)).
  { unfold parse. rewrite alone. unfold unpack_entry. cbn [fst]. rewrite String.eqb_refl.
    change (read_entry (RELS_PART, Some s)) with (Some s). cbn [blank d_reg]. rewrite P.
    split.
    - intros [w' X]. destruct (max_id (flat_map rel_of c) 0) as [m|] eqn:EM; [|discriminate]. eapply max_id_inv; eauto.
    - intros F. destruct (max_id_some _ 0%N F) as (k & -> & _). cbn. eauto. }
  rewrite Q, Forall_forall. split.
  - intros F q' a' c' I N. apply numbered_iff, F, in_flat_map. exists (Elem q' a' c'). split; auto. cbn. rewrite N. now left.
  - intros F r I. apply in_flat_map in I. destruct I as [[q' a' c'|x|] [I J]]; try destruct J. cbn in J.
    destruct (String.eqb_spec (snd q') "Relationship") as [N|N]; [|destruct J]. destruct J as [<-|[]]. apply numbered_iff. eauto.
Qed.
Lemma rels_exactly : forall (L : GoLib) s w, (exists w', parse [(RELS_PART, Some s)] w = Ok w') <->
  exists q a c, begins_with (Elem q a c) s /\ forall q' a' c', In (Elem q' a' c') c -> snd q' = "Relationship" -> numbered a'.
Proof.
  intros L s w. split.
  - intros H. assert (X : exists pre q a c us', lex s = (ftoks pre ++ toks (Elem q a c) ++ us')%list /\ Forall misc pre).
    { destruct H as [w' H]. unfold parse in H. rewrite alone in H. unfold unpack_entry in H. cbn [fst] in H. rewrite String.eqb_refl in H.
      change (read_entry (RELS_PART, Some s)) with (Some s) in H. cbn [blank d_reg] in H. unfold parse_doc_relation in H.
      destruct (rels_root _ _ _) as [[x y] st] eqn:R. destruct st; try discriminate. now apply root_inv in R; [|apply lex_no_mark]. }
    destruct X as (pre & q & a & c & us' & E & M). exists q, a, c. split; [apply begins_lex; eauto|]. now apply (rels_reads pre q a c s w us' M E L).
  - intros (q & a & c & O & N). apply begins_lex in O as (pre & rest & M & E). now apply (rels_reads pre q a c s w rest M E L).
Qed.

Lemma prolog_misc : forall (L : GoLib) f pre us, prolog pre -> ~ In TEof pre -> snd (parse_document f (pre ++ us)%list) = SOk ->
  exists l, pre = ftoks l /\ Forall misc l.
Proof.
  intros L f pre us P. unfold parse_document. induction P as [|t pre H P IH]; intros NE E; [exists []; auto|].
  assert (NE' : ~ In TEof pre) by (intros I; apply NE; now right).
  destruct t; try contradiction; cbn [app check root] in E; try discriminate.
  - destruct (IH NE' E) as (l & -> & F). exists (Chr s :: l). split; [reflexivity|]. constructor; [exact I|exact F].
  - destruct (IH NE' E) as (l & -> & F). exists (Cmt :: l). split; [reflexivity|]. constructor; [exact I|exact F].
  - destruct NE. now left.
Qed.
Lemma main_well_formed : forall (L : GoLib) f s, numeric (lex s) -> snd (parse_document f (lex s)) = SOk -> exists q a c, begins_with (Elem q a c) s.
Proof.
  intros L f s N E. pose proof (lex_no_mark s) as NE. destruct (loaded_well_formed L f _ N NE E) as (pre & q & a & c & post & EL & P).
  rewrite EL in E, NE. destruct (prolog_misc L f pre _ P (fun I => NE (in_or_app _ _ _ (or_introl I))) E) as (l & -> & F).
  exists q, a, c. apply begins_lex. exists l, post. auto.
Qed.
Lemma parts_well_formed : forall (L : GoLib) z w w', NoDup (map fst z) -> parse z w = Ok w' ->
  (forall s, In ("word/_rels/document.xml.rels", Some s) z -> exists q a c, begins_with (Elem q a c) s) /\
  (forall s, In ("word/document.xml", Some s) z -> numeric (lex s) -> exists q a c, begins_with (Elem q a c) s).
Proof.
  intros L z w w' ND P. assert (NR : forall e, In e z -> ~ refused w e).
  { intros e I R. destruct (proj2 (parse_fails z w ND) (ex_intro _ e (conj I R))) as [err E]. congruence. }
  split; intros s I.
  - specialize (NR _ I). destruct (parse [("word/_rels/document.xml.rels", Some s)] w) as [w1|e|] eqn:E.
    + destruct (proj1 (rels_exactly L s w) (ex_intro _ w1 E)) as (q & a & c & B & _). eauto.
    + elim NR. now exists e.
    + now apply parse_no_panic in E.
  - intros N. apply (main_well_formed L (Some (length w)) s N). specialize (NR _ I).
    destruct (snd (parse_document (Some (length w)) (lex s))) eqn:E; auto; elim NR; apply main_refused; rewrite E; discriminate.
Qed.
