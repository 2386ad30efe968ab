(** Lemmas for the values of saved documents that come from the file. *)
From Coq Require Import String Ascii List Bool Arith NArith ZArith Lia.
From Verif Require Import GoStr Num Lib Types XmlTok Marshal Unmarshal Docx Lex Rels Pack SpecLex SpecApi SpecPack RegFacts LexFacts LexFacts2 LexFacts3 DecLemmas StableFacts StableFacts2 ValFacts ValFacts2
  PackFacts PackFacts2 PackFacts3 PackFacts5 SpecOrigin.
Import ListNotations.
Local Open Scope string_scope.
Local Open Scope list_scope.

Section Origin.
Context `{GoLib}.
Definition from_attr (ts : list token) (v : string) : Prop := v = "" \/ number v \/ In v (attr_values ts).
Definition from_text (ts : list token) (s : string) : Prop := number s \/ exists l, s = sconcat l /\ forall x, In x l -> In x (texts ts).
Lemma own : forall all ts, (forall t, In t ts -> In t all) -> vts (from_attr all) (fun s => In s (texts all)) ts.
Proof.
  intros all ts I. unfold vts. apply Forall_forall. intros t It. specialize (I t It). destruct t; cbn [vt]; try exact Logic.I.
  - unfold va. apply Forall_forall. intros x Ix. right. right. unfold attr_values. apply in_flat_map. eexists. split; [exact I|]. now apply in_map.
  - unfold texts. apply in_flat_map. eexists. split; [exact I|]. now left.
Qed.
Lemma items_from : forall f ts, Forall (fun x => okt (from_attr ts) (from_text ts) (m_item x)) (fst (parse_document f ts)).
Proof.
  intros f ts.
  assert (V1 : from_attr ts "") by now left. assert (V2 : forall z, from_attr ts (itoa z)) by (intros z; right; left; now exists z).
  assert (W1 : forall l, Forall (fun s => In s (texts ts)) l -> from_text ts (sconcat l)) by (intros l F; right; exists l; split; [reflexivity|now apply Forall_forall]).
  assert (W2 : forall z, from_text ts (itoa z)) by (intros z; left; now exists z).
  eapply Forall_impl; [|apply (v_parse (from_attr ts)) with (C := fun s => In s (texts ts)) (W := from_text ts)]; auto; [|apply own; auto].
  intros x. apply k_item with (C := fun s => In s (texts ts)); auto.
Qed.
Lemma okt_from : forall V W l, Forall (wt V W) l -> (forall v, In v (attr_values l) -> V v) /\ (forall s, In s (texts l) -> W s).
Proof.
  intros V W l F. rewrite Forall_forall in F. split.
  - intros v I. apply in_flat_map in I as (t & It & I). specialize (F t It). destruct t; try contradiction. apply in_map_iff in I as (x & <- & I). cbn [wt] in F. unfold va in F. rewrite Forall_forall in F. now apply F.
  - intros s I. apply in_flat_map in I as (t & It & I). specialize (F t It). destruct t; try contradiction. destruct I as [<-|[]]. exact F.
Qed.
Lemma body_written : forall (b : bool) f s, written_from lex s (write_xml (m_document_of (if b then doc_attrs else no_attrs) (fst (parse_document f (lex s))))).
Proof.
  intros b f s. set (items := fst (parse_document f (lex s))).
  assert (X : Forall xml_string (values (m_document_of (if b then doc_attrs else no_attrs) items))).
  { pose proof (loaded_xml f s) as K. fold items in K. destruct b; [exact K|]. unfold m_document, m_document_of in *. rewrite values_elem in *. apply Forall_app in K as [_ K]. apply Forall_app. split; [|exact K].
    repeat constructor. apply xml_nil. }
  red. rewrite lex_write; [|unfold m_document_of; eauto|apply ok_document_of|exact X]. unfold m_document_of.
  match goal with |- context [toks (Elem ?q ?a ?c)] => exists q, a, (ftoks c ++ [TEnd q]); split; [do 2 f_equal; rewrite <- (app_nil_r (toks (Elem q a c))), toks_elem; reflexivity|]; pose (k := c) end.
  assert (K : Forall (wt (from_attr (lex s)) (from_text (lex s))) (ftoks k)).
  { unfold k, ftoks. cbn [flat_map]. rewrite app_nil_r. apply okt_elem. split; [constructor|]. apply okts_map. apply items_from. }
  apply okt_from. apply Forall_app. split; [exact K|]. repeat constructor.
Qed.

(** ** packages *)
Definition body_of (f : nat) (a : archive) (l : list item) : Prop := exists c s, In (DOC_PART, c) a /\ read_entry (DOC_PART, c) = Some s /\ l = fst (parse_document (Some f) (lex s)).
Lemma unpack_source : forall f l d d', NoDup (map fst l) -> unpack_entries f d l = Ok d' ->
  (~ In DOC_PART (map fst l) -> d_items d' = d_items d) /\ (In DOC_PART (map fst l) -> d_items d = [] -> body_of f l (d_items d')).
Proof.
  intros f. induction l as [|e l IH]; intros d d' N E; cbn [unpack_entries] in E; [injection E as <-; split; [reflexivity|intros []]|].
  apply bind_ok in E. destruct E as (d1 & E1 & E). inversion N as [|? ? N1 N2]; subst. destruct (IH d1 d' N2 E) as [A B].
  destruct (unpack_entry_body _ _ _ _ E1) as [(D & _)|(D & K)].
  - split; [intros I; exfalso; apply I; left; exact D|]. intros _ Z. rewrite A by (now rewrite <- D). unfold unpack_entry in E1. destruct e as [k c]. cbn [fst] in D. subst k.
    change (String.eqb (fst (DOC_PART, c)) RELS_PART) with false in E1. change (String.eqb (fst (DOC_PART, c)) DOC_PART) with true in E1.
    destruct (read_entry (DOC_PART, c)) as [s|] eqn:R; [|discriminate]. exists c, s. split; [now left|]. split; [exact R|].
    unfold parse_doc_part in E1. rewrite Z in E1. unfold parse_document. change (u_document_from (Some f) []) with (u_document (Some f)) in E1.
    destruct (root _ _ _) as (x, st). destruct st; try discriminate. injection E1 as <-. reflexivity.
  - split.
    + intros I. rewrite A, K; [reflexivity|]. intros J. apply I. now right.
    + intros I Z. destruct I as [I|I]; [now destruct D|]. destruct (B I) as (c & s & J & R & Q); [now rewrite K|]. exists c, s. split; [now right|]. auto.
Qed.
Theorem package_written : forall f a d ar s s', ordinary a -> unpack f a = Ok d -> writes d (Ok ar) ->
  In (DOC_NAME, Some s) a -> In (DOC_NAME, Some s') ar -> written_from lex s s'.
Proof.
  intros f a d ar s s' O U W I I'. destruct (written_parts d ar W) as (N & G). apply G in I' as (x & Q & P). injection Q as <-.
  assert (E : s' = write_xml (m_docx d)).
  { assert (P2 : In (DOC_NAME, Some (write_xml (m_docx d))) ar) by (apply G; eexists; split; [reflexivity|apply part_doc]).
    assert (P1 : In (DOC_NAME, Some s') ar) by (apply G; eauto).
    clear -N P1 P2. induction ar as [|[k c] ar IH]; [destruct P1|]. cbn [map fst] in N. inversion N as [|? ? N1 N2]; subst.
    destruct P1 as [P1|P1], P2 as [P2|P2].
    - congruence.
    - injection P1 as -> ->. exfalso. apply N1. apply in_map_iff. eexists. split; [|exact P2]. reflexivity.
    - injection P2 as -> ->. exfalso. apply N1. apply in_map_iff. eexists. split; [|exact P1]. reflexivity.
    - now apply IH. }
  rewrite E. unfold m_docx. unfold unpack in U. apply bind_ok in U. destruct U as (d1 & U & U2).
  destruct (unpack_source _ _ _ _ (proj1 O) U) as [_ B]. destruct B as (c & s0 & J & R & Q); [apply in_map_iff; eexists; split; [|exact I]; reflexivity|reflexivity|].
  assert (c = Some s) as ->.
  { pose proof (proj1 O) as NA. clear -I J NA. induction a as [|[k c'] a IH]; [destruct I|]. cbn [map fst] in NA. inversion NA as [|? ? N1 N2]; subst.
    destruct I as [I|I], J as [J|J].
    - congruence.
    - injection I as -> ->. exfalso. apply N1. apply in_map_iff. eexists. split; [|exact J]. reflexivity.
    - injection J as -> ->. exfalso. apply N1. apply in_map_iff. eexists. split; [|exact I]. reflexivity.
    - now apply IH. }
  assert (s0 = s) as -> by (unfold read_entry in R; cbn [fst snd] in R; destruct (_ && _)%bool in R; congruence).
  assert (D : d_items d = fst (parse_document (Some f) (lex s))) by (injection U2 as <-; exact Q). rewrite D. apply body_written.
Qed.
End Origin.
