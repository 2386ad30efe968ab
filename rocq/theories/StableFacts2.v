(** A document loaded from a file, saved, and loaded from the saved file. *)
From Coq Require Import String Ascii List Bool Arith NArith ZArith Lia.
From Verif Require Import GoStr Num Lib Types XmlTok Marshal Unmarshal Reload Lex SpecLex LexFacts LexFacts2 LexFacts3 SpecStable StableFacts ValFacts ValFacts2.
Import ListNotations.
Local Open Scope list_scope.
Local Open Scope string_scope.

(** ** what the lexer accepts consists of XML characters *)
Lemma legal_xml : forall n s, (String.length s <= n)%nat -> legal s = true -> xml_string s.
Proof.
  induction n as [|n IH]; intros s Ln E; [destruct s; [|cbn in Ln; lia]; exists []; auto|].
  destruct s as [|a s]; [exists []; auto|]. unfold legal in E. cbn [legal_go] in E. destruct (rune_at (String a s)) as [[r k]|] eqn:R; [|discriminate E].
  apply andb_prop in E as [E1 E2]. destruct (rune_inv _ _ _ R) as (s' & Es & -> & _). pose proof (encode_len r).
  destruct (encode r) as [|b t] eqn:Q; [cbn in *; lia|]. cbn [append] in Es. injection Es as <- ->. cbn [String.length pred] in E2. rewrite legal_skip in E2 by reflexivity.
  change (String a (t ++ s')) with (String a t ++ s'). rewrite <- Q. apply xml_string_cons; [now apply range_char|]. apply IH; [|exact E2].
  cbn [String.length] in Ln. rewrite slen_app in Ln. lia.
Qed.
Lemma text_xml : forall q s x r, text q s = Some (x, r) -> xml_string x.
Proof.
  intros q s x r E. unfold text in E. destruct (text_go _ _ _ _ s) as [[y r']|]; [|discriminate E]. destruct (legal y) eqn:K; [|discriminate E].
  injection E as <- _. now apply (legal_xml _ y (le_n _)).
Qed.
Lemma cdata_xml : forall s x r, cdata s = Some (x, r) -> xml_string x.
Proof.
  intros s x r E. unfold cdata in E. destruct (cdata_go _ s) as [[y r']|]; [|discriminate E]. destruct (legal y) eqn:K; [|discriminate E].
  injection E as <- _. now apply (legal_xml _ y (le_n _)).
Qed.
Lemma attrs_xml : forall n s l b r, read_attrs n s = Some (l, b, r) -> va xml_string l.
Proof.
  induction n as [|n IH]; intros s l b r E; [discriminate E|]. cbn [read_attrs] in E.
  repeat match type of E with
  | match text ?q ?s with _ => _ end = _ => let T := fresh in destruct (text q s) as [[? ?]|] eqn:T; [apply text_xml in T|discriminate E]
  | match read_attrs n ?s with _ => _ end = _ => let T := fresh in destruct (read_attrs n s) as [[[? ?] ?]|] eqn:T; [apply IH in T|discriminate E]
  | match ?x with _ => _ end = _ => destruct x; try discriminate E
  end; injection E as <- _ _; try constructor; assumption.
Qed.
Lemma raw_xml : forall s l r, raw_token s = Some (l, r) -> vts xml_string xml_string l.
Proof.
  intros s l r E. unfold raw_token in E.
  repeat match type of E with
  | match text ?q ?s with _ => _ end = _ => let T := fresh in destruct (text q s) as [[? ?]|] eqn:T; [apply text_xml in T|discriminate E]
  | match cdata ?s with _ => _ end = _ => let T := fresh in destruct (cdata s) as [[? ?]|] eqn:T; [apply cdata_xml in T|discriminate E]
  | match read_attrs ?n ?s with _ => _ end = _ => let T := fresh in destruct (read_attrs n s) as [[[? ?] ?]|] eqn:T; [apply attrs_xml in T|discriminate E]
  | match ?x with _ => _ end = _ => destruct x; try discriminate E
  end; injection E as <- _; repeat (constructor; try assumption; try exact I).
Qed.
Lemma lex_xml : forall s, vts xml_string xml_string (lex s).
Proof.
  intros s. unfold lex. generalize (S (String.length s)) as n. intros n. revert s.
  induction n as [|n IH]; intros [|a s]; cbn [lex_n]; try (repeat constructor).
  destruct (raw_token (String a s)) as [[l r]|] eqn:E; [|repeat constructor]. apply Forall_app. split; [now apply raw_xml in E|apply IH].
Qed.

(** ** strings of XML characters *)
Lemma xml_nil : xml_string "". Proof. exists []. auto. Qed.
Lemma xml_app : forall s t, xml_string s -> xml_string t -> xml_string (s ++ t).
Proof.
  intros s t (l & F & ->) X. induction F as [|r l C F IH]; [exact X|]. cbn [map sconcat]. rewrite <- sapp_assoc. now apply xml_string_cons.
Qed.
Lemma xml_cat : forall l, Forall xml_string l -> xml_string (sconcat l).
Proof. intros l F. induction F; [exact xml_nil|]. now apply xml_app. Qed.
Lemma xml_byte : forall n s, (32 <= n < 128)%N -> xml_string s -> xml_string (String (ascii_of_N n) s).
Proof.
  intros n s B X. assert (E : encode n = String (ascii_of_N n) "") by (unfold encode; assert ((n <? 128)%N = true) as -> by (apply N.ltb_lt; lia); reflexivity).
  change (String (ascii_of_N n) s) with (String (ascii_of_N n) "" ++ s). rewrite <- E. apply xml_string_cons; [unfold xml_char; lia|exact X].
Qed.
Lemma xml_utoa : forall n, xml_string (utoa n).
Proof.
  intros n. unfold utoa. generalize (S (N.size_nat n)) as k. intros k.
  assert (G : forall k n acc, xml_string acc -> xml_string (utoa_fuel k n acc)).
  { clear. induction k as [|k IH]; intros n acc X; [exact X|]. cbn [utoa_fuel].
    assert (Y : xml_string (String (digit (n mod 10)) acc)).
    { apply xml_byte; [|exact X]. pose proof (N.mod_lt n 10 ltac:(lia)) as M. set (m := (n mod 10)%N) in *. clearbody m. lia. }
    destruct (n <? 10)%N; [exact Y|now apply IH]. }
  apply G, xml_nil.
Qed.
Lemma xml_itoa : forall z, xml_string (itoa z).
Proof. intros [|p|p]; try apply xml_utoa. cbn [itoa]. change "-"%char with (ascii_of_N 45). apply xml_byte; [lia|apply xml_utoa]. Qed.
Lemma xml_header : Forall xml_string (map snd doc_attrs).
Proof.
  repeat (apply Forall_cons; [cbn [snd]; apply (legal_xml _ _ (le_n _)); vm_compute; reflexivity|]). apply Forall_nil.
Qed.

Section Cycle.
Context `{GoLib}.
Lemma loaded_xml : forall f s, Forall xml_string (values (m_document (fst (parse_document f (lex s))))).
Proof.
  intros f s. apply okt_values. apply (v_written xml_string xml_nil xml_itoa xml_string xml_string xml_cat xml_itoa f xml_header). apply lex_xml.
Qed.
Theorem first_cycle_bytes : forall f s, let items := fst (parse_document f (lex s)) in
  parse_document f (lex (write_xml (m_document items))) = (map reflag_item items, SOk).
Proof. intros f s items. unfold items. rewrite read_document by apply loaded_xml. now rewrite parsed_reload. Qed.
Theorem digits_stay_bytes : forall f s, let items := fst (parse_document f (lex s)) in Forall digit_flag (body_flags items) ->
  parse_document f (lex (write_xml (m_document items))) = (items, SOk).
Proof. intros f s items F. unfold items in *. rewrite first_cycle_bytes. now rewrite reflag_all. Qed.
Theorem later_cycles_bytes : forall f s, let once := fst (parse_document f (lex (write_xml (m_document (fst (parse_document f (lex s))))))) in
  parse_document f (lex (write_xml (m_document once))) = (once, SOk).
Proof.
  intros f s once. apply digits_stay_bytes. rewrite first_cycle_bytes. cbn [fst]. apply body_each. rewrite Forall_map.
  eapply Forall_impl; [|apply st_parse]. intros x [_ B]. now apply reflag_digits.
Qed.
End Cycle.

(** a flag that is not a digit *)
Definition flag_file : string :=
  "<w:document><w:body><w:tbl><w:tblPr><w:tblLook w:val='04A0' w:firstRow='true' w:lastRow='0'/></w:tblPr></w:tbl></w:body></w:document>".
Lemma flag_witness : exists s, forall (L : GoLib) f, let items := fst (parse_document f (lex s)) in
  snd (parse_document f (lex s)) = SOk /\ fst (parse_document f (lex (write_xml (m_document items)))) <> items.
Proof. exists flag_file. intros L f. split; [vm_compute; reflexivity|]. rewrite first_cycle_bytes. vm_compute. discriminate. Qed.
