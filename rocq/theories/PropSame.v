(** Property theorems: what the loader does not look at. *)
From Coq Require Import String Ascii List Bool Arith NArith ZArith Relations.
From Verif Require Import GoStr Num Lib Types XmlTok Marshal Unmarshal Docx Reload Lex SpecLex SpecForm SpecSkip SkipFacts SkipFacts2 SkipFacts3 SameWit.
Import ListNotations.
Local Open Scope string_scope.
Local Open Scope list_scope.

(** C56: two documents that differ only in prefixes, in attributes and elements
    of unknown names, and in comments and text between the elements, load as the
    same document. *)
Theorem C56_same_to_loader : forall (L : GoLib) f t t', same_to_loader t t' -> parse_document f (toks t) = parse_document f (toks t').
Proof. exact @parse_same. Qed.
Print Assumptions C56_same_to_loader.

(** The same for files, however the two documents are written in them. *)
Theorem C56_files : forall (L : GoLib) f t t' pre pre' post s s', Forall misc pre -> Forall misc pre' -> Forall misc post -> same_to_loader t t' ->
  list_spelling (pre ++ t :: post) s -> list_spelling (pre' ++ t' :: post) s' -> parse_document f (lex s) = parse_document f (lex s').
Proof. exact @files_same. Qed.
Print Assumptions C56_files.

(** A file that differs from what is saved only in these ways loads as the saved
    document. *)
Theorem C56_saved_document : forall (L : GoLib) f items t pre post s, Forall misc pre -> Forall misc post ->
  same_to_loader (m_document items) t -> list_spelling (pre ++ t :: post) s -> parse_document f (lex s) = (map (reload_item f) items, SOk).
Proof. exact @file_loads. Qed.
Print Assumptions C56_saved_document.

(** Among these are all ways to lay out the saved document for reading. *)
Theorem C56_laid_out : forall items t, indents (m_document items) t -> same_to_loader (m_document items) t.
Proof. exact saved_laid_out. Qed.
Print Assumptions C56_laid_out.

(** Whether two documents differ only in these ways can be computed: take out
    everything that does not count and compare what is left. *)
Theorem C56_trimmed : forall t t', sturdy t -> sturdy t' -> (same_to_loader t t' <-> trimmed t = trimmed t').
Proof. exact same_iff_trimmed. Qed.
Print Assumptions C56_trimmed.
Theorem C56_trimmed_loads : forall (L : GoLib) f t, sturdy t -> parse_document f (toks t) = parse_document f (toks (trimmed t)).
Proof. exact @trimmed_loads. Qed.
Print Assumptions C56_trimmed_loads.

(** The exceptions are needed. For every element said to take no content, a
    comment, white space or an extension list in it makes loading fail. *)
Theorem C56_solid_refuted : forall (L : GoLib) l x, In l solid -> In x [Cmt; Chr " "; Elem ("a", "extLst") [] []] ->
  exists t t', puts x l t t' /\ snd (parse_document None (toks t)) = SOk /\ snd (parse_document None (toks t')) <> SOk.
Proof. exact @solid_needed. Qed.
Print Assumptions C56_solid_refuted.
(** White space in front of the choices of alternate content; a comment in a
    text; an element of unknown name among the tab stops; an element or an
    attribute with a known local name from a foreign namespace. *)
Theorem C56_fragile_refuted : forall (L : GoLib), exists t t', puts (Chr " ") fragile t t' /\ snd (parse_document None (toks t)) = SOk /\ snd (parse_document None (toks t')) <> SOk.
Proof. exact @fragile_needed. Qed.
Print Assumptions C56_fragile_refuted.
Theorem C56_text_refuted : forall (L : GoLib), exists p a s1 s2, s1 <> "" /\ s2 <> "" /\
  texts (parse_document None (toks (nest p a [Chr (s1 ++ s2)%string]))) = [(s1 ++ s2)%string] /\ texts (parse_document None (toks (nest p a [Chr s1; Cmt; Chr s2]))) = [s2].
Proof. exact @text_needed. Qed.
Print Assumptions C56_text_refuted.
Theorem C56_tabs_refuted : forall (L : GoLib), exists x t t', (exists q a c, x = Elem q a c /\ ~ In (snd q) known) /\ puts x "tabs" t t' /\
  parse_document None (toks t) <> parse_document None (toks t').
Proof. exact @tabs_needed. Qed.
Print Assumptions C56_tabs_refuted.
Theorem C56_namespace_refuted : forall (L : GoLib), exists a c t t', puts (Elem ("foreign", "p") a c) "body" t t' /\ parse_document None (toks t) <> parse_document None (toks t').
Proof. exact @namespace_needed. Qed.
Print Assumptions C56_namespace_refuted.
Theorem C56_declaration_refuted : forall (L : GoLib), exists p a v, snd (parse_document None (toks (last_with p a))) = SOk /\
  snd (parse_document None (toks (last_with p (a ++ [(("xmlns", "w"), v)])))) <> SOk.
Proof. exact @declaration_needed. Qed.
Print Assumptions C56_declaration_refuted.

(** a document as it is saved, and the same document as it might come from
    another program *)
Definition ex_saved : tree := Elem ("w", "document") [(("xmlns", "w"), "http://schemas.openxmlformats.org/wordprocessingml/2006/main")] [Elem ("w", "body") [] [
  Elem ("w", "p") [] [
    Elem ("w", "pPr") [] [Elem ("w", "tabs") [] [Elem ("w", "tab") [(("w", "val"), "left"); (("w", "pos"), "720")] []]; Elem ("w", "jc") [(("w", "val"), "center")] []];
    Elem ("w", "r") [] [Elem ("w", "rPr") [] [Elem ("w", "b") [] []]; Elem ("w", "t") [(("xml", "space"), "preserve")] [Chr "hello "]]]]].
Definition nl (n : nat) : tree := Chr (String "010" (sconcat (repeat "  " n))).
Definition ex_other : tree := Elem ("", "document") [(("", "xmlns"), "http://schemas.openxmlformats.org/wordprocessingml/2006/main"); (("mc", "Ignorable"), "w14")] [Cmt; nl 1;
  Elem ("", "background") [(("", "color"), "FFFFFF")] []; nl 1;
  Elem ("", "body") [] [nl 2;
    Elem ("", "p") [(("", "rsidR"), "00A1"); (("w14", "paraId"), "1")] [nl 3;
      Elem ("", "bookmarkStart") [(("", "id"), "0")] []; nl 3;
      Elem ("", "pPr") [] [nl 4; Elem ("", "keepNext") [] []; Elem ("", "tabs") [] [nl 5; Elem ("", "tab") [(("", "val"), "left"); (("", "leader"), "dot"); (("", "pos"), "720")] []; nl 4];
        nl 4; Elem ("", "jc") [(("", "val"), "center")] [Cmt]; nl 3];
      Elem ("", "r") [(("", "rsidRPr"), "00A2")] [nl 4; Elem ("", "rPr") [] [Elem ("", "b") [] []; Elem ("", "lang") [(("", "val"), "de-DE")] []]; nl 4;
        Elem ("", "t") [(("xml", "space"), "preserve")] [Chr "hello "]; nl 3];
      Elem ("", "bookmarkEnd") [(("", "id"), "0")] []; nl 2]; nl 1]; nl 0].

Example C56_ex_sturdy : sturdy ex_saved /\ sturdy ex_other.
Proof. cbn. repeat split; intros; try discriminate. Qed.
Example C56_ex_same : same_to_loader ex_saved ex_other.
Proof. apply C56_trimmed; [apply C56_ex_sturdy|apply C56_ex_sturdy|]. vm_compute. reflexivity. Qed.
Example C56_ex_loads : exists p, @parse_document ex_lib None (toks ex_other) = ([IPara p], SOk) /\ List.length (para_children p) = 1.
Proof. eexists. split; [vm_compute; reflexivity|reflexivity]. Qed.
(** a saved document laid out *)
Example C56_ex_laid_out : indents (m_document [IPara (mk_para None [] None)])
  (Elem (w "document") doc_attrs [nl 1; Elem (w "body") [] [Cmt; nl 2; Elem (w "p") [] []; nl 1]; nl 0]).
Proof.
  unfold m_document, m_document_of. apply ind_elem; [discriminate|repeat constructor|].
  apply ial_text, ial_child; [|apply ial_text, ial_nil]. apply ind_elem; [discriminate|repeat constructor|].
  apply ial_misc, ial_text, ial_child; [apply ind_same|apply ial_text, ial_nil].
Qed.
(** prefixes are not enough: with an attribute that counts it is another document *)
Example C56_ex_other : ~ same_to_loader ex_saved (Elem ("w", "document") [] []).
Proof. intros S. apply same_trimmed in S. vm_compute in S. discriminate. Qed.
