(** Properties of the ways to write the same XML. *)
From Coq Require Import String Ascii List Bool Arith NArith ZArith Lia.
From Verif Require Import GoStr Num Lib Types XmlTok Marshal Unmarshal Reload Lex SpecLex SpecForm FormFacts SpellFacts2 PropXml.
Import ListNotations.
Local Open Scope list_scope.
Local Open Scope string_scope.

(** C50: the tokens read from a file are those of a list of trees exactly when
    the file spells that list: they depend on the trees only, not on how they
    are written, and nothing that is not a spelling is read to its end. *)
Theorem C50_exactly_the_spellings : forall l s, lex s = ftoks l <-> list_spelling l s.
Proof. exact lex_exact. Qed.
Print Assumptions C50_exactly_the_spellings.

(** So every file that holds the XML of a document loads as that document. *)
Theorem C50_loads_the_same : forall (L : GoLib) f items pre post s,
  Forall (fun t => match t with Elem _ _ _ => False | _ => True end) pre ->
  list_spelling (pre ++ m_document items :: post)%list s -> parse_document f (lex s) = (map (reload_item f) items, SOk).
Proof. exact @spelled_loads. Qed.
Print Assumptions C50_loads_the_same.

(** What the package writes is one of the spellings; the declaration in front
    counts as a comment. *)
Theorem C50_written_is_a_spelling : forall t, (exists q a c, t = Elem q a c) -> good_shape t = true -> Forall xml_string (values t) ->
  list_spelling [Cmt; Chr (String "010" ""); t] (write_xml t).
Proof. exact writes_spelling. Qed.
Print Assumptions C50_written_is_a_spelling.

(** a document written by hand: no end tag for the empty paragraph, apostrophes,
    references, a CDATA section, a comment and a processing instruction in front *)
Definition ex_items : list item :=
  [IPara (mk_para None [] (Some 0));
   IPara (mk_para None [PRun (mk_runR "" None "" [RText (mk_text "" ("a<" ++ encode 2048)); RText (mk_text "" "x & y")])] (Some 0))].
Definition ex_attr (a : attr) : string := " " ++ name (fst a) ++ "='" ++ snd a ++ "'".
Definition ex_start : string := "<w:document" ++ sconcat (map ex_attr doc_attrs) ++ " >".
Definition ex_file : string :=
  "<!-- a comment --><?target  data?>" ++ ex_start ++
  "<w:body><w:p/><w:p ><w:r><w:t>&#97;&lt;&#x0800;</w:t><w:t><![CDATA[x & y]]></w:t></w:r></w:p></w:body></w:document >".

Lemma ex_spelling : list_spelling [Cmt; Cmt; m_document ex_items] ex_file.
Proof. apply lex_exact. vm_compute. reflexivity. Qed.
Example C50_ex : list_spelling [Cmt; Cmt; m_document ex_items] ex_file /\ lex ex_file = ftoks [Cmt; Cmt; m_document ex_items] /\
  @parse_document ex_lib (Some 0) (lex ex_file) = (ex_items, SOk).
Proof. split; [apply ex_spelling|]. split; vm_compute; reflexivity. Qed.

(** a document type declaration with a comment, a quoted bracket and a nested
    declaration *)
Definition ex_doctype : string := "<!DOCTYPE w [<!-- ' --><!ENTITY e '>'>]>".
Example C50_ex_doctype : list_spelling [Cmt; Cmt; Cmt; m_document ex_items] (ex_doctype ++ ex_file) /\
  lex (ex_doctype ++ ex_file) = ftoks [Cmt; Cmt; Cmt; m_document ex_items].
Proof. split; [apply lex_exact|]; vm_compute; reflexivity. Qed.

(** none of these is a spelling of anything: an unknown entity, a tag that is
    not closed, "]]>" in text, an attribute without quotes, two hyphens in a
    comment, a declaration of another version, a reference to a character that
    XML does not allow *)
Example C50_ex_not : Forall (fun s => forall l, ~ list_spelling l s)
  ["<a>&nbsp;</a>"; "<a"; "<a>]]></a>"; "<a b=c/>"; "<!-- a -- b --><a/>"; "<?xml version='1.1'?><a/>"; "<a>&#0;</a>"].
Proof.
  assert (N : forall l r, (r ++ [TErr])%list <> ftoks l).
  { intros l r E. apply (not_in_ftoks l). rewrite <- E. apply in_or_app. right. now left. }
  repeat constructor; intros l H; apply lex_exact in H; revert H; vm_compute lex.
  all: match goal with |- ?x = _ -> _ => let r := eval vm_compute in (removelast x) in exact (N l r) end.
Qed.

(** names with letters beyond ASCII are names; a multiplication sign, a lone
    combining mark and bytes that are not UTF-8 are not *)
Example C50_ex_names :
  map (fun n => lex ("<" ++ n ++ "/>"))
    ["w:größe"; "w:名"; utf8 215; utf8 768; "a" ++ utf8 768; "a" ++ String (a_of 255) ""] =
  [[TStart ("w", "größe") []; TEnd ("w", "größe")]; [TStart ("w", "名") []; TEnd ("w", "名")]; [TErr]; [TErr];
   [TStart ("", "a" ++ utf8 768) []; TEnd ("", "a" ++ utf8 768)]; [TErr]].
Proof. vm_compute. reflexivity. Qed.
