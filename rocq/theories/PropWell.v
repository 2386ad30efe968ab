(** C73: nothing but XML is loaded. *)
From Coq Require Import String Ascii List Bool Arith NArith ZArith.
From Verif Require Import GoStr Num Lib Types XmlTok Unmarshal Docx Lex Pack SpecNum SpecStrict SpecLex SpecForm SpecPack SpecError RelsFacts SpellFacts2 FormFacts ErrorFacts WellFacts PropStrict.
Import ListNotations.
Local Open Scope list_scope.
Local Open Scope string_scope.

(** The relationship part is accepted exactly if it starts with an element of the
    grammar in which every child Relationship has an id of the form rId and a
    number below 2^64. *)
Theorem C73_relationships : forall (L : GoLib) s w, (exists w', parse [("word/_rels/document.xml.rels", Some s)] w = Ok w') <->
  exists q a c, begins_with (Elem q a c) s /\ forall q' a' c', In (Elem q' a' c') c -> snd q' = "Relationship" -> numbered a'.
Proof. exact rels_exactly. Qed.
Print Assumptions C73_relationships.

(** The main part, if its numbers are readable, is accepted only if it starts
    with an element of the grammar. *)
Theorem C73_document : forall (L : GoLib) f s, numeric (lex s) -> snd (parse_document f (lex s)) = SOk -> exists q a c, begins_with (Elem q a c) s.
Proof. exact main_well_formed. Qed.
Print Assumptions C73_document.

(** Whole packages. *)
Theorem C73_package : forall (L : GoLib) z w w', NoDup (map fst z) -> parse z w = Ok w' ->
  (forall s, In ("word/_rels/document.xml.rels", Some s) z -> exists q a c, begins_with (Elem q a c) s) /\
  (forall s, In ("word/document.xml", Some s) z -> numeric (lex s) -> exists q a c, begins_with (Elem q a c) s).
Proof. exact parts_well_formed. Qed.
Print Assumptions C73_package.

(** a part that is accepted although it has no declaration, another root element
    and something that is not XML behind it; and parts that begin with no element:
    no element at all, one that is not closed, one that is closed by another, text
    with a stray "&" in front, an attribute without quotes, an end tag in front *)
Definition ex_good : string := "<!-- a --><r><Relationship Id='rId7' Target='a&amp;b'/>x<s/></r >&&&".
Definition ex_bad : list string := [""; "a"; "<r>"; "<r></s>"; "&<r/>"; "<r a=b/>"; "</r><r/>"; "<r><Relationship Id='rId7'></r>"].
Example C73_ex : begins_with (Elem ("", "r") [] [Elem ("", "Relationship") [(("", "Id"), "rId7"); (("", "Target"), "a&b")] []; Chr "x"; Elem ("", "s") [] []]) ex_good /\
  numbered [(("", "Id"), "rId7"); (("", "Target"), "a&b")] /\
  (exists w', @parse ex_lib [("word/_rels/document.xml.rels", Some ex_good)] [] = Ok w') /\
  Forall (fun s => exists e, @parse ex_lib [("word/_rels/document.xml.rels", Some s)] [] = Err e) ex_bad.
Proof.
  split; [|split; [|split]].
  - apply begins_lex. exists [Cmt], [TErr]. split; [repeat constructor|]. vm_compute. reflexivity.
  - rewrite numbered_iff. exists 7%N. rewrite <- id_number_spec. reflexivity.
  - eexists. vm_compute. reflexivity.
  - unfold ex_bad. repeat (constructor; [eexists; vm_compute; reflexivity|]). constructor.
Qed.
(** a main part that meets the hypotheses *)
Definition ex_main : string := "<w:document><w:body><w:p/></w:body></w:document>".
Example C73_ex_main : @numeric ex_lib (lex ex_main) /\ snd (@parse_document ex_lib None (lex ex_main)) = SOk /\
  (exists w', @parse ex_lib [("word/_rels/document.xml.rels", Some ex_good); ("word/document.xml", Some ex_main)] [] = Ok w').
Proof.
  split; [|split].
  - intros q a I. change (lex ex_main) with (toks (Elem ("w", "document") [] [Elem ("w", "body") [] [Elem ("w", "p") [] []]])) in I.
    cbn in I. repeat (destruct I as [I|I]; [try discriminate I; injection I as <- <-|]); try contradiction; intros q' v [].
  - vm_compute. reflexivity.
  - eexists. vm_compute. reflexivity.
Qed.
