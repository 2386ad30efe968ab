(** Properties of what a successful load has read. *)
From Coq Require Import String Ascii List Bool Arith NArith ZArith.
From Verif Require Import GoStr Num Lib Types XmlTok Unmarshal SpecXml SpecStrict SpecBefore StrictFacts2 LocFacts2.
Import ListNotations.
Local Open Scope string_scope.
Local Open Scope list_scope.

(** a library instance for the examples *)
Definition ex_lib : GoLib := {| lib_float := fun _ => None; lib_md5 := fun s => s; lib_imgsize := fun _ => None |}.

(** C33, second half. The full claim "a syntax error inside the root element
    always yields an error" is false: *)
Theorem C33_refuted : exists ts, ~ In TEof ts /\
  (forall pre q a c post, prolog pre -> ts <> pre ++ toks (Elem q a c) ++ post) /\
  forall (L : GoLib) f, lib_float "false" = None -> snd (parse_document f ts) = SOk.
Proof. exact unclosed_witness. Qed.
Print Assumptions C33_refuted.

(** It holds when no number makes GetInt fail with "expected ...": whatever
    loads without an error starts with one complete well-formed element. *)
Theorem C33_syntax_errors_partial : forall (L : GoLib) f ts, numeric ts -> ~ In TEof ts ->
  snd (parse_document f ts) = SOk ->
  exists pre q a c post, ts = pre ++ toks (Elem q a c) ++ post /\ prolog pre.
Proof. exact @loaded_well_formed. Qed.
Print Assumptions C33_syntax_errors_partial.

(** C49 on the same domain: one item for every paragraph, table and section
    element of the body, in the same order. *)
Theorem C49_whole_body_partial : forall (L : GoLib) f ts items, numeric ts -> ~ In TEof ts ->
  parse_document f ts = (items, SOk) ->
  exists pre q a c post, ts = pre ++ toks (Elem q a c) ++ post /\ prolog pre /\ item_names items = item_elements (Elem q a c).
Proof. exact @loaded_whole. Qed.
Print Assumptions C49_whole_body_partial.

(** a stream that meets the hypotheses: a declaration, a document with
    properties that are numbers and others that are not *)
Definition ex_tree : tree :=
  Elem (w "document") [] [Elem (w "background") [] []; Chr " ";
    Elem (w "body") [] [Elem (w "p") [] [Elem (w "pPr") [] [Elem (w "jc") [(w "val", "center")] []; Elem (w "snapToGrid") [(w "val", "1")] []]];
                        Cmt; Elem (w "bookmark") [] []; Elem (w "tbl") [] []; Elem (w "p") [] []; Elem (w "sectPr") [] []]].

Lemma ex_numeric : @numeric ex_lib (TMisc :: toks ex_tree ++ [TErr]).
Proof.
  intros q a I. cbn in I. unfold w in I. repeat (destruct I as [I|I]; [try discriminate I; injection I as <- <-|]); try contradiction;
    intros q' v J; cbn in J; try contradiction; destruct J as [J|[]]; injection J as <- <-; cbn; intros E x; try discriminate E; discriminate.
Qed.

Example C33_ex : @numeric ex_lib (TMisc :: toks ex_tree ++ [TErr]) /\ ~ In TEof (TMisc :: toks ex_tree ++ [TErr]) /\
  snd (@parse_document ex_lib None (TMisc :: toks ex_tree ++ [TErr])) = SOk /\
  item_names (fst (@parse_document ex_lib None (TMisc :: toks ex_tree ++ [TErr]))) = ["p"; "tbl"; "p"; "sectPr"] /\
  item_elements ex_tree = ["p"; "tbl"; "p"; "sectPr"].
Proof. split; [apply ex_numeric|]. split; [cbn; intuition discriminate|]. split; [|split]; vm_compute; reflexivity. Qed.

(** an end element that does not match: an error *)
Example C33_ex_mismatch : snd (@parse_document ex_lib None
  [TStart (w "document") []; TStart (w "body") []; TEnd (w "document"); TEnd (w "body")]) = SAbort XSyntax.
Proof. reflexivity. Qed.

(** C33, numbers anywhere: a syntax error that comes before the first
    unreadable number and before the end of the root element is reported,
    whatever follows. [seen] is what stands before the error. *)
Theorem C33_before_partial : forall (L : GoLib) f seen qs tail, open_after seen qs -> broken qs tail -> numeric seen ->
  (forall pre q a c post, prolog pre -> seen <> pre ++ toks (Elem q a c) ++ post) ->
  snd (parse_document f (seen ++ tail)) <> SOk.
Proof. exact @error_before. Qed.
Print Assumptions C33_before_partial.

(** C49, numbers anywhere: what stands in a body before the first unreadable
    number is loaded as if the document ended behind it, one item for every
    paragraph, table and section element. [rest] is whatever follows, well
    formed or not. *)
Theorem C49_before_partial : forall (L : GoLib) f pre q a c0 qb ab c rest items,
  prolog pre -> snd qb = "body" -> numeric (ftoks c0) -> numeric (ftoks c) ->
  parse_document f (pre ++ TStart q a :: ftoks c0 ++ TStart qb ab :: ftoks c ++ rest) = (items, SOk) ->
  exists items0 more, items = items0 ++ more /\
    parse_document f (toks (Elem q a (c0 ++ [Elem qb ab c]))) = (items0, SOk) /\
    item_names items0 = item_elements (Elem q a (c0 ++ [Elem qb ab c])).
Proof. exact @loaded_before. Qed.
Print Assumptions C49_before_partial.

(** a paragraph with an unreadable number behind a paragraph and a table: the
    document loads, of the two paragraphs that follow one is lost, and what stands
    before is there *)
Definition ex_first : list tree :=
  [Elem (w "p") [] [Elem (w "pPr") [] [Elem (w "snapToGrid") [(w "val", "1")] []]]; Elem (w "tbl") [] []].
Definition ex_rest : list token :=
  toks (Elem (w "p") [] [Elem (w "pPr") [] [Elem (w "snapToGrid") [(w "val", "false")] []]]) ++
  toks (Elem (w "p") [] []) ++ [TEnd (w "body"); TEnd (w "document")].

Example C49_before_ex :
  @numeric ex_lib (ftoks ex_first) /\ ~ @numeric ex_lib ex_rest /\
  item_names (fst (@parse_document ex_lib None ([TMisc] ++ TStart (w "document") [] :: ftoks [] ++ TStart (w "body") [] :: ftoks ex_first ++ ex_rest))) = ["p"; "tbl"; "p"] /\
  snd (@parse_document ex_lib None ([TMisc] ++ TStart (w "document") [] :: ftoks [] ++ TStart (w "body") [] :: ftoks ex_first ++ ex_rest)) = SOk /\
  item_elements (Elem (w "document") [] ([] ++ [Elem (w "body") [] ex_first])) = ["p"; "tbl"].
Proof.
  split; [|split; [|split; [vm_compute; reflexivity|split; vm_compute; reflexivity]]].
  - intros q a I. cbn in I. unfold w in I. repeat (destruct I as [I|I]; [try discriminate I; injection I as <- <-|]); try contradiction;
      intros q' v J; cbn in J; try contradiction; destruct J as [J|[]]; injection J as <- <-; cbn; intros E x; try discriminate E; discriminate.
  - intros N. refine (N (w "snapToGrid") [(w "val", "false")] _ (w "val") "false" (or_introl eq_refl) eq_refl i0 eq_refl).
    right. right. left. reflexivity.
Qed.

(** the second paragraph is cut off inside; an unreadable number and a whole
    element follow *)
Definition ex_seen : list token := [TStart (w "document") []; TStart (w "body") []] ++ ftoks ex_first ++ [TStart (w "p") []].
Example C33_before_ex :
  open_after ex_seen [w "p"; w "body"; w "document"] /\
  broken [w "p"; w "body"; w "document"] (TEnd (w "body") :: ex_rest) /\ @numeric ex_lib ex_seen /\
  (forall pre q a c post, prolog pre -> ex_seen <> pre ++ toks (Elem q a c) ++ post) /\
  snd (@parse_document ex_lib None (ex_seen ++ TEnd (w "body") :: ex_rest)) = SAbort XSyntax.
Proof.
  split; [|split; [|split; [|split; [|vm_compute; reflexivity]]]].
  - change ex_seen with (((((((((([] ++ [TStart (w "document") []]) ++ [TStart (w "body") []]) ++ [TStart (w "p") []]) ++ [TStart (w "pPr") []]) ++
      [TStart (w "snapToGrid") [(w "val", "1")]]) ++ [TEnd (w "snapToGrid")]) ++ [TEnd (w "pPr")]) ++ [TEnd (w "p")]) ++ [TStart (w "tbl") []]) ++ [TEnd (w "tbl")] ++ [TStart (w "p") []]).
    rewrite app_assoc. repeat constructor.
  - constructor. discriminate.
  - intros q a I. cbn in I. unfold w in I. repeat (destruct I as [I|I]; [try discriminate I; injection I as <- <-|]); try contradiction;
      intros q' v J; cbn in J; try contradiction; destruct J as [J|[]]; injection J as <- <-; cbn; intros E x; try discriminate E; discriminate.
  - intros pre q a c post P E. destruct pre as [|t pre].
    + cbn [app] in E. rewrite DecLemmas.toks_elem in E. unfold ex_seen in E. cbn [app] in E. injection E as _ _ E.
      apply (f_equal (fun l => fst (skip l))) in E. rewrite DecLemmas.skip_forest in E. discriminate.
    + unfold ex_seen in E. injection E as <- _. inversion P. contradiction.
Qed.
