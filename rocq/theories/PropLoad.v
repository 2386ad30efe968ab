(** C74: what is loaded. *)
From Coq Require Import String Ascii List Bool Arith NArith ZArith.
From Verif Require Import IntFacts GoStr Num Lib Types XmlTok Unmarshal Docx Lex Pack SpecXml SpecNum SpecInt SpecStrict SpecSkip SpecRead SpecLex SpecForm SpecPack SpecError SpecLoad
  SkipFacts SkipFacts3 RelsFacts WellFacts LoadFacts SameWit LoadWit.
Import ListNotations.
Local Open Scope string_scope.
Local Open Scope list_scope.

(** A main part that starts with an element of the grammar in which the numbers
    are readable, the elements expected to be empty are empty, and nothing but
    elements stands in front of the alternative that is taken, is loaded. *)
Theorem C74_loads : forall (L : GoLib) f q a c s, begins_with (Elem q a c) s -> fit (Elem q a c) -> snd (parse_document f (lex s)) = SOk.
Proof. exact @fit_loads. Qed.
Print Assumptions C74_loads.

(** So is every well-formed document that is the same to the loader as such an
    element: with other prefixes, unknown elements, white space and comments. *)
Theorem C74_loads_same : forall (L : GoLib) f pre t post q a c s, Forall misc pre -> Forall misc post ->
  list_spelling (pre ++ t :: post) s -> same_to_loader t (Elem q a c) -> fit (Elem q a c) -> snd (parse_document f (lex s)) = SOk.
Proof. exact @like_fit_loads. Qed.
Print Assumptions C74_loads_same.

(** Whole packages. *)
Theorem C74_package : forall (L : GoLib) z w, NoDup (map fst z) ->
  (forall o, In ("word/_rels/document.xml.rels", o) z -> exists s q a c, o = Some s /\ begins_with (Elem q a c) s /\
     forall q' a' c', In (Elem q' a' c') c -> snd q' = "Relationship" -> numbered a') ->
  (forall o, In ("word/document.xml", o) z -> exists s q a c, o = Some s /\ begins_with (Elem q a c) s /\ fit (Elem q a c)) ->
  (forall x o, In (("word/media/" ++ x)%string, o) z -> exists s, o = Some s /\ (ends_slash ("word/media/" ++ x) = true -> s = "")) ->
  exists w', parse z w = Ok w'.
Proof. exact @package_loads. Qed.
Print Assumptions C74_package.

(** The condition on the decimal numbers of a section is needed for every one of
    them. (That elements expected to be empty must be is C56_solid_refuted.) *)
Theorem C74_decimals : forall (L : GoLib) e n v, is_decimal_attr e n = true -> (forall z, SpecNum.spells v z -> in64 z = false) ->
  snd (parse_document None (toks (last_with ["document"; "body"; "sectPr"; e] [(XmlTok.w n, v)]))) <> SOk.
Proof. exact @decimals_needed. Qed.
Print Assumptions C74_decimals.

(** for every number of the list: "7" is accepted, and "" in exactly the elements
    said to accept it (where no float is spelled by "") *)
Example C74_ex_empty : map (fun p => last p "") number_paths = map fst int_attrs /\
  forallb (fun g => forallb (fun n => loads (snd g) n "7" && Bool.eqb (loads (snd g) n "") (mem (fst (fst g)) may_be_empty))%bool (snd (fst g)))
    (combine int_attrs number_paths) = true.
Proof. split; [reflexivity|]. vm_compute. reflexivity. Qed.

(** a main part with a picture position, alternate content, a section and a table *)
Definition ex_main : string := "<?xml version='1.0'?><!-- x --><w:document><w:body><w:p><w:r><mc:AlternateContent><mc:Choice Requires='wps'><w:drawing><wp:anchor distT='0'>"
  ++ "<wp:positionH relativeFrom='page'><wp:posOffset> 12 </wp:posOffset></wp:positionH></wp:anchor></w:drawing></mc:Choice><mc:Fallback/></mc:AlternateContent>"
  ++ "<w:t>a &lt; b</w:t></w:r></w:p><w:tbl><w:tblGrid><w:gridCol w:w=''/></w:tblGrid></w:tbl><w:sectPr><w:pgSz w:w='+11906' w:h='16838'/></w:sectPr></w:body></w:document> &".
Definition ex_tree : tree := Elem ("w", "document") [] [Elem ("w", "body") [] [
  Elem ("w", "p") [] [Elem ("w", "r") [] [
    Elem ("mc", "AlternateContent") [] [Elem ("mc", "Choice") [(("", "Requires"), "wps")] [Elem ("w", "drawing") [] [Elem ("wp", "anchor") [(("", "distT"), "0")] [
      Elem ("wp", "positionH") [(("", "relativeFrom"), "page")] [Elem ("wp", "posOffset") [] [Chr " 12 "]]]]]; Elem ("mc", "Fallback") [] []];
    Elem ("w", "t") [] [Chr "a < b"]]];
  Elem ("w", "tbl") [] [Elem ("w", "tblGrid") [] [Elem ("w", "gridCol") [(("w", "w"), "")] []]];
  Elem ("w", "sectPr") [] [Elem ("w", "pgSz") [(("w", "w"), "+11906"); (("w", "h"), "16838")] []]]].
Example white_space : SpecInt.white " ".
Proof. apply (SpecInt.w_cons 32 ""); [right; cbn; tauto|apply SpecInt.w_nil]. Qed.
Ltac value := split; [intros BB; first [discriminate BB | left; split; [reflexivity|cbn; intuition] | right; eexists; vm_compute; reflexivity]
  | intros BB; first [discriminate BB | eexists; split; [apply spells_iff; vm_compute; reflexivity|reflexivity]]].
Ltac fits := first [apply fit_chr | apply fit_cmt | apply fit_elem;
  [ intros n v I; cbn in I; repeat (destruct I as [I|I]; [injection I as <- <-; value|]); contradiction
  | intros I; first [reflexivity | exfalso; revert I; cbn; intuition discriminate]
  | intros E; first [discriminate E | cbn; intuition]
  | intros E; first [discriminate E | right; exists " ", "12", " ", 12%Z; split; [reflexivity|]; split; [exact white_space|]; split; [apply spells_iff; vm_compute; reflexivity|]; split; [exact white_space|reflexivity]]
  | repeat (first [apply Forall_nil | apply Forall_cons]); fits]].
Example C74_ex : begins_with ex_tree ex_main /\ @fit ex_lib ex_tree /\ snd (@parse_document ex_lib None (lex ex_main)) = SOk /\
  exists w', @parse ex_lib [("word/media/a.png", Some "PNG"); ("word/document.xml", Some ex_main); ("x", None)] [] = Ok w'.
Proof.
  assert (B : begins_with ex_tree ex_main).
  { apply begins_lex. eexists [Cmt; Cmt], _. split; [repeat constructor|]. vm_compute. reflexivity. }
  assert (F : @fit ex_lib ex_tree) by (unfold ex_tree; fits).
  split; [exact B|]. split; [exact F|]. split; [exact (C74_loads ex_lib None _ _ _ _ B F)|].
  apply C74_package.
  - cbn. repeat constructor; cbn; intuition discriminate.
  - cbn. intuition discriminate.
  - intros o I. cbn in I. destruct I as [I|[I|[I|[]]]]; try discriminate. injection I as <-. do 4 eexists. split; [reflexivity|]. split; [exact B|exact F].
  - intros x o I. cbn in I. destruct I as [I|[I|[I|[]]]]; try discriminate. injection I as E <-. eexists. split; [reflexivity|].
    subst x. intros X. vm_compute in X. discriminate.
Qed.
(** and well-formed ones that fail, for each condition: an empty number, a page size with a fraction, a page size in millimetres, columns that are listed, a link on a
    picture, white space in alternate content, an offset that is no number *)
Definition ex_bad : list string := map (fun x => ("<w:document><w:body>" ++ x ++ "</w:body></w:document>")%string) [
  "<w:p><w:pPr><w:spacing w:line=''/></w:pPr></w:p>";
  "<w:sectPr><w:pgSz w:w='210.0'/></w:sectPr>"; "<w:sectPr><w:pgSz w:w='210mm'/></w:sectPr>";
  "<w:sectPr><w:cols w:num='2'><w:col/></w:cols></w:sectPr>";
  "<w:p><w:r><w:drawing><wp:inline><wp:docPr id='1'><a:hlinkClick/></wp:docPr></wp:inline></w:drawing></w:r></w:p>";
  "<w:p><w:r><mc:AlternateContent> <mc:Choice Requires='wps'/></mc:AlternateContent></w:r></w:p>";
  "<w:p><w:r><w:drawing><wp:anchor><wp:positionH><wp:posOffset>1.5</wp:posOffset></wp:positionH></wp:anchor></w:drawing></w:r></w:p>"].
Definition verdict (name s : string) : bool := match @parse ex_lib [(name, Some s)] [] with Ok _ => true | _ => false end.
Example C74_ex_bad : Forall (fun s => (exists q a c, begins_with (Elem q a c) s) /\ forall w', @parse ex_lib [("word/document.xml", Some s)] [] <> Ok w') ex_bad.
Proof.
  assert (V : forallb (fun s => verdict "word/_rels/document.xml.rels" s && negb (verdict "word/document.xml" s))%bool ex_bad = true) by (vm_compute; reflexivity).
  apply Forall_forall. intros s I. rewrite forallb_forall in V. specialize (V s I). apply andb_prop in V as [V1 V2]. unfold verdict in *. split.
  - destruct (parse [("word/_rels/document.xml.rels", Some s)] []) as [w'|e|] eqn:E; try discriminate.
    destruct (proj1 (rels_exactly ex_lib s []) (ex_intro _ w' E)) as (q & a & c & B & _). eauto.
  - intros w' E. rewrite E in V2. discriminate.
Qed.
