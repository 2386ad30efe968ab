(** Properties of the elements of saved files. *)
From Coq Require Import String Ascii List Bool Arith NArith ZArith Lia.
From Verif Require Import GoStr Num Lib Types XmlTok Marshal Unmarshal Docx Lex Rels Pack SpecLex SpecApi SpecPack History SpecGrammar GrammarOrder GrammarFacts2 GrammarFacts3 PropXml PropPack PropStable.
Import ListNotations.
Local Open Scope list_scope.
Local Open Scope string_scope.

(** C55: every document part that is saved follows the grammar: each element has
    the prefix and name of the standard, stands where the standard has it and has
    its attributes. The children are in the order of the standard, [follows
    grammar [] …], but for the four elements of [own_order]; these see below. *)
Theorem C55_document : forall d ar, writes d (Ok ar) -> forall s, In (DOC_NAME, Some s) ar -> follows grammar own_order (q_ "w" "document") (lex s).
Proof. exact (fun d ar W => proj1 (package_grammar d ar W)). Qed.
Print Assumptions C55_document.
(** The relationships have the order of the standard too. *)
Theorem C55_relationships : forall d ar, writes d (Ok ar) -> forall s, In (RELS_NAME, Some s) ar -> follows grammar [] (q_ "" "Relationships") (lex s).
Proof. exact (fun d ar W => proj2 (package_grammar d ar W)). Qed.
Print Assumptions C55_relationships.
(** None of the four elements can be taken off the list: for each of them some
    history of calls makes a document in which only its children are misplaced. *)
Theorem C55_refuted : forall (L : GoLib) q, In q own_order -> exists l w d s, run_ops l [] = Some w /\ nth_error w 0 = Some d /\ part_of d DOC_NAME s /\
  ~ follows grammar (but q own_order) (q_ "w" "document") (lex s).
Proof. exact @own_order_needed. Qed.
Print Assumptions C55_refuted.

(** Exactly: the children of these four are always in the order of [own_rules], all
    others in that of the standard; *)
Theorem C55_order : forall d ar, writes d (Ok ar) -> forall s, In (DOC_NAME, Some s) ar -> follows own_grammar [] (q_ "w" "document") (lex s).
Proof. exact package_order. Qed.
Print Assumptions C55_order.
(** and the whole document is in the order of the standard if and only if none of
    the four has two children of which this order exchanges the places. *)
Theorem C55_exactly : forall d ar, writes d (Ok ar) -> forall s, In (DOC_NAME, Some s) ar ->
  exists t, lex s = TMisc :: TChar (String "010" "") :: toks t /\ (follows grammar [] (q_ "w" "document") (lex s) <-> no_exchange t).
Proof. exact package_exactly. Qed.
Print Assumptions C55_exactly.
(** both happen: centered, and centered with a style *)
Definition ex_para (l : list (string * string)) : tree :=
  Elem (q_ "w" "document") [(q_ "xmlns" "w", "u")] [Elem (q_ "w" "body") [] [Elem (q_ "w" "p") [] [Elem (q_ "w" "pPr") [] (map (fun x => Elem (q_ "w" (fst x)) [(q_ "w" "val", snd x)] []) l)]]].
Example C55_ex_exactly : no_exchange (ex_para [("jc", "center"); ("textAlignment", "auto")]) /\ ~ no_exchange (ex_para [("jc", "center"); ("pStyle", "Title")]).
Proof.
  split.
  - assert (L : forall q a, exchanged q = [] -> no_exchange (Elem q a [])) by (intros q a E; apply no_exchange_kids; split; [rewrite E; intros x y []|constructor]).
    do 3 (apply no_exchange_kids; split; [intros x y []|constructor; [|constructor]]). apply no_exchange_kids. split; [|repeat constructor; now apply L].
    intros x y I [(a1 & k1 & H1) (a2 & k2 & H2)]. cbn in H1, H2. destruct H1 as [H1|[H1|[]]], H2 as [H2|[H2|[]]]; inversion H1; inversion H2; subst;
      vm_compute in I; intuition discriminate.
  - intros N. apply (N (q_ "w" "pPr") [] [Elem (q_ "w" "jc") [(q_ "w" "val", "center")] []; Elem (q_ "w" "pStyle") [(q_ "w" "val", "Title")] []]) with (x := "jc") (y := "pStyle").
    + do 3 (eapply within_child; [left; reflexivity|]). apply within_self.
    + vm_compute. tauto.
    + split; do 2 eexists; cbn; eauto.
Qed.

(** a package that is written *)
Example C55_ex : match @unpack ex_lib 0 ex_styled with
  | Ok d => match pack_files d with Ok ar => exists s s', In (DOC_NAME, Some s) ar /\ In (RELS_NAME, Some s') ar | _ => False end
  | _ => False end.
Proof. vm_compute. do 2 eexists. split; repeat (first [left; reflexivity|right]). Qed.
(** The grammar is not satisfied by just anything: an attribute with another
    prefix, a paragraph outside the body, a number that is none. *)
Example C55_case_prefix : ~ conforms grammar own_order (Elem (q_ "w" "jc") [(q_ "r" "val", "center")] []).
Proof. intros H. inversion H as [? ? ? r R Fa Fc Fk|]; subst. vm_compute in R. injection R as <-. cbn in Fa. inversion Fa. Qed.
Example C55_case_place : ~ conforms grammar own_order (Elem (q_ "w" "document") [(q_ "xmlns" "w", "u")] [Elem (q_ "w" "p") [] []]).
Proof.
  intros H. inversion H as [? ? ? r R Fa Fc Fk|]; subst. vm_compute in R. injection R as <-. cbn in Fc. inversion Fc as [|? ? ? ? ? ? ? I|? ? ? ? ? ? I|]; subst.
  - destruct I as [I|[]]. discriminate I.
  - congruence.
Qed.
Example C55_case_number : ~ conforms grammar own_order (Elem (q_ "w" "gridCol") [(q_ "w" "w", "")] []).
Proof.
  intros H. inversion H as [? ? ? r R Fa Fc Fk|]; subst. vm_compute in R. injection R as <-. cbn in Fa. inversion Fa as [|? ? ? ? ? ? F|]; subst.
  destruct F as (z & E). now apply (itoa_nonempty z).
Qed.
