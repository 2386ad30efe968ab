(** The namespace of the relationship part. *)
From Coq Require Import String Ascii List Bool Arith NArith Permutation.
From Verif Require Import GoStr Num Lib Types Docx XmlTok Lex Rels Pack History SpecForm SpecPack SpecRelNs RelNsFacts RelNsWit.
Import ListNotations.
Local Open Scope list_scope.
Local Open Scope string_scope.

(** Documents made with the API or opened from packages whose relationship part
    declares its namespace without a prefix are saved with a relationship part in
    that namespace. *)
Theorem C80_usual : forall (L : GoLib) l w i d ar x, run_ops l [] = Some w -> Forall usual_part l -> nth_error w i = Some d ->
  writes d (Ok ar) -> In (RELS_NAME, Some x) ar -> in_namespace PACKAGE_NS x.
Proof. exact @usual_saved. Qed.
Print Assumptions C80_usual.

(** A document opened from a package keeps the xmlns of the relationship part,
    whatever is called in between. *)
Theorem C80_kept : forall (L : GoLib) ns a w w1 l w' d' ar x, escape ns = ns -> relationships_are (declares ns) a ->
  parse a w = Ok w1 -> run_ops l w1 = Some w' -> nth_error w' (length w) = Some d' -> writes d' (Ok ar) -> In (RELS_NAME, Some x) ar -> in_namespace ns x.
Proof. exact @declared_saved. Qed.
Print Assumptions C80_kept.

(** Without such an attribute the part is saved in a namespace that is not the one
    of relationship parts. *)
Theorem C80_prefixed : forall (L : GoLib) a w w1 l w' d' ar x, relationships_are declares_none a ->
  parse a w = Ok w1 -> run_ops l w1 = Some w' -> nth_error w' (length w) = Some d' -> writes d' (Ok ar) -> In (RELS_NAME, Some x) ar -> in_namespace OFFICE_NS x.
Proof. exact @prefixed_saved. Qed.
Print Assumptions C80_prefixed.

(** Without a relationship part it is saved with one in no namespace. *)
Theorem C80_missing : forall (L : GoLib) a w w1 l w' d' ar x, ~ In RELS_NAME (map fst a) ->
  parse a w = Ok w1 -> run_ops l w1 = Some w' -> nth_error w' (length w) = Some d' -> writes d' (Ok ar) -> In (RELS_NAME, Some x) ar -> in_namespace "" x.
Proof. exact @missing_saved. Qed.
Print Assumptions C80_missing.

(** A relationship part in the right namespace, given with a prefix, is not saved
    in it. *)
Theorem C80_refuted : exists (L : GoLib) a s p c w d ar x,
  In (RELS_NAME, Some s) a /\ NoDup (map fst a) /\ begins_with (Elem (p, "Relationships") [(("xmlns", p), PACKAGE_NS)] c) s /\
  parse a [] = Ok w /\ nth_error w 0 = Some d /\ writes d (Ok ar) /\ In (RELS_NAME, Some x) ar /\ ~ in_namespace PACKAGE_NS x.
Proof. exact namespace_lost. Qed.
Print Assumptions C80_refuted.

Example C80_usual_ex : Forall usual_part [ONew; OParse (part_of_text usual_text); OAddPara 1; OPara 1 (ABody 0) (OLink "t" "http://l")] /\
  match @run_ops ex_lib [ONew; OParse (part_of_text usual_text); OAddPara 1; OPara 1 (ABody 0) (OLink "t" "http://l")] [] with
  | Some [_; d] => match pack_files d with Ok m => map fst m = [RELS_NAME; "word/document.xml"] | _ => False end
  | _ => False
  end.
Proof.
  split; [|vm_compute; reflexivity]. constructor; [exact I|]. constructor; [|constructor; [exact I|constructor; [exact I|constructor]]]. exact usual_declares.
Qed.
Example C80_prefixed_ex : relationships_are declares_none (part_of_text prefixed_text) /\ exists w, @parse ex_lib (part_of_text prefixed_text) [] = Ok w.
Proof. split; [exact prefixed_declares|]. eexists. vm_compute. reflexivity. Qed.
Example C80_missing_ex : exists w, @parse ex_lib [("word/document.xml", Some "<w:document/>")] [] = Ok w.
Proof. eexists. vm_compute. reflexivity. Qed.
