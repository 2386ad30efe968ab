(** Witnesses for the namespace of the relationship part. *)
From Coq Require Import String Ascii List Bool Arith NArith Permutation.
From Verif Require Import GoStr Num Lib Types Docx XmlTok Lex Rels Pack History SpecForm SpecPack SpecRelNs WellFacts RelNsFacts.
Import ListNotations.
Local Open Scope list_scope.
Local Open Scope string_scope.

Definition ex_lib : GoLib := {| lib_float := fun _ => None; lib_md5 := fun s => s; lib_imgsize := fun s => None |}.
Definition usual_text : string :=
  "<?xml version=""1.0""?><Relationships xmlns=""" ++ PACKAGE_NS ++ """><Relationship Id=""rId1"" Type=""t"" Target=""x""/></Relationships>".
Definition prefixed_text : string :=
  "<p:Relationships xmlns:p=""" ++ PACKAGE_NS ++ """><p:Relationship Id=""rId1"" Type=""t"" Target=""x""/></p:Relationships>".
Definition part_of_text (s : string) : archive := [(RELS_NAME, Some s)].

Definition one (p : string) : list tree := [Elem (p, "Relationship") [(("", "Id"), "rId1"); (("", "Type"), "t"); (("", "Target"), "x")] []].
Lemma usual_root : begins_with (Elem ("", "Relationships") [(("", "xmlns"), PACKAGE_NS)] (one "")) usual_text.
Proof. apply begins_lex. exists [Cmt], []. split; [repeat constructor|]. vm_compute. reflexivity. Qed.
Lemma prefixed_root : begins_with (Elem ("p", "Relationships") [(("xmlns", "p"), PACKAGE_NS)] (one "p")) prefixed_text.
Proof. apply begins_lex. exists [], []. split; [constructor|]. vm_compute. reflexivity. Qed.
Lemma usual_declares : relationships_are (declares PACKAGE_NS) (part_of_text usual_text).
Proof.
  split; [eexists; left; reflexivity|]. intros s [K|[]]. injection K as <-. eexists. split; [do 2 eexists; exact usual_root|].
  exists [], "", []. split; [reflexivity|intros b []].
Qed.
Lemma prefixed_declares : relationships_are declares_none (part_of_text prefixed_text).
Proof.
  split; [eexists; left; reflexivity|]. intros s [K|[]]. injection K as <-. eexists. split; [do 2 eexists; exact prefixed_root|].
  intros b [<-|[]]. discriminate.
Qed.
Lemma only_one : forall x, in_namespace PACKAGE_NS x -> ~ in_namespace OFFICE_NS x.
Proof. intros x (r & ->) (r' & K). vm_compute in K. discriminate K. Qed.
Lemma namespace_lost : exists (L : GoLib) a s p c w d ar x,
  In (RELS_NAME, Some s) a /\ NoDup (map fst a) /\ begins_with (Elem (p, "Relationships") [(("xmlns", p), PACKAGE_NS)] c) s /\
  parse a [] = Ok w /\ nth_error w 0 = Some d /\ writes d (Ok ar) /\ In (RELS_NAME, Some x) ar /\ ~ in_namespace PACKAGE_NS x.
Proof.
  exists ex_lib, (part_of_text prefixed_text), prefixed_text, "p", (one "p"). do 4 eexists.
  split; [left; reflexivity|]. split; [constructor; [intros []|constructor]|]. split; [exact prefixed_root|]. split; [vm_compute; reflexivity|]. split; [reflexivity|].
  split. { unfold writes. match goal with |- match pack_files ?d with _ => _ end => let r := eval vm_compute in (pack_files d) in change (pack_files d) with r end. eexists. split; [apply Permutation_refl|vm_compute; reflexivity]. }
  split; [left; reflexivity|]. intros K. apply (only_one _ K). eexists. vm_compute. reflexivity.
Qed.
