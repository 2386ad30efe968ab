(** Specification: what is in a package without being used by its document. *)
From Coq Require Import String Ascii List Bool Arith NArith.
From Verif Require Import GoStr Types XmlTok Lex Docx Api Pack History SpecLex SpecOpc.
Import ListNotations.
Local Open Scope list_scope.
Local Open Scope string_scope.

Definition archive_files := list (string * option string).
(** the file [n] is shown in the main document: some picture in the document
    names a relationship that points to the file *)
Definition shown_file (ar : archive_files) (n : string) : Prop :=
  exists r c a b t id, files_of ar MAIN_RELS r /\ files_of ar MAIN_PART c /\
    In a (elems r "Relationship") /\ value "Id" a = Some id /\ value "Target" a = Some t /\ points "word/" t n /\
    In b (elems c "blip") /\ value "embed" b = Some id.
(** the address [t] is the target of some hyperlink in the main document *)
Definition linked_to (ar : archive_files) (t : string) : Prop :=
  exists r c a b id, files_of ar MAIN_RELS r /\ files_of ar MAIN_PART c /\
    In a (elems r "Relationship") /\ value "Id" a = Some id /\ value "Target" a = Some t /\
    In b (elems c "hyperlink") /\ value "id" b = Some id.
(** every picture in the package (whose name consists of XML characters) is shown
    and every external address is the target of a hyperlink *)
Definition nothing_left (ar : archive_files) : Prop :=
  (forall n b, files_of ar ("word/media/" ++ n) b -> xml_string n -> shown_file ar ("word/media/" ++ n)) /\
  (forall r a t, files_of ar MAIN_RELS r -> In a (elems r "Relationship") -> value "TargetMode" a = Some "External" -> value "Target" a = Some t -> linked_to ar t).

(** calls that add to the document [i], or concern other documents: none that
    takes content out of it or changes a paragraph taken out before *)
Definition adding (i : nat) (o : op) : Prop :=
  match o with
  | OKeep d _ | ODropAll d _ | OPara d _ (OKeepP _) | OPara d _ (ODropP _) | OPara d _ (ORun _ (RKeep _)) => d <> i
  | ODetached p _ => para_file p <> Some i
  | OLoad _ _ | OParse _ => False
  | _ => True
  end.
(** no LoadBodyItems, and archives whose entries have different names *)
Definition own_or_parsed (o : op) : Prop := match o with OLoad _ _ => False | OParse a => NoDup (map fst a) | _ => True end.
