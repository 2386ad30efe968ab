(** Properties of the values in saved documents. *)
From Coq Require Import String Ascii List Bool Arith NArith ZArith Lia.
From Verif Require Import GoStr Num Lib Types XmlTok Marshal Unmarshal Docx Lex Rels Pack SpecLex SpecApi SpecPack SpecOrigin OriginFacts PropXml PropPack PropStable.
Import ListNotations.
Local Open Scope list_scope.
Local Open Scope string_scope.

(** C54: whatever bytes a document is loaded from, the document part saved for it
    has no attribute value and no text that is not from these bytes, but for the
    attributes of the root, empty attributes and numbers. *)
Theorem C54_nothing_new : forall (L : GoLib) f s, written_from lex s (write_xml (m_document (fst (parse_document f (lex s))))).
Proof. exact (fun L => @body_written L true). Qed.
Print Assumptions C54_nothing_new.
(** The same for packages. *)
Theorem C54_package : forall (L : GoLib) f a d ar s s', ordinary a -> unpack f a = Ok d -> writes d (Ok ar) ->
  In (DOC_NAME, Some s) a -> In (DOC_NAME, Some s') ar -> written_from lex s s'.
Proof. exact @package_written. Qed.
Print Assumptions C54_package.

(** what is said of the file of C51: its texts and values, and those written *)
Example C54_ex : let s := ex_loaded in let s' := write_xml (m_document (fst (@parse_document ex_lib (Some 0) (lex s)))) in
  attr_values (lex s) = ["1"; "center"; "x"; "04A0"; "1"; "0"; "100"] /\ In "center" (attr_values (lex s')) /\ In "04A0" (attr_values (lex s')) /\
  In (String "097" (String "195" (String "169" ""))) (texts (lex s)) /\ texts (lex s') = [String "010" ""; "<b>"].
Proof. cbv zeta. split; [vm_compute; reflexivity|]. split; [vm_compute; repeat (first [left; reflexivity|right])|]. split; [vm_compute; repeat (first [left; reflexivity|right])|].
  split; [vm_compute; repeat (first [left; reflexivity|right])|vm_compute; reflexivity].
Qed.
(** and of a package *)
Example C54_package_ex : match @unpack ex_lib 0 ex_styled with
  | Ok d => match pack_files d with Ok ar => exists s s', In (DOC_NAME, Some s) ex_styled /\ In (DOC_NAME, Some s') ar | _ => False end
  | _ => False end.
Proof. vm_compute. do 2 eexists. split; [do 2 (try (left; reflexivity); right); left; reflexivity|]. repeat (first [left; reflexivity|right]). Qed.
