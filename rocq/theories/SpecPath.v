(** Vocabulary: names of entries that can be opened again. *)
From Coq Require Import String Ascii List Bool Arith NArith ZArith.
From Verif Require Import GoStr Num SpecLex SpecPack SpecClean.
Import ListNotations.
Local Open Scope list_scope.
Local Open Scope string_scope.

(** well-formed UTF-8 *)
Definition utf8 (s : string) : Prop := exists l, Forall scalar l /\ s = sconcat (map encode l).
(** elements separated by single slashes; none is empty, . or .., none has a backslash *)
Definition path (n : string) : Prop := exists l, l <> [] /\ Forall plain_path_elem l /\ n = join "/" l /\ utf8 n.
