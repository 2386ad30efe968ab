(** Specification for adding paragraphs and tables first and filling them later. *)
From Coq Require Import String List Bool Arith.
From Verif Require Import GoStr Num Lib Types Docx History.
Import ListNotations.
Local Open Scope list_scope.

(** a call that adds a paragraph, a table or a page size at the end of the body *)
Definition adds_item (o : op) : bool :=
  match o with OAddPara _ | OTable _ _ _ _ _ | OTwips _ _ _ _ _ | OPage _ _ => true | _ => false end.
(** a call that fills or formats what is there: any call on a paragraph, a formatting
    call on a table, a row or a cell *)
Definition fills (o : op) : Prop :=
  match o with OPara _ _ _ | OTableJc _ _ _ | ORowJc _ _ _ _ | OCellShade _ _ _ _ _ _ _ => True | _ => False end.
