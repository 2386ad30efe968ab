(** Specification for choosing the template at any time. *)
From Coq Require Import String List Bool Arith.
From Verif Require Import GoStr Num Lib Types Docx History.
Import ListNotations.
Local Open Scope list_scope.

(** a call that changes the content of documents and makes no document *)
Definition edits (o : op) : Prop :=
  match o with
  | OPara _ _ _ | ODetached _ _ | OAddPara _ | OCellPara _ _ _ _ | OTable _ _ _ _ _ | OTwips _ _ _ _ _ | OTableJc _ _ _ | ORowJc _ _ _ _
  | OCellShade _ _ _ _ _ _ _ | OPage _ _ | OKeep _ _ | ODropAll _ _ | OAppend _ _ => True
  | ONew | OLoad _ _ | OTemplate _ _ | OSplit _ _ | OParse _ => False
  end.
