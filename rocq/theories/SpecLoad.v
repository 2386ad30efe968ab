(** Specification: elements that are loaded without an error. Nothing here uses
    the decoder. *)
From Coq Require Import String Ascii List Bool Arith NArith ZArith.
From Verif Require Import GoStr Num Lib Types XmlTok SpecXml SpecNum SpecInt SpecStrict SpecSkip SpecRead.
Import ListNotations.
Local Open Scope string_scope.
Local Open Scope list_scope.

(** elements whose numbers may be empty texts *)
Definition may_be_empty : list string :=
  ["ind"; "kern"; "tab"; "adjustRightInd"; "snapToGrid"; "kinsoku"; "overflowPunct"; "graphicFrameLocks"; "picLocks"; "alphaModFix";
   "top"; "left"; "bottom"; "right"; "insideH"; "insideV"; "tblW"; "gridCol"; "tcW"; "gridSpan"].
(** the attributes (element, attribute; local names) that must be plain decimal
    numbers *)
Definition decimal_attrs : list (string * list string) :=
  [("pgSz", ["w"; "h"]); ("pgMar", ["top"; "left"; "bottom"; "right"; "header"; "footer"; "gutter"]); ("cols", ["space"]); ("docGrid", ["linePitch"])].
Definition is_decimal_attr (e a : string) : bool :=
  existsb (fun p => (String.eqb e (fst p) && existsb (String.eqb a) (snd p))%bool) decimal_attrs.
Definition value_ok `{GoLib} (e n v : string) : Prop :=
  (is_int_attr e n = true -> (v = "" /\ In e may_be_empty) \/ exists x, get_int v = GVal x) /\
  (is_decimal_attr e n = true -> exists z, SpecNum.spells v z /\ in64 z = true).
(** the offset of a drawing: no text, or a decimal number with white space around it *)
Definition offset_ok (s : string) : Prop :=
  s = "" \/ exists b t b' z, s = (b ++ t ++ b')%string /\ SpecInt.white b /\ SpecNum.spells t z /\ SpecInt.white b' /\ in64 z = true.

(** every number is readable, elements that the loader expects to be empty are,
    and mc:AlternateContent has no text or comment before the Choice that is taken *)
Inductive fit `{GoLib} : tree -> Prop :=
| fit_elem : forall q a c,
    (forall n v, In (n, v) a -> value_ok (snd q) (snd n) v) ->
    (In (snd q) solid -> c = []) ->
    (snd q = "AlternateContent" -> led c) ->
    (snd q = "posOffset" -> offset_ok (chardata c)) ->
    Forall fit c -> fit (Elem q a c)
| fit_chr : forall s, fit (Chr s)
| fit_cmt : fit Cmt.
