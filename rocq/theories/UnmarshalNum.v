(** The decoder of numbering properties. No other decoder of the package calls
    it: ParagraphProperties.UnmarshalXML (structpara.go:50-168) has no case for
    numPr. *)
From Coq Require Import String List.
From Verif Require Import GoStr Num Lib Types XmlTok Unmarshal.
Import ListNotations.
Local Open Scope string_scope.
Local Open Scope list_scope.

(** structnum.go:45-76 *)
Definition u_numpr : list attr -> list token -> out numpr :=
  loopd [("numId", fval set_numpr_numID); ("ilvl", fval set_numpr_ilvl)] numpr0.
