(** Specifications for properties about what a successful load has read.
    Nothing here uses the decoder. *)
From Coq Require Import String Ascii List Bool Arith NArith ZArith.
From Verif Require Import GoStr Num Lib Types XmlTok.
Import ListNotations.
Local Open Scope string_scope.
Local Open Scope list_scope.

(** The attributes (element, attribute; local names) whose values the loader
    reads as whole numbers with GetInt and whose errors it looks at. *)
Definition int_attrs : list (string * list string) :=
  [("spacing", ["val"; "beforeLines"; "before"; "line"]);
   ("ind", ["leftChars"; "left"; "firstLineChars"; "firstLine"; "hangingChars"; "hanging"]);
   ("kern", ["val"]); ("tab", ["pos"]); ("adjustRightInd", ["val"]); ("snapToGrid", ["val"]);
   ("kinsoku", ["val"]); ("overflowPunct", ["val"]);
   ("extent", ["cx"; "cy"]); ("effectExtent", ["l"; "t"; "r"; "b"]); ("docPr", ["id"]); ("cNvPr", ["id"]);
   ("graphicFrameLocks", ["noChangeAspect"]); ("picLocks", ["noChangeAspect"]); ("alphaModFix", ["amt"]);
   ("xfrm", ["rot"; "flipH"; "flipV"]); ("off", ["x"; "y"]); ("ext", ["cx"; "cy"]); ("chOff", ["x"; "y"]);
   ("chExt", ["cx"; "cy"]); ("ln", ["w"]); ("tile", ["tx"; "ty"; "sx"; "sy"]); ("blipFill", ["dpi"; "rotWithShape"]);
   ("spLocks", ["noChangeArrowheads"]); ("cNvSpPr", ["txBox"]);
   ("inline", ["distT"; "distB"; "distL"; "distR"]);
   ("anchor", ["distT"; "distB"; "distL"; "distR"; "simplePos"; "relativeHeight"; "behindDoc"; "locked"; "layoutInCell"; "allowOverlap"]);
   ("simplePos", ["x"; "y"]);
   ("top", ["sz"; "space"]); ("left", ["sz"; "space"]); ("bottom", ["sz"; "space"]); ("right", ["sz"; "space"]);
   ("insideH", ["sz"; "space"]); ("insideV", ["sz"; "space"]);
   ("tblpPr", ["leftFromText"; "rightFromText"; "tblpX"; "tblpY"]);
   ("tblW", ["w"]); ("gridCol", ["w"]); ("trHeight", ["val"]); ("tcW", ["w"]); ("gridSpan", ["val"])].

Definition is_int_attr (e a : string) : bool :=
  existsb (fun p => (String.eqb e (fst p) && existsb (String.eqb a) (snd p))%bool) int_attrs.

(** No number in the stream has a value for which GetInt fails with an error
    that starts with "expected" (that is: the value is not a number and does
    not start with one, like "false"). *)
Definition attrs_numeric `{GoLib} (e : string) (a : list attr) : Prop :=
  forall q v, In (q, v) a -> is_int_attr e (snd q) = true -> forall x, get_int v <> GExp x.
Definition numeric `{GoLib} (ts : list token) : Prop :=
  forall q a, In (TStart q a) ts -> attrs_numeric (snd q) a.

(** Tokens up to the first start element and without a syntax error. *)
Definition prolog (ts : list token) : Prop :=
  Forall (fun t => match t with TStart _ _ | TErr => False | _ => True end) ts.

(** the children of the body elements of a document *)
Definition children (t : tree) : list tree := match t with Elem _ _ c => c | _ => [] end.
Definition named (n : string) (t : tree) : bool := match t with Elem q _ _ => String.eqb (snd q) n | _ => false end.
Definition body_children (t : tree) : list tree := flat_map children (filter (named "body") (children t)).
(** what a body is made of: the names of those children of body elements that
    are paragraphs, tables and section properties, in order *)
Definition item_elements (t : tree) : list string :=
  flat_map (fun x => match x with
                     | Elem q _ _ => if (String.eqb (snd q) "p" || String.eqb (snd q) "tbl" || String.eqb (snd q) "sectPr")%bool then [snd q] else []
                     | _ => []
                     end) (body_children t).
