(** Specification for the namespace of the relationship part. *)
From Coq Require Import String Ascii List Bool Arith NArith.
From Verif Require Import GoStr Num Lib Types XmlTok Pack History SpecForm SpecPack.
Import ListNotations.
Local Open Scope list_scope.
Local Open Scope string_scope.

(** the namespace of relationship parts (ECMA-376 part 2), and the one of the
    attributes that refer to relationships *)
Definition PACKAGE_NS : string := "http://schemas.openxmlformats.org/package/2006/relationships".
Definition OFFICE_NS : string := "http://schemas.openxmlformats.org/officeDocument/2006/relationships".
(** what the text of the part starts with *)
Definition in_namespace (ns s : string) : Prop :=
  exists rest, s = "<?xml version=""1.0"" encoding=""UTF-8""?>" ++ String (ascii_of_nat 10) ("<Relationships xmlns=""" ++ ns ++ """>" ++ rest).
(** the attributes of the root element of a file *)
Definition root_attributes (a : list attr) (s : string) : Prop := exists q c, begins_with (Elem q a c) s.
(** the (last) attribute xmlns *)
Definition declares (ns : string) (a : list attr) : Prop :=
  exists l1 p l2, a = (l1 ++ ((p, "xmlns"), ns) :: l2)%list /\ forall b, In b l2 -> snd (fst b) <> "xmlns".
(** all names are declared with a prefix: xmlns:p="…" *)
Definition declares_none (a : list attr) : Prop := forall b, In b a -> snd (fst b) <> "xmlns".
(** the relationship parts of a package; there is one, and all are like this *)
Definition relationships_are (Q : list attr -> Prop) (a : archive) : Prop :=
  (exists c, In (RELS_NAME, c) a) /\ forall s, In (RELS_NAME, Some s) a -> exists at_s, root_attributes at_s s /\ Q at_s.
(** packages whose relationship part declares the namespace without a prefix *)
Definition usual_part (o : op) : Prop :=
  match o with OParse a => relationships_are (declares PACKAGE_NS) a | _ => True end.
