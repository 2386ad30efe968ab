(** Specification: complete packages (the Open Packaging Conventions, ECMA-376
    part 2). Not covered: percent-encoded names, fragments in targets, and the
    relationships of parts other than the main document. *)
From Coq Require Import String Ascii List Bool Arith NArith.
From Verif Require Import GoStr XmlTok Lex History.
Import ListNotations.
Local Open Scope list_scope.
Local Open Scope string_scope.

(** the attributes of the elements with local name [l] in an XML file *)
Definition elems (b : string) (l : string) : list (list attr) :=
  flat_map (fun t => match t with TStart q a => if String.eqb (snd q) l then [a] else [] | _ => [] end) (lex b).
Definition value (l : string) (a : list attr) : option string :=
  option_map snd (find (fun x : attr => String.eqb (snd (fst x)) l) a).

(** names that differ only in the case of ASCII letters are the same *)
Definition lower_char (c : ascii) : ascii := let n := N_of_ascii c in if ((65 <=? n) && (n <=? 90))%N then ascii_of_N (n + 32) else c.
Fixpoint lower (s : string) : string := match s with EmptyString => "" | String c s' => String (lower_char c) (lower s') end.

(** the part of a name behind its last dot *)
Definition extension (n x : string) : Prop := exists p, n = p ++ "." ++ x /\ count "." x = 0.

(** [ty] is the content type that the content types file [ct] gives the part
    [n]: by an override for the part or else by a default for its extension *)
Definition overrides (ct n ty : string) : Prop :=
  exists a, In a (elems ct "Override") /\ (exists v, value "PartName" a = Some v /\ lower v = lower ("/" ++ n)) /\ value "ContentType" a = Some ty.
Definition content_type (ct n ty : string) : Prop :=
  overrides ct n ty \/
  ((forall ty', ~ overrides ct n ty') /\
   exists a v x, In a (elems ct "Default") /\ value "Extension" a = Some v /\ lower v = lower x /\ extension n x /\ value "ContentType" a = Some ty).

Definition TYPES_NAME := "[Content_Types].xml".
Definition ROOT_RELS := "_rels/.rels".
Definition MAIN_PART := "word/document.xml".
Definition MAIN_RELS := "word/_rels/document.xml.rels".
Definition REL_MAIN := "http://schemas.openxmlformats.org/officeDocument/2006/relationships/officeDocument".
Definition TYPE_MAIN := "application/vnd.openxmlformats-officedocument.wordprocessingml.document.main+xml".
Definition TYPE_RELS := "application/vnd.openxmlformats-package.relationships+xml".

(** what a target in the relationships of a part in the folder [dir] points to *)
Inductive points : string -> string -> string -> Prop :=
| pt_abs dir n : points dir ("/" ++ n) n
| pt_rel dir t : points dir t (dir ++ t)
| pt_up dir x t n : count "/" x = 0 -> points dir t n -> points (dir ++ x ++ "/") ("../" ++ t) n.
(** every relationship in [b] is external or points to a file *)
Definition found (has : string -> string -> Prop) (dir t : string) : Prop :=
  exists n n' c, points dir t n /\ lower n' = lower n /\ has n' c.
Definition closed_rels (has : string -> string -> Prop) (dir b : string) : Prop :=
  forall a, In a (elems b "Relationship") -> value "TargetMode" a = Some "External" \/ exists t, value "Target" a = Some t /\ found has dir t.

(** A package, given by the files it has, is complete: there are content types
    for all its parts; no relationship of the package and of the main document
    points to nowhere; the package points to the main document. *)
Record complete (has : string -> string -> Prop) : Prop := mk_complete {
  co_types : exists ct, has TYPES_NAME ct /\ (forall n b, has n b -> n <> TYPES_NAME -> exists ty, content_type ct n ty) /\
    content_type ct MAIN_PART TYPE_MAIN /\ content_type ct ROOT_RELS TYPE_RELS /\ content_type ct MAIN_RELS TYPE_RELS;
  co_root : exists b, has ROOT_RELS b /\ closed_rels has "" b /\
    exists a t, In a (elems b "Relationship") /\ value "Type" a = Some REL_MAIN /\ value "Target" a = Some t /\ points "" t MAIN_PART;
  co_main : exists b c, has MAIN_RELS b /\ has MAIN_PART c /\ closed_rels has "word/" b }.

(** the extensions for which the template that comes with the library has a type *)
Definition typed : list string := ["jpeg"; "png"; "webp"; "rels"; "xml"].

Definition files_of (ar : list (string * option string)) (n b : string) : Prop := In (n, Some b) ar.
(** the attributes of an element have different local names *)
Definition names_differ (a : list attr) : Prop := NoDup (map (fun x : attr => snd (fst x)) a).
Definition plain_rels (a : list (string * option string)) : Prop := forall s x, In (MAIN_RELS, Some s) a -> In x (elems s "Relationship") -> names_differ x.
(** a call that is not Parse *)
Definition no_parse (o : op) : Prop := match o with OParse _ => False | _ => True end.
