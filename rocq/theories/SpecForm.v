(** The ways to write the same XML: a grammar relating trees and byte strings,
    independent of reader and writer. It is the grammar of XML 1.0 (with names
    after its Appendix B) except where the text says so. *)
From Coq Require Import String Ascii List Bool Arith NArith.
From Verif Require Import GoStr XmlTok NameTab SpecLex.
Import ListNotations.
Local Open Scope list_scope.
Local Open Scope string_scope.

(** white space *)
Definition white (s : string) : Prop :=
  all_chars (fun a => let n := N_of_ascii a in ((n =? 32) || (n =? 9) || (n =? 10) || (n =? 13))%N) s = true.
Definition lacks (p s : string) : Prop := forall x y, s <> x ++ p ++ y.
(** the text of a list of characters *)
Definition text_of (l : list N) : string := sconcat (map encode l).

(** ** names *)
Definition listed (t : list (N * N)) (r : N) : Prop := exists lo hi, In (lo, hi) t /\ (lo <= r <= hi)%N.
(** letters, underscore and colon *)
Definition starts_name (r : N) : Prop := (65 <= r <= 90 \/ 97 <= r <= 122 \/ r = 95 \/ r = 58)%N \/ listed FIRST_RANGES r.
(** these, digits, full stop, hyphen, combining characters and extenders *)
Definition in_name (r : N) : Prop := starts_name r \/ (48 <= r <= 57 \/ r = 46 \/ r = 45)%N \/ listed SECOND_RANGES r.
Definition is_name (n : string) : Prop := exists r l, starts_name r /\ Forall in_name l /\ n = text_of (r :: l).
(** [s] does not go on with a name: it is empty or starts with an ASCII
    character that is not part of names *)
Definition name_ends (s : string) : Prop := forall a t, s = String a t -> (N_of_ascii a < 128)%N /\ ~ in_name (N_of_ascii a).
(** a name with its prefix *)
Definition name (q : qname) : string := if String.eqb (fst q) "" then snd q else fst q ++ ":" ++ snd q.
(** at most one colon, which separates the prefix unless it is the first or the
    last character (XML would not allow it there) *)
Inductive parts : qname -> Prop :=
| pt_plain : forall n, lacks ":" n -> parts ("", n)
| pt_prefix : forall p n, p <> "" -> n <> "" -> lacks ":" p -> lacks ":" n -> parts (p, n)
| pt_first : forall n, lacks ":" n -> parts ("", String ":" n)
| pt_last : forall n, lacks ":" n -> parts ("", n ++ ":").
Definition is_qname (q : qname) : Prop := parts q /\ is_name (name q).

(** ** characters *)
(** numbers in base [b], with any number of leading zeros; letters of either case *)
Inductive digit (b : N) : ascii -> N -> Prop :=
| dg_num : forall d, (d < 10 -> d < b -> digit b (ascii_of_N (48 + d)) d)%N
| dg_low : forall d, (10 <= d -> d < 16 -> d < b -> digit b (ascii_of_N (87 + d)) d)%N
| dg_up : forall d, (10 <= d -> d < 16 -> d < b -> digit b (ascii_of_N (55 + d)) d)%N.
Inductive numeral (b : N) : string -> N -> Prop :=
| nu_nil : numeral b "" 0
| nu_snoc : forall s n c d, numeral b s n -> digit b c d -> numeral b (s ++ String c "") (n * b + d).
(** the character of a number; halves of UTF-16 pairs are replaced by U+FFFD
    (XML would not allow them) *)
Definition character (r : N) : string := if ((55296 <=? r) && (r <=? 57343))%N then encode 65533 else encode r.
(** references, without & and ; *)
Inductive reference : string -> string -> Prop :=
| rf_decimal : forall s r, s <> "" -> numeral 10 s r -> (r <= 1114111)%N -> reference ("#" ++ s) (character r)
| rf_hex : forall s r, s <> "" -> numeral 16 s r -> (r <= 1114111)%N -> reference ("#x" ++ s) (character r)
| rf_lt : reference "lt" "<"
| rf_gt : reference "gt" ">"
| rf_amp : reference "amp" "&"
| rf_apos : reference "apos" "'"
| rf_quot : reference "quot" (String "034" "").
(** what stands in an attribute value within quotes [q] or in a text ([None]),
    and its spelling: line ends are normalised, references resolved *)
Inductive spells (q : option ascii) : string -> string -> Prop :=
| sp_nil : spells q "" ""
| sp_byte : forall a v s, ~ In a ["&"; "<"; "013"]%char -> q <> Some a -> spells q v s -> spells q (String a v) (String a s)
| sp_cr : forall v s, (forall t, s <> String "010" t) -> spells q v s -> spells q (String "010" v) (String "013" s)
| sp_crlf : forall v s, spells q v s -> spells q (String "010" v) (String "013" (String "010" s))
| sp_ref : forall e c v s, reference e c -> spells q v s -> spells q (c ++ v) ("&" ++ e ++ ";" ++ s).
(** line ends are normalised also where there are no references *)
Inductive lines : string -> string -> Prop :=
| ln_nil : lines "" ""
| ln_byte : forall a v s, a <> "013"%char -> lines v s -> lines (String a v) (String a s)
| ln_cr : forall v s, (forall t, s <> String "010" t) -> lines v s -> lines (String "010" v) (String "013" s)
| ln_crlf : forall v s, lines v s -> lines (String "010" v) (String "013" (String "010" s)).

(** ** attributes *)
(** White space in front (XML wants some, and no name twice), around the equals
    sign, either quote. *)
Inductive attrs_spelling : list attr -> string -> Prop :=
| as_nil : attrs_spelling [] ""
| as_cons : forall q v a w0 w1 w2 c s s', is_qname q -> white w0 -> white w1 -> white w2 ->
    (c = "034" \/ c = "'")%char -> spells (Some c) v s -> xml_string v -> attrs_spelling a s' ->
    attrs_spelling ((q, v) :: a) (w0 ++ name q ++ w1 ++ "=" ++ w2 ++ String c (s ++ String c s')).

(** ** declarations *)
(** [d] says [param="v"]: the first occurrence of the name and the equals sign
    is followed by a value in quotes of either kind *)
Definition says (param d v : string) : Prop :=
  exists pre c rest, (c = "034" \/ c = "'")%char /\ d = pre ++ param ++ "=" ++ String c (v ++ String c rest) /\ lacks (String c "") v /\
    forall x y, d = x ++ param ++ "=" ++ y -> String.length pre <= String.length x.
(** utf-8 in letters of either case *)
Definition is_utf8 (e : string) : Prop :=
  exists a b c, e = String a (String b (String c "-8")) /\ (a = "u" \/ a = "U")%char /\ (b = "t" \/ b = "T")%char /\ (c = "f" \/ c = "F")%char.
(** no other version and no other encoding *)
Definition acceptable (d : string) : Prop :=
  (forall v, says "version" d v -> v = "" \/ v = "1.0") /\ (forall e, says "encoding" d e -> e = "" \/ is_utf8 e).

(** the inside of a document type declaration: brackets nest; those in quotes and
    in comments do not count (XML says more about what stands there) *)
Inductive decl_text : string -> Prop :=
| dt_nil : decl_text ""
| dt_char : forall a s, ~ In a ["<"; ">"; "'"; "034"]%char -> decl_text s -> decl_text (String a s)
| dt_quoted : forall c q s, (c = "034" \/ c = "'")%char -> lacks (String c "") q -> decl_text s -> decl_text (String c (q ++ String c s))
| dt_nested : forall u s, (forall v, u <> "!--" ++ v) -> decl_text u -> decl_text s -> decl_text ("<" ++ u ++ ">" ++ s)
| dt_comment : forall u s, lacks "-->" (u ++ "--") -> decl_text s -> decl_text ("<!--" ++ u ++ "-->" ++ s).

(** ** trees *)
(** Elements with an end tag or, if empty, closed by themselves; CDATA sections;
    comments; processing instructions and the XML declaration; document type
    declarations (of these XML allows one, in front of the document, and wants
    DOCTYPE in it) *)
Inductive tree_spelling : tree -> string -> Prop :=
| ts_elem : forall q a c sa s w1 w2, is_qname q -> attrs_spelling a sa -> name_ends sa -> white w1 -> white w2 -> list_spelling c s ->
    tree_spelling (Elem q a c) ("<" ++ name q ++ sa ++ w1 ++ ">" ++ s ++ "</" ++ name q ++ w2 ++ ">")
| ts_empty : forall q a sa w1, is_qname q -> attrs_spelling a sa -> name_ends sa -> white w1 ->
    tree_spelling (Elem q a []) ("<" ++ name q ++ sa ++ w1 ++ "/>")
| ts_cdata : forall v s, lines v s -> xml_string v -> lacks "]]>" s -> tree_spelling (Chr v) ("<![CDATA[" ++ s ++ "]]>")
| ts_comment : forall s, lacks "--" (s ++ "-") -> tree_spelling Cmt ("<!--" ++ s ++ "-->")
| ts_pi : forall n w d, is_name n -> white w -> name_ends (w ++ d) -> (forall a t, d = String a t -> ~ white (String a "")) -> lacks "?>" d ->
    (n = "xml" -> acceptable d) -> tree_spelling Cmt ("<?" ++ n ++ w ++ d ++ "?>")
| ts_doctype : forall a s, (a <> "-" /\ a <> "[")%char -> decl_text s -> tree_spelling Cmt ("<!" ++ String a (s ++ ">"))
(** the children of an element: two texts are not written side by side *)
with list_spelling : list tree -> string -> Prop :=
| ls_nil : list_spelling [] ""
| ls_markup : forall t s l s', tree_spelling t s -> list_spelling l s' -> list_spelling (t :: l) (s ++ s')
| ls_text : forall v s l s', s <> "" -> spells None v s -> xml_string v -> lacks "]]>" s ->
    list_spelling l s' -> (s' = "" \/ exists u, s' = String "<" u) -> list_spelling (Chr v :: l) (s ++ s').

(** the file starts with that element, after comments, processing instructions,
    declarations and text; anything may follow *)
Definition begins_with (t : tree) (s : string) : Prop :=
  exists pre s1 s2, s = s1 ++ s2 /\ list_spelling (pre ++ [t])%list s1 /\ Forall (fun x => match x with Elem _ _ _ => False | _ => True end) pre.
