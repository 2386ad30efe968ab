(** What can be written as XML, independent of reader and writer. *)
From Coq Require Import String Ascii List Bool Arith NArith.
From Verif Require Import GoStr XmlTok.
Import ListNotations.
Local Open Scope list_scope.
Local Open Scope string_scope.

(** the characters of XML 1.0, by code point *)
Definition xml_char (r : N) : Prop :=
  (r = 9 \/ r = 10 \/ r = 13 \/ 32 <= r <= 55295 \/ 57344 <= r <= 65533 \/ 65536 <= r <= 1114111)%N.
(** UTF-8 *)
Definition encode (r : N) : string :=
  let b n := ascii_of_N n in
  if (r <? 128)%N then String (b r) ""
  else if (r <? 2048)%N then String (b (192 + r / 64)%N) (String (b (128 + r mod 64)%N) "")
  else if (r <? 65536)%N then String (b (224 + r / 4096)%N) (String (b (128 + (r / 64) mod 64)%N) (String (b (128 + r mod 64)%N) ""))
  else String (b (240 + r / 262144)%N) (String (b (128 + (r / 4096) mod 64)%N) (String (b (128 + (r / 64) mod 64)%N) (String (b (128 + r mod 64)%N) ""))).
(** the strings that are valid UTF-8 encodings of XML characters *)
Definition xml_string (s : string) : Prop := exists l, Forall xml_char l /\ s = sconcat (map encode l).

(** a name without colon: a letter or underscore, then letters, digits, dots,
    dashes and underscores *)
Definition letter (a : ascii) : bool :=
  let n := N_of_ascii a in ((65 <=? n) && (n <=? 90) || (97 <=? n) && (n <=? 122) || (n =? 95))%N.
Definition name_char (a : ascii) : bool :=
  let n := N_of_ascii a in letter a || ((48 <=? n) && (n <=? 57) || (n =? 45) || (n =? 46))%N.
Fixpoint all_chars (f : ascii -> bool) (s : string) : bool :=
  match s with EmptyString => true | String a s' => f a && all_chars f s' end.
Definition plain_name (s : string) : bool :=
  match s with EmptyString => false | String a s' => letter a && all_chars name_char s' end.
Definition good_name (q : qname) : bool := (String.eqb (fst q) "" || plain_name (fst q)) && plain_name (snd q).

(** two texts side by side would be read as one *)
Fixpoint texts_apart (l : list tree) : bool :=
  match l with
  | Chr _ :: Chr _ :: _ => false
  | _ :: l' => texts_apart l'
  | [] => true
  end.

(** the names and the arrangement of a tree *)
Fixpoint good_shape (t : tree) : bool :=
  match t with
  | Elem q a c => good_name q && forallb (fun x => good_name (fst x)) a && texts_apart c &&
      (fix all l := match l with [] => true | t :: l' => good_shape t && all l' end) c
  | Chr s => negb (String.eqb s "")
  | Cmt => false
  end.
(** the attribute values and texts in a tree *)
Fixpoint values (t : tree) : list string :=
  match t with
  | Elem q a c => (map snd a ++ (fix all l := match l with [] => [] | t :: l' => (values t ++ all l')%list end) c)%list
  | Chr s => [s]
  | Cmt => []
  end.

(** the same tree but for its values, where a value that is a string of XML
    characters is kept and any other is replaced by one that is not empty *)
Definition cleaned (v v' : string) : Prop := xml_string v' /\ (xml_string v -> v' = v) /\ (v <> "" -> v' <> "").
Inductive cleaned_tree : tree -> tree -> Prop :=
| cl_elem : forall q a a' c c', Forall2 (fun x y => fst x = fst y /\ cleaned (snd x) (snd y)) a a' ->
    Forall2 cleaned_tree c c' -> cleaned_tree (Elem q a c) (Elem q a' c')
| cl_chr : forall s s', s' <> "" -> cleaned s s' -> cleaned_tree (Chr s) (Chr s').
