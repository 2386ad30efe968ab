(** Specification: the values in one XML file that come from another. *)
From Coq Require Import String Ascii List ZArith.
From Verif Require Import GoStr Num XmlTok.
Import ListNotations.
Local Open Scope string_scope.
Local Open Scope list_scope.

(** the attribute values and the pieces of text among the tokens of a file *)
Definition attr_values (ts : list token) : list string := flat_map (fun t => match t with TStart _ a => map snd a | _ => [] end) ts.
Definition texts (ts : list token) : list string := flat_map (fun t => match t with TChar s => [s] | _ => [] end) ts.
(** a whole number in decimal digits *)
Definition number (s : string) : Prop := exists z, s = itoa z.

(** Every attribute value of [ts'] is one of [ts], or empty, or a number, and
    every text of [ts'] is made of texts of [ts], or is a number. *)
Definition nothing_new (ts ts' : list token) : Prop :=
  (forall v, In v (attr_values ts') -> v = "" \/ number v \/ In v (attr_values ts)) /\
  (forall s, In s (texts ts') -> number s \/ exists l, s = sconcat l /\ forall x, In x l -> In x (texts ts)).
(** The file [s'] starts with the XML declaration, a line break and the start of
    an element, whose attributes are not counted; from there on it has nothing
    that is not in the file [s]. *)
Definition written_from (read : string -> list token) (s s' : string) : Prop :=
  exists q a ts', read s' = TMisc :: TChar (String "010" "") :: TStart q a :: ts' /\ nothing_new (read s) ts'.
