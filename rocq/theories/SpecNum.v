(** Decimal spellings of integers. *)
From Coq Require Import String Ascii List Bool NArith ZArith.
From Verif Require Import GoStr Num.
Local Open Scope string_scope.

(** the digit characters "0" to "9" *)
Definition digit_of (c : ascii) (d : N) : Prop := (d < 10)%N /\ c = ascii_of_N (48 + d).
(** a string of digits and its value *)
Inductive decimal : string -> N -> Prop :=
| dec_nil : decimal "" 0
| dec_snoc s n c d : decimal s n -> digit_of c d -> decimal (s ++ String c "") (10 * n + d).
(** with an optional sign; leading zeros are allowed *)
Inductive spells : string -> Z -> Prop :=
| sp_plain s n : decimal s n -> s <> "" -> spells s (Z.of_N n)
| sp_plus s n : decimal s n -> s <> "" -> spells ("+" ++ s) (Z.of_N n)
| sp_minus s n : decimal s n -> s <> "" -> spells ("-" ++ s) (- Z.of_N n).
