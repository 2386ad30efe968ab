(** What GetInt makes of a text: specification. *)
From Coq Require Import String Ascii List Bool NArith ZArith.
From Verif Require Import GoStr Num SpecNum.
Import ListNotations.
Local Open Scope list_scope.
Local Open Scope string_scope.

(** UTF-8, for the code points below 65536 *)
Definition bytes (l : list N) : string := fold_right (fun n s => String (ascii_of_N n) s) "" l.
Definition utf8 (n : N) : string :=
  if (n <? 128)%N then bytes [n]
  else if (n <? 2048)%N then bytes [192 + n / 64; 128 + n mod 64]%N
  else bytes [224 + n / 4096; 128 + (n / 64) mod 64; 128 + n mod 64]%N.

(** the white space of Unicode, without the newline *)
Definition space_points : list N :=
  [9; 11; 12; 13; 32; 133; 160; 5760; 8192; 8193; 8194; 8195; 8196; 8197; 8198; 8199; 8200; 8201; 8202;
   8232; 8233; 8239; 8287; 12288]%N.
Inductive blanks : string -> Prop :=
| b_nil : blanks ""
| b_cons : forall n s, In n space_points -> blanks s -> blanks (utf8 n ++ s).
Definition starts_blank (s : string) : Prop := exists n r, In n space_points /\ s = utf8 n ++ r.
Definition starts_digit (s : string) : Prop := exists c d r, digit_of c d /\ s = String c r.
Definition starts_sign (s : string) : Prop := exists r, s = "+" ++ r \/ s = "-" ++ r.
Definition newline : string := String "010" "".
Definition starts_newline (s : string) : Prop := exists r, s = newline ++ r.

(** A number at the start of the text, after blanks; an error that says
    "expected integer"; another error. *)
Inductive outcome := ONum (z : Z) | OExpected | OOther.
Inductive scan : string -> outcome -> Prop :=
| sc_num : forall b t junk z, blanks b -> spells t z -> ~ starts_digit junk -> in64 z = true -> scan (b ++ t ++ junk) (ONum z)
| sc_big : forall b t junk z, blanks b -> spells t z -> ~ starts_digit junk -> in64 z = false -> scan (b ++ t ++ junk) OOther
| sc_end : forall b, blanks b -> scan b OOther
| sc_line : forall b r, blanks b -> scan (b ++ newline ++ r) OOther
| sc_sign : forall b sg, blanks b -> sg = "+" \/ sg = "-" -> scan (b ++ sg) OOther
| sc_other : forall b r, blanks b -> r <> "" -> ~ starts_blank r -> ~ starts_newline r -> ~ starts_sign r -> ~ starts_digit r ->
    scan (b ++ r) OExpected
| sc_after : forall b sg r, blanks b -> sg = "+" \/ sg = "-" -> r <> "" -> ~ starts_digit r -> scan (b ++ sg ++ r) OExpected.

(** the number returned beside an error: the nearest bound if the text is a
    number out of range, else 0 *)
Definition beside (s : string) (v : Z) : Prop :=
  (forall z, spells s z -> v = if (z <? 0)%Z then (-9223372036854775808)%Z else 9223372036854775807%Z) /\
  ((forall z, ~ spells s z) -> v = 0%Z).

(** texts of white space, with newlines *)
Inductive white : string -> Prop :=
| w_nil : white ""
| w_cons : forall n s, n = 10%N \/ In n space_points -> white s -> white (utf8 n ++ s).

(** the result of GetInt, without the number beside an error *)
Definition outcome_of (g : gint) : outcome := match g with GVal v => ONum (iv v) | GExp _ => OExpected | GErr _ => OOther end.
Definition error_value (g : gint) : option Z := match g with GVal _ => None | GExp v | GErr v => Some (iv v) end.
