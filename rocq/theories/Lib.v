(** Library functions that are not modelled in detail. Every theorem holds for
    all instances of this class: nothing is assumed about them unless stated. *)
From Coq Require Import String Ascii List Bool NArith ZArith.
From Verif Require Import GoStr Num.
Import ListNotations.
Local Open Scope string_scope.

Class GoLib := {
  (** strconv.ParseFloat(s, 64) followed by conversion to int/int64;
      [None] when ParseFloat returns an error *)
  lib_float : string -> option i64;
  (** hex.EncodeToString(md5.Sum(data)) *)
  lib_md5 : string -> string;
  (** imgsz.DecodeSize: width, height, format; [None] is an error *)
  lib_imgsize : string -> option (i64 * i64 * string)
}.

(** unicode.IsSpace and fmt's isSpace, on UTF-8: the ASCII spaces except the
    newline, which fmt treats apart; *)
Definition is_space (a : ascii) : bool :=
  let n := N_of_ascii a in
  (N.eqb n 32 || N.eqb n 9 || N.eqb n 11 || N.eqb n 12 || N.eqb n 13)%bool.
(** those with two bytes, U+0085 and U+00A0; *)
Definition is_space2 (a b : ascii) : bool :=
  (N.eqb (N_of_ascii a) 194 && (N.eqb (N_of_ascii b) 133 || N.eqb (N_of_ascii b) 160))%bool.
(** and those with three, U+1680, U+2000 to U+200A, U+2028, U+2029, U+202F,
    U+205F and U+3000. *)
Definition is_space3 (a b c : ascii) : bool :=
  let x := N_of_ascii a in let y := N_of_ascii b in let z := N_of_ascii c in
  ((N.eqb x 225 && N.eqb y 154 && N.eqb z 128) ||
   (N.eqb x 226 && N.eqb y 128 && ((N.leb 128 z && N.leb z 138) || N.eqb z 168 || N.eqb z 169 || N.eqb z 175)) ||
   (N.eqb x 226 && N.eqb y 129 && N.eqb z 159) ||
   (N.eqb x 227 && N.eqb y 128 && N.eqb z 128))%bool.

(** without the spaces in front; [sp] are the ASCII spaces *)
Fixpoint drop_spaces (sp : ascii -> bool) (s : string) : string :=
  match s with
  | "" => ""
  | String a s1 =>
      if sp a then drop_spaces sp s1 else
      match s1 with
      | "" => s
      | String b s2 =>
          if is_space2 a b then drop_spaces sp s2 else
          match s2 with
          | "" => s
          | String c s3 => if is_space3 a b c then drop_spaces sp s3 else s
          end
      end
  end.

(** fmt.Sscanf(s, "%d", &v), [v] the value of the variable before the call. *)
Definition skip_space (s : string) : string := drop_spaces is_space s.

(** longest prefix of decimal digits *)
Fixpoint take_digits (s : string) : string :=
  match s with
  | String a s' => if is_digit a then String a (take_digits s') else ""
  | "" => ""
  end.

Definition sscanf_d (v : i64) (s : string) : gint :=
  match skip_space s with
  | "" => GErr v                                (* an EOF error *)
  | String a s' =>
      if Ascii.eqb a "010" then GErr v          (* unexpected newline *)
      else
        let '(sign, t) := if (Ascii.eqb a "+" || Ascii.eqb a "-")%bool
                          then (String a "", s') else ("", String a s') in
        match t with
        | "" => GErr v                          (* an EOF error *)
        | _ =>
            match take_digits t with
            | "" => GExp v                      (* expected integer *)
            | ds => match parse_int (sign ++ ds) with
                    | Some z => GVal z
                    | None => GErr v            (* strconv.ParseInt: ... out of range *)
                    end
            end
        end
  end.

(** The value strconv.Atoi/ParseInt return together with an error: the nearest
    bound when the number is out of range, 0 otherwise. *)
Definition atoi_errval (s : string) : i64 :=
  match s with
  | String "-" s' => match parse_nat s' with Some _ => i64_of (-9223372036854775808) | None => i0 end
  | String "+" s' => match parse_nat s' with Some _ => i64_of 9223372036854775807 | None => i0 end
  | _ => match parse_nat s with Some _ => i64_of 9223372036854775807 | None => i0 end
  end.

(** helper.go:45-56 GetInt64 and helper.go:59-70 GetInt (int is 64 bits wide, so
    Atoi and ParseInt(s,10,64) agree). *)
Definition get_int `{GoLib} (s : string) : gint :=
  match parse_int s with
  | Some v => GVal v
  | None =>
      match lib_float s with
      | Some v => GVal v
      | None => sscanf_d (atoi_errval s) s
      end
  end.

Lemma get_int_itoa : forall (L : GoLib) (a : i64), get_int (itoa (iv a)) = GVal a.
Proof. intros. unfold get_int. now rewrite parse_int_itoa. Qed.
