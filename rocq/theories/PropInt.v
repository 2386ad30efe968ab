(** Properties of numbers in texts that are not plain decimal numbers. *)
From Coq Require Import String Ascii List Bool Arith NArith ZArith.
From Verif Require Import GoStr Num Lib Types XmlTok Unmarshal SpecNum SpecInt IntFacts IntFacts2.
Import ListNotations.
Local Open Scope list_scope.
Local Open Scope string_scope.

(** C70: GetInt and GetInt64 of a text that is not a decimal number in range
    (C41 covers those) and not a number for ParseFloat either: a number at its
    start, "expected integer", or another error. Every text has one of these
    outcomes, and beside an error stands the nearest bound or 0. *)
Theorem C70_text : forall (L : GoLib) s, (forall z, spells s z -> in64 z = false) -> lib_float s = None ->
  (exists o, scan s o) /\ (forall o, scan s o -> outcome_of (get_int s) = o) /\ (forall v, error_value (get_int s) = Some v -> beside s v).
Proof. exact @get_int_text. Qed.
Print Assumptions C70_text.
(** What ParseFloat accepts gives its value. *)
Theorem C70_float : forall (L : GoLib) s v, (forall z, spells s z -> in64 z = false) -> lib_float s = Some v -> get_int s = GVal v.
Proof. exact @get_int_float. Qed.
Print Assumptions C70_float.

Definition ex_lib : GoLib := {| lib_float := fun _ => None; lib_md5 := fun s => s; lib_imgsize := fun _ => None |}.
Example C70_ex :
  map (fun s => outcome_of (@get_int ex_lib s)) ["12pt"; " +7"; String "194" (String "160" "-3%"); "false"; "+"; ""; "-x"; "99999999999999999999"; String "009" (String "010" "5")] =
    [ONum 12; ONum 7; ONum (-3); OExpected; OOther; OOther; OExpected; OOther; OOther] /\
  map (fun s => error_value (@get_int ex_lib s)) ["false"; "99999999999999999999"; "-99999999999999999999"; "99999999999999999999 "] =
    [Some 0%Z; Some 9223372036854775807%Z; Some (-9223372036854775808)%Z; Some 0%Z].
Proof. vm_compute. auto. Qed.
(** the hypotheses of C70_text for one of these *)
Example C70_ex_text : (forall z, spells "12pt" z -> in64 z = false) /\ scan "12pt" (ONum 12).
Proof.
  split.
  - intros z T. apply spells_iff in T. discriminate.
  - apply (sc_num "" "12" "pt" 12); [constructor|apply spells_iff; reflexivity|rewrite starts_digit_iff; discriminate|reflexivity].
Qed.

(** The offset of an anchored drawing stands in character data: white space
    around the number does not matter, no text is 0, all else is an error. *)
Theorem C70_offset : forall q a q' a' b t b' z k, snd q' = "posOffset" -> white b -> spells t z -> white b' -> in64 z = true ->
  exists v, iv v = z /\ sub (u_wpos a) (ftoks [Elem q' a' [Chr (b ++ t ++ b')]] ++ TEnd q :: k) = (mk_wpos (get_att a "relativeFrom") v, SOk, k).
Proof. exact pos_number. Qed.
Print Assumptions C70_offset.
Theorem C70_offset_empty : forall q a q' a' k, snd q' = "posOffset" ->
  sub (u_wpos a) (ftoks [Elem q' a' [Chr ""]] ++ TEnd q :: k) = (mk_wpos (get_att a "relativeFrom") i0, SOk, k).
Proof. exact pos_empty. Qed.
Print Assumptions C70_offset_empty.
Theorem C70_offset_error : forall q a q' a' s k, snd q' = "posOffset" -> s <> "" ->
  (forall b t b' z, s = b ++ t ++ b' -> white b -> white b' -> spells t z -> in64 z = false) ->
  exists x r, sub (u_wpos a) (ftoks [Elem q' a' [Chr s]] ++ TEnd q :: k) = (x, SAbort XInt, r).
Proof. exact pos_error. Qed.
Print Assumptions C70_offset_error.
Example C70_ex_offset : forall k,
  sub (u_wpos [(nn "relativeFrom", "page")]) (ftoks [Elem (wp "posOffset") [] [Chr (String "010" (String "226" (String "128" (String "137" "-15 "))))]] ++ TEnd (wp "positionH") :: k) =
    (mk_wpos "page" (i64_of (-15)), SOk, k) /\
  snd (fst (sub (u_wpos [(nn "relativeFrom", "page")]) (ftoks [Elem (wp "posOffset") [] [Chr "1.5"]] ++ TEnd (wp "positionH") :: k))) = SAbort XInt.
Proof. intros. split; reflexivity. Qed.
