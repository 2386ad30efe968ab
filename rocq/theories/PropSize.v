(** The size of a new picture. *)
From Coq Require Import String Ascii List Bool Arith NArith ZArith.
From Verif Require Import GoStr Num Lib Types Docx Text Api SpecApi SpecEdit SpecSize SizeFacts PropApi.
Import ListNotations.
Local Open Scope Z_scope.

(** C09: the call appends one run with one drawing, and both sizes of the
    drawing are the fitted size. The bound 2^40 covers every size the image
    formats can state in 32 bits. *)
Theorem C09_size : forall (L : GoLib) anch data w p sw sh fmt w' p', add_drawing anch data w p = Ok (w', p') ->
  lib_imgsize data = Some (sw, sh, fmt) -> 0 < iv sw < 2 ^ 40 -> 0 <= iv sh < 2 ^ 40 ->
  exists r c, (para_children p' = para_children p ++ [PRun r])%list /\ runR_children r = [c] /\
    outer_size c = Some (fitted (iv sw) (iv sh)) /\ inner_size c = Some (fitted (iv sw) (iv sh)) /\ fst (fitted (iv sw) (iv sh)) <= 5274310.
Proof. exact @drawing_size. Qed.
Print Assumptions C09_size.
(** The call succeeds for every width that is not 0 and panics for width 0. *)
Theorem C09_zero_width : forall (L : GoLib) anch data w p sw sh fmt i d, para_file p = Some i -> nth_error w i = Some d ->
  lib_imgsize data = Some (sw, sh, fmt) ->
  (iv sw = 0 -> add_drawing anch data w p = Panic) /\ (iv sw <> 0 -> exists w' p', add_drawing anch data w p = Ok (w', p')).
Proof. exact @drawing_succeeds. Qed.
Print Assumptions C09_zero_width.
(** The comparison of the two float64 values is the comparison of the integers. *)
Theorem C09_float_test : forall w h, 0 < iv w < 2 ^ 40 -> 0 <= iv h < 2 ^ 40 -> wide w h = (6 * iv h <? 5 * iv w).
Proof. exact wide_exact. Qed.
Print Assumptions C09_float_test.
Example C09_ex :
  match @add_drawing ex_lib true "P1" ex_world ex_para with
  | Ok (_, p) => match rev (para_children p) with PRun r :: _ => map outer_size (runR_children r) | _ => [] end
  | _ => []
  end = [Some (5274310, 3955732)] /\ fitted 400 300 = (5274310, 3955732) /\ fitted 300 400 = (2637155, 3516206) /\
  wide (i64_of 1099511627771) (i64_of 916259689809) = true /\ wide (i64_of 1099511627770) (i64_of 916259689809) = false /\
  @add_drawing {| lib_float := fun _ => None; lib_md5 := fun s => s; lib_imgsize := fun _ => Some (i64_of 0, i64_of 5, "gif"%string) |} false "x" ex_world ex_para = Panic.
Proof. vm_compute. repeat split. Qed.
