(** Specification: a destination is given pieces of a file, one after another, up
    to the first one it does not take. *)
From Coq Require Import String Ascii List Bool Arith.
From Verif Require Import GoStr Bufio.
Import ListNotations.
Local Open Scope list_scope.
Local Open Scope string_scope.

(** [n]: the calls made before; whether all pieces were taken, and what was *)
Fixpoint deliver (D : dest) (n : nat) (pieces : list string) : bool * string :=
  match pieces with
  | [] => (true, "")
  | p :: l =>
      match D n p with
      | Some k => (false, stake k p)
      | None => let (ok, out) := deliver D (S n) l in (ok, p ++ out)
      end
  end.
