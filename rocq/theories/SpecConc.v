(** Vocabulary for concurrent calls of IncreaseID. *)
From Coq Require Import String List Bool Arith NArith.
From Verif Require Import GoStr Docx Conc.
Import ListNotations.
Local Open Scope string_scope.
Local Open Scope list_scope.

(** no call has begun *)
Definition start (s : cstate) : Prop := c_locked s = false /\ forall g, In g (c_gs s) -> g_pc g = Idle /\ g_res g = [].
(** all calls have returned *)
Definition done (s : cstate) : Prop := forall g, In g (c_gs s) -> g_pc g = Idle /\ g_todo g = [].
(** slowIDs[nm] *)
Definition counter (nm : string) (s : cstate) : N := match mget nm (c_map s) with Some v => v | None => 0%N end.
(** how many calls with this name, and what calls with this name returned *)
Fixpoint calls (nm : string) (l : list string) : nat :=
  match l with [] => 0 | x :: l' => (if String.eqb nm x then 1 else 0) + calls nm l' end.
Fixpoint returned (nm : string) (l : list (string * N)) : list N :=
  match l with [] => [] | (x, n) :: l' => if String.eqb nm x then n :: returned nm l' else returned nm l' end.
Definition all_calls (nm : string) (s : cstate) : nat := calls nm (flat_map g_todo (c_gs s)).
Definition all_returned (nm : string) (s : cstate) : list N := returned nm (flat_map g_res (c_gs s)).
(** the [k] numbers after [c] *)
Fixpoint next_numbers (c : N) (k : nat) : list N :=
  match k with O => [] | S k' => (c + 1)%N :: next_numbers (c + 1) k' end.

