(** Goroutines calling IncreaseID on one document (id.go:24-31). *)
From Coq Require Import String List Bool Arith NArith.
From Verif Require Import GoStr Docx.
Import ListNotations.
Local Open Scope string_scope.
Local Open Scope list_scope.

(** Where a goroutine is. The steps are those of id.go:25-29: Lock, the map
    read, the increment, the map write, Unlock with return. *)
Inductive pc :=
| Idle
| Held (name : string)
| HasRead (name : string) (n : N)
| Added (name : string) (n : N)
| Stored (name : string) (n : N).

(** a goroutine: the names it is still going to call IncreaseID with, and what
    its finished calls returned *)
Record gor := mk_gor { g_todo : list string; g_pc : pc; g_res : list (string * N) }.
(** the mutex, slowIDs and the goroutines *)
Record cstate := mk_cstate { c_locked : bool; c_map : list (string * N); c_gs : list gor }.

(** A step of one goroutine, or [None] when it is finished or blocked in Lock.
    Memory is sequentially consistent: every access to slowIDs is between Lock
    and Unlock of the same mutex, for which the Go memory model promises that. *)
Definition gstep (locked : bool) (m : list (string * N)) (g : gor) : option (bool * list (string * N) * gor) :=
  match g_pc g with
  | Idle =>
      match g_todo g with
      | [] => None
      | nm :: t => if locked then None else Some (true, m, mk_gor t (Held nm) (g_res g))
      end
  | Held nm => Some (locked, m, mk_gor (g_todo g) (HasRead nm (match mget nm m with Some v => v | None => 0%N end)) (g_res g))
  | HasRead nm n => Some (locked, m, mk_gor (g_todo g) (Added nm (uadd1 n)) (g_res g))
  | Added nm n => Some (locked, mset nm n m, mk_gor (g_todo g) (Stored nm n) (g_res g))
  | Stored nm n => Some (false, m, mk_gor (g_todo g) Idle (g_res g ++ [(nm, n)]))
  end.
Definition cstep (i : nat) (s : cstate) : option cstate :=
  match nth_error (c_gs s) i with
  | None => None
  | Some g =>
      match gstep (c_locked s) (c_map s) g with
      | None => None
      | Some (l, m, g') => Some (mk_cstate l m (set_nth (c_gs s) i g'))
      end
  end.
(** A schedule names the goroutine that runs next; one that cannot move is
    passed over. *)
Fixpoint crun (sched : list nat) (s : cstate) : cstate :=
  match sched with
  | [] => s
  | i :: l => crun l (match cstep i s with Some s' => s' | None => s end)
  end.
