(** Specification: what may happen to the arrays behind a caller's slice. *)
From Coq Require Import List Arith.
From Verif Require Import Slices.
Import ListNotations.

Section SpecSlice.
Context {V : Type}.

(** a slice value as the language allows it *)
Definition valid (h : arrays V) (s : slice) : Prop :=
  sl_arr s < length h /\ sl_len s <= sl_cap s /\ sl_off s + sl_cap s <= length (nth (sl_arr s) h []).

(** [l] with the elements from position [i] on replaced by [vs] *)
Definition overwritten (l : list V) (i : nat) (vs : list V) : list V :=
  firstn i l ++ vs ++ skipn (i + length vs) l.

(** the elements added before elements are dropped for the first time *)
Fixpoint added (l : list (sop V)) : list V :=
  match l with
  | SAppend vs :: l' => vs ++ added l'
  | _ => []
  end.

(** what the document holds afterwards *)
Fixpoint contents (l : list (sop V)) (c : list V) : list V :=
  match l with
  | [] => c
  | SAppend vs :: l' => contents l' (c ++ vs)
  | SKeep f :: l' => contents l' (filter f c)
  end.
End SpecSlice.
