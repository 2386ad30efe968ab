(** Slices of a document: Go slices over shared backing arrays. The rest of the
    model treats slices as values; here only the arrays matter. The elements
    are interface values holding pointers, or Media values. *)
From Coq Require Import List Arith.
Import ListNotations.

Section Slices.
Context {V : Type}.

(** The arrays allocated so far. An array never changes its length. *)
Definition arrays := list (list V).

(** a slice value: array, offset, length and capacity *)
Record slice := mk_slice { sl_arr : nat; sl_off : nat; sl_len : nat; sl_cap : nat }.

(** Contents of an array; a missing array is empty. *)
Definition array_of (h : arrays) (i : nat) : list V := nth i h [].

(** s[0], ..., s[len(s)-1] *)
Definition elems (h : arrays) (s : slice) : list V :=
  firstn (sl_len s) (skipn (sl_off s) (array_of h (sl_arr s))).

(** s[:n] for n <= len(s) *)
Definition reslice (n : nat) (s : slice) : slice := mk_slice (sl_arr s) (sl_off s) n (sl_cap s).

(** writing one place of a list *)
Fixpoint put (l : list V) (i : nat) (v : V) : list V :=
  match l, i with
  | [], _ => []
  | _ :: l', O => v :: l'
  | x :: l', S j => x :: put l' j v
  end.
Fixpoint put_array (h : arrays) (i : nat) (f : list V -> list V) : arrays :=
  match h, i with
  | [], _ => []
  | a :: h', O => f a :: h'
  | a :: h', S j => a :: put_array h' j f
  end.

(** the zero value of the element type *)
Variable zero : V.
(** By how many places more than needed the runtime makes a new array larger
    (growslice): any function of the length and capacity. *)
Variable spare : nat -> nat -> nat.

(** make([]T, n, c) filled with [l] *)
Definition alloc (h : arrays) (l : list V) (extra : nat) : arrays * slice :=
  (h ++ [l ++ repeat zero extra], mk_slice (length h) 0 (length l) (length l + extra)).

(** append(s, v) *)
Definition append1 (h : arrays) (s : slice) (v : V) : arrays * slice :=
  if sl_len s <? sl_cap s
  then (put_array h (sl_arr s) (fun a => put a (sl_off s + sl_len s) v),
        mk_slice (sl_arr s) (sl_off s) (S (sl_len s)) (sl_cap s))
  else alloc h (elems h s ++ [v]) (spare (sl_len s) (sl_cap s)).

Fixpoint append_all (h : arrays) (s : slice) (vs : list V) : arrays * slice :=
  match vs with
  | [] => (h, s)
  | v :: vs' => let '(h', s') := append1 h s v in append_all h' s' vs'
  end.

(** What the methods do to the slice of a document that was made by
    LoadBodyItems, which keeps the slices it is given: docx.go:104-149
    [Body{Items: items}], [media: media]. *)
Inductive sop :=
| SAppend (vs : list V)
    (** one append after another. Body.Items: apipara.go:25-31 AddParagraph,
        apitable.go:82, 156 AddTable and AddTableTwips, theme.go:48, 60
        WithA3Page and WithA4Page, structdoc.go:357-371 AppendFile.
        media: media.go:47-50 addMedia *)
| SKeep (f : V -> bool).
    (** structdoc.go:114-127 Body.KeepElements: make([]interface{}, 0,
        len(b.Items)), then appends *)

Definition sstep (o : sop) (h : arrays) (s : slice) : arrays * slice :=
  match o with
  | SAppend vs => append_all h s vs
  | SKeep f =>
      append_all (h ++ [repeat zero (sl_len s)]) (mk_slice (length h) 0 0 (sl_len s)) (filter f (elems h s))
  end.

Fixpoint sruns (l : list sop) (h : arrays) (s : slice) : arrays * slice :=
  match l with
  | [] => (h, s)
  | o :: l' => let '(h', s') := sstep o h s in sruns l' h' s'
  end.
End Slices.
Arguments arrays : clear implicits.
Arguments sop : clear implicits.
