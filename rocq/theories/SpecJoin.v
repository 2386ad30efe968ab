(** Specification: calls one after another, each of which returns without an error. *)
From Coq Require Import List.
From Verif Require Import Lib Types Docx History.
Import ListNotations.
Inductive calls_ok {L : GoLib} : list op -> world -> world -> Prop :=
| calls_nil : forall w, calls_ok [] w w
| calls_cons : forall o l w w1 w2, exec o w = Ok w1 -> calls_ok l w1 w2 -> calls_ok (o :: l) w w2.
