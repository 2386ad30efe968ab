(** Specification for calls on several paragraphs, made in turns. *)
From Coq Require Import String List Bool Arith.
From Verif Require Import GoStr Num Lib Types Docx History.
Import ListNotations.
Local Open Scope list_scope.

(** a call on a paragraph, other than adding a hyperlink, a picture or a shape
    (these take numbers from the document) *)
Definition plain_call (o : op) : Prop :=
  match o with OPara _ _ (OLink _ _ | ODrawing _ _ | OShape _ _ _ _ _ _ _) => False | OPara _ _ _ => True | _ => False end.
Definition same_addr (a b : addr) : bool :=
  match a, b with
  | ABody i, ABody j => Nat.eqb i j
  | ACell i r c k, ACell i' r' c' k' => Nat.eqb i i' && Nat.eqb r r' && Nat.eqb c c' && Nat.eqb k k'
  | _, _ => false
  end.
(** it is on the paragraph [a] of the document [d] *)
Definition on_para (d : nat) (a : addr) (o : op) : bool := match o with OPara d' a' _ => Nat.eqb d d' && same_addr a a' | _ => false end.
(** for every paragraph the same calls in the same order; the calls on different
    paragraphs take turns in any way *)
Definition weaves (l l' : list op) : Prop := forall d a, filter (on_para d a) l = filter (on_para d a) l'.
