(** Numbering properties survive on their own. *)
From Coq Require Import String List.
From Verif Require Import GoStr Num Lib Types XmlTok Marshal Unmarshal UnmarshalNum DecLemmas.
Import ListNotations.
Local Open Scope string_scope.
Local Open Scope list_scope.

Lemma numpr_alone : forall x k, match m_numpr x with Elem q a c => u_numpr a (ftoks c ++ TEnd q :: TEof :: k) = (x, SOk, TEof :: k) | _ => False end.
Proof. intros [[n|] [l|]] k; reflexivity. Qed.
