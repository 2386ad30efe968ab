(** Calls on separate documents. *)
From Coq Require Import String List Bool Arith ZArith.
From Verif Require Import GoStr Num Lib Types Docx Api Pack History Alias SpecAlias SpecBreak SpecSep SepFacts.
Import ListNotations.
Local Open Scope list_scope.
Local Open Scope string_scope.

(** What becomes of a set of documents depends on the calls that work on them
    only: the calls on other documents can be left out. *)
Theorem C81_projection : forall (L : GoLib) (S : nat -> bool) l w, documents l = Some w -> formatted_first l -> Forall own_pieces l -> Forall (closed_under S) l ->
  exists w0, documents (filter (matters S) l) = Some w0 /\ length w0 = length w /\ forall i, S i = true -> nth_error w0 i = nth_error w i.
Proof. exact @memory_projected. Qed.
Print Assumptions C81_projection.

(** Two calls of which neither works on a document of the other can be made in
    either order; also panics are the same. *)
Theorem C81_exchange : forall (L : GoLib) l1 o1 o2 l2, separate o1 o2 -> Forall own_pieces l1 -> formatted_first (l1 ++ o1 :: o2 :: l2)%list -> formatted_first (l1 ++ o2 :: o1 :: l2)%list ->
  documents (l1 ++ o1 :: o2 :: l2)%list = documents (l1 ++ o2 :: o1 :: l2)%list.
Proof. exact @memory_exchanged. Qed.
Print Assumptions C81_exchange.

Definition ex_lib : GoLib := {| lib_float := fun _ => None; lib_md5 := fun s => s; lib_imgsize := fun s => Some (i64_of 1, i64_of 1, "png") |}.
(** three documents; the third is appended to the first *)
Definition ex_calls : list op :=
  [ONew; ONew; OAddPara 0; ONew; OAddPara 1; OPara 1 (ABody 0) (OLink "a" "http://a"); OAddPara 2; OPara 2 (ABody 0) (OLink "c" "http://c");
   OPara 0 (ABody 0) (OText "t"); OAppend 0 2; OAppend 1 0; OPara 0 (ABody 0) (OLink "b" "http://b"); OSplit 0 (fun _ => Ok true); OKeep 1 []].
Definition ex_set (i : nat) : bool := negb (Nat.eqb i 1).
Lemma ex_first : forall o1 o2, formats o1 = false -> formats o2 = false -> formatted_first (ex_calls ++ [o1; o2])%list.
Proof.
  intros o1 o2 A B. exists (firstn 9 ex_calls), (skipn 9 ex_calls ++ [o1; o2])%list. split; [reflexivity|]. split; intros o I; cbn in I; repeat destruct I as [<-|I]; auto; destruct I.
Qed.
Example C81_projection_ex : formatted_first (ex_calls ++ [OAddPara 0; OAddPara 2])%list /\ Forall own_pieces ex_calls /\ Forall (closed_under ex_set) ex_calls /\
  map works_on (filter (fun o => negb (matters ex_set o)) ex_calls) = [Some 1; Some 1; Some 1; Some 1] /\
  match @documents ex_lib ex_calls with Some w => map (fun d => length (d_items d)) w = [2; 0; 1; 1; 1] | None => False end.
Proof.
  split; [apply ex_first; reflexivity|]. split; [repeat constructor|]. split; [|split; [reflexivity|vm_compute; reflexivity]].
  repeat (apply Forall_cons; [intros M from K; first [discriminate M|discriminate K|injection K as <-; reflexivity]|]). apply Forall_nil.
Qed.
Example C81_exchange_ex : separate (OAppend 0 2) (OAddPara 1) /\ formatted_first (ex_calls ++ [OAppend 0 2; OAddPara 1])%list /\ formatted_first (ex_calls ++ [OAddPara 1; OAppend 0 2])%list /\
  match @documents ex_lib (ex_calls ++ [OAppend 0 2; OAddPara 1])%list with Some w => map (fun d => length (d_items d)) w = [3; 1; 1; 1; 1] | None => False end.
Proof. split; [split; eexists; (split; [reflexivity|]); split; discriminate|]. split; [apply ex_first; reflexivity|]. split; [apply ex_first; reflexivity|vm_compute; reflexivity]. Qed.

(** With LoadBodyItems it does not hold: a hyperlink added to a paragraph that was
    loaded from another document is registered there. *)
Theorem C81_loaded_refuted : exists (L : GoLib) (S : nat -> bool) l w, documents l = Some w /\ formatted_first l /\ Forall (closed_under S) l /\
  forall w0, documents (filter (matters S) l) = Some w0 -> exists i, S i = true /\ nth_error w0 i <> nth_error w i.
Proof. exact loaded_seen. Qed.
Print Assumptions C81_loaded_refuted.
