(** Calls on several paragraphs, made in turns. *)
From Coq Require Import String List Bool Arith ZArith.
From Verif Require Import GoStr Num Lib Types Docx Api Pack History Alias SpecAlias SpecSep SpecWeave WeaveFacts.
Import ListNotations.
Local Open Scope list_scope.
Local Open Scope string_scope.

(** Calls on paragraphs can take turns in any way: if every paragraph gets its
    calls in the same order, the documents are the same, and so are panics. *)
Theorem C83_turns : forall (L : GoLib) l1 l l' l2, Forall plain_call l -> Forall plain_call l' -> weaves l l' -> formatted_first (l1 ++ l ++ l2)%list ->
  documents (l1 ++ l ++ l2)%list = documents (l1 ++ l' ++ l2)%list.
Proof. exact @woven. Qed.
Print Assumptions C83_turns.

(** With hyperlinks among the calls it does not hold: their ids are given out in
    the order of the calls. *)
Theorem C83_links_refuted : exists (L : GoLib) l1 l l', weaves l l' /\ formatted_first (l1 ++ l)%list /\ documents (l1 ++ l)%list <> documents (l1 ++ l')%list.
Proof. exact links_differ. Qed.
Print Assumptions C83_links_refuted.

Definition ex_lib : GoLib := {| lib_float := fun _ => None; lib_md5 := fun s => s; lib_imgsize := fun s => Some (i64_of 1, i64_of 1, "png") |}.
Definition ex_start : list op := [ONew; OAddPara 0; OTable 0 (i64_of 1) (i64_of 1) (i64_of 100) None; OCellPara 0 1 0 0; ONew].
Definition ex_a (o : pop) : op := OPara 0 (ABody 0) o.
Definition ex_b (o : pop) : op := OPara 0 (ACell 1 0 0 0) o.
Definition ex_l : list op := [ex_a (OText "x"); ex_a (ORun 0 RBold); ex_a OTab; ex_b (OText "y"); ex_b (OJc "center"); ex_b (ORun 0 (RColor "red"))].
Definition ex_l' : list op := [ex_b (OText "y"); ex_a (OText "x"); ex_b (OJc "center"); ex_a (ORun 0 RBold); ex_b (ORun 0 (RColor "red")); ex_a OTab].
Lemma ex_weaves : weaves ex_l ex_l'.
Proof.
  intros d a. destruct (on_para d a (ex_a OTab)) eqn:A; [|destruct (on_para d a (ex_b OTab)) eqn:B].
  - apply on_para_spec in A. destruct A as [p A]. injection A as <- <- _. reflexivity.
  - apply on_para_spec in B. destruct B as [p B]. injection B as <- <- _. reflexivity.
  - assert (XA : forall o, on_para d a (ex_a o) = false) by (intros; exact A). assert (XB : forall o, on_para d a (ex_b o) = false) by (intros; exact B).
    unfold ex_l, ex_l'. cbn [filter]. now rewrite !XA, !XB.
Qed.
Example C83_turns_ex : Forall plain_call ex_l /\ Forall plain_call ex_l' /\ weaves ex_l ex_l' /\ formatted_first (ex_start ++ ex_l ++ [OAppend 1 0])%list /\
  match @documents ex_lib (ex_start ++ ex_l' ++ [OAppend 1 0])%list with
  | Some w => map (fun d => map (fun a => match get_para (d_items d) a with Some p => length (para_children p) | None => 0 end) [ABody 0; ACell 1 0 0 0]) w = [[2; 1]; [2; 1]]
  | None => False
  end.
Proof.
  split; [repeat constructor|]. split; [repeat constructor|]. split; [exact ex_weaves|]. split; [|vm_compute; reflexivity].
  exists (ex_start ++ ex_l)%list, [OAppend 1 0]. split; [reflexivity|]. split; intros o I; cbn in I; repeat destruct I as [<-|I]; try reflexivity; destruct I.
Qed.
