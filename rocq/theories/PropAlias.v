(** Property theorems: documents in memory, copies and sources. *)
From Coq Require Import String List Bool Arith ZArith Lia.
From Verif Require Import GoStr Num Lib Types Docx Api Keep Copy History Alias SpecAlias AliasFacts10 AliasFacts11.
Import ListNotations.
Local Open Scope list_scope.
Local Open Scope string_scope.

Definition ex_lib : GoLib := {| lib_float := fun _ => None; lib_md5 := fun s => s; lib_imgsize := fun _ => None |}.

(** C44: as long as formatting calls write only to objects that are reached in
    one way, the documents in memory are those of the model on values, in which
    no call changes another document's body. *)
Theorem C44_own : forall (L : GoLib) l, apart l mem0 -> same_history l mem0 [].
Proof. exact own_spec. Qed.
Print Assumptions C44_own.

(** That holds when everything is formatted before anything is copied. *)
Theorem C44_format_before_copy : forall (L : GoLib) l1 l2,
  (forall o, In o l1 -> copies o = false) -> (forall o, In o l2 -> formats o = false) -> same_history (l1 ++ l2) mem0 [].
Proof. exact before_copy_spec. Qed.
Print Assumptions C44_format_before_copy.

(** Second half: no call that adds, drops or copies content changes the body of
    a document other than its own, whatever was shared before. *)
Theorem C44_content : forall (L : GoLib) l m W o m' W' s, h_run_ops l mem0 = Some m -> view m = Some W ->
  hexec o m = Ok m' -> view m' = Some W' -> target o <> Some s -> s < length W -> formats o = false -> body W' s = body W s.
Proof. exact content_spec. Qed.
Print Assumptions C44_content.

(** First half, for formatting calls whose objects are not reached from the
    other document. *)
Theorem C44_other_partial : forall (L : GoLib) l m W o m' W' s, h_run_ops l mem0 = Some m -> view m = Some W ->
  hexec o m = Ok m' -> view m' = Some W' -> target o <> Some s -> s < length W ->
  (forall b, In b (written o m) -> ~ In b (reach_of m s)) -> body W' s = body W s.
Proof. exact other_spec. Qed.
Print Assumptions C44_other_partial.

(** The first half fails after AppendFile and after SplitByParagraph. *)
Theorem C44_refuted : forall (L : GoLib), exists l m W o m' W' s, (exists d, In (OAppend d s) l) /\ h_run_ops l mem0 = Some m /\ view m = Some W /\
  hexec o m = Ok m' /\ view m' = Some W' /\ target o <> Some s /\ s < length W /\ body W' s <> body W s.
Proof. exact some_change. Qed.
Print Assumptions C44_refuted.
Theorem C44_split_refuted : forall (L : GoLib), exists l m W o m' W' s, (exists sep, In (OSplit s sep) l) /\ h_run_ops l mem0 = Some m /\ view m = Some W /\
  hexec o m = Ok m' /\ view m' = Some W' /\ target o <> Some s /\ s < length W /\ body W' s <> body W s.
Proof. exact some_change_split. Qed.
Print Assumptions C44_split_refuted.

(** What a styling call on a run changes, exactly: every run with the same
    properties object is changed as if the call was made on it, in whatever
    document it is; every other run is unchanged. *)
Theorem C44_styled_runs : forall (L : GoLib) l m W d a k o m' W', h_run_ops l mem0 = Some m -> view m = Some W -> styles o = true ->
  hexec (OPara d a (ORun k o)) m = Ok m' -> view m' = Some W' ->
  exists b, run_ptr m d a k = Some b /\
  forall d2 a2 k2,
    (run_ptr m d2 a2 k2 = Some b -> exists r, run_at W d2 a2 k2 = Some r /\ after o r <> None /\ run_at W' d2 a2 k2 = after o r) /\
    (run_ptr m d2 a2 k2 <> Some b -> run_at W' d2 a2 k2 = run_at W d2 a2 k2).
Proof. exact style_spec. Qed.
Print Assumptions C44_styled_runs.

(** After AppendFile, styling a run of the copy always styles the run of the
    source it was copied from. *)
Theorem C44_copy_styles_source : forall (L : GoLib) l m W d from m1 W1 l0 i p p1 k r o m2 W2, h_run_ops l mem0 = Some m -> view m = Some W ->
  hexec (OAppend d from) m = Ok m1 -> view m1 = Some W1 -> body W d = Some l0 ->
  para_at W from (ABody i) = Some p -> para_at W1 d (ABody (length l0 + i)) = Some p1 -> length (para_children p1) = length (para_children p) ->
  run_at W from (ABody i) k = Some r -> styles o = true ->
  hexec (OPara d (ABody (length l0 + i)) (ORun k o)) m1 = Ok m2 -> view m2 = Some W2 ->
  run_at W2 from (ABody i) k = after o r.
Proof. exact shared_spec. Qed.
Print Assumptions C44_copy_styles_source.

(** ** Cases *)
(** a history of formatting, copying, and adding to the copy *)
Definition ex_history : list op :=
  [ONew; OAddPara 0; OPara 0 (ABody 0) (OText "text"); OPara 0 (ABody 0) (ORun 0 RBold); OPara 0 (ABody 0) (OJc "center");
   OTable 0 (i64_of 1) (i64_of 2) (i64_of 0) None; OTableJc 0 1 "center"].
Definition ex_more : list op := [ONew; OAppend 1 0; OAddPara 1; OPara 1 (ABody 2) (OText "more"); OSplit 0 (fun _ => Ok true); OPara 1 (ABody 0) (OText "!")].
Example C44_case_before : @same_history ex_lib (ex_history ++ ex_more)%list mem0 [].
Proof. apply C44_format_before_copy; intros o H; cbn in H; intuition; subst; reflexivity. Qed.
Example C44_case_before_runs : exists W, @run_ops ex_lib (ex_history ++ ex_more)%list [] = Some W /\ length W = 3 /\ body W 0 <> None /\ body W 0 <> body W 1.
Proof. eexists. split; [vm_compute; reflexivity|]. vm_compute. intuition discriminate. Qed.
(** formatting after copying, of what was added to the copy *)
Example C44_case_own : @same_history ex_lib ([ONew; OAddPara 0; OPara 0 (ABody 0) (OText "text"); ONew; OAppend 1 0; OPara 1 (ABody 0) (OText "!"); OPara 1 (ABody 0) (ORun 1 RBold)]) mem0 [].
Proof. apply C44_own. vm_compute. intuition (subst; auto). Qed.
(** the copy's own run is styled, the run shared with the source is not *)
Example C44_case_other : exists m W m' W', @h_run_ops ex_lib (ex_append ++ [OPara 1 (ABody 0) (OText "!")])%list mem0 = Some m /\ view m = Some W /\
  @hexec ex_lib (OPara 1 (ABody 0) (ORun 1 RBold)) m = Ok m' /\ view m' = Some W' /\
  (forall b, In b (written (OPara 1 (ABody 0) (ORun 1 RBold)) m) -> ~ In b (reach_of m 0)) /\ written (OPara 1 (ABody 0) (ORun 1 RBold)) m <> [] /\ body W' 1 <> body W 1.
Proof.
  eexists _, _, _, _. split; [vm_compute; reflexivity|]. split; [vm_compute; reflexivity|]. split; [vm_compute; reflexivity|]. split; [vm_compute; reflexivity|].
  split; [vm_compute; intuition (subst; discriminate)|]. split; [vm_compute; discriminate|vm_compute; discriminate].
Qed.
(** adding to the copy after sharing *)
Example C44_case_content : exists m W m' W', @h_run_ops ex_lib ex_append mem0 = Some m /\ view m = Some W /\
  @hexec ex_lib (OPara 1 (ABody 0) (OText "!")) m = Ok m' /\ view m' = Some W' /\ body W' 1 <> body W 1 /\ 0 < length W.
Proof.
  eexists _, _, _, _. split; [vm_compute; reflexivity|]. split; [vm_compute; reflexivity|]. split; [vm_compute; reflexivity|]. split; [vm_compute; reflexivity|].
  split; [vm_compute; discriminate|vm_compute; lia].
Qed.
(** styling a shared run *)
Example C44_case_shared : exists m W m1 W1 p p1 r m2 W2, @h_run_ops ex_lib [ONew; OAddPara 0; OPara 0 (ABody 0) (OText "text"); ONew; OAddPara 1] mem0 = Some m /\ view m = Some W /\
  @hexec ex_lib (OAppend 1 0) m = Ok m1 /\ view m1 = Some W1 /\ body W 1 = Some [IPara (mk_para None [] (Some 1))] /\
  para_at W 0 (ABody 0) = Some p /\ para_at W1 1 (ABody (1 + 0)) = Some p1 /\ length (para_children p1) = length (para_children p) /\
  run_at W 0 (ABody 0) 0 = Some r /\ @hexec ex_lib (OPara 1 (ABody (1 + 0)) (ORun 0 RBold)) m1 = Ok m2 /\ view m2 = Some W2 /\ after RBold r <> Some r.
Proof.
  eexists _, _, _, _, _, _, _, _, _. do 11 (split; [vm_compute; reflexivity|]). vm_compute. discriminate.
Qed.
