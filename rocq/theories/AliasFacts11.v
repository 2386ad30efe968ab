(** Documents in memory: histories in which a call on a copy changes the source. *)
From Coq Require Import String List Bool Arith ZArith Lia.
From Verif Require Import GoStr Num Lib Types Docx Api Keep Copy History Alias SpecAlias AliasFacts10.
Import ListNotations.
Local Open Scope list_scope.
Local Open Scope string_scope.

(** a document with a text and a second document with its copy *)
Definition ex_append : list op := [ONew; OAddPara 0; OPara 0 (ABody 0) (OText "text"); ONew; OAppend 1 0].
(** a document and the parts it is split into *)
Definition ex_split : list op := [ONew; OAddPara 0; OPara 0 (ABody 0) (OText "text"); OSplit 0 (fun _ => Ok true)].
Lemma append_changes : forall (L : GoLib), exists m W m' W', h_run_ops ex_append mem0 = Some m /\ view m = Some W /\
  hexec (OPara 1 (ABody 0) (ORun 0 RBold)) m = Ok m' /\ view m' = Some W' /\ body W' 0 <> body W 0.
Proof.
  intros L. eexists _, _, _, _. split; [vm_compute; reflexivity|]. split; [vm_compute; reflexivity|]. split; [vm_compute; reflexivity|]. split; [vm_compute; reflexivity|].
  vm_compute. discriminate.
Qed.
Lemma split_changes : forall (L : GoLib), exists m W m' W', h_run_ops ex_split mem0 = Some m /\ view m = Some W /\
  hexec (OPara 1 (ABody 0) (ORun 0 (RColor "FF0000"))) m = Ok m' /\ view m' = Some W' /\ body W' 0 <> body W 0.
Proof.
  intros L. eexists _, _, _, _. split; [vm_compute; reflexivity|]. split; [vm_compute; reflexivity|]. split; [vm_compute; reflexivity|]. split; [vm_compute; reflexivity|].
  vm_compute. discriminate.
Qed.
Lemma ppr_changes : forall (L : GoLib), exists l m W m' W', (exists d s, In (OAppend d s) l) /\ h_run_ops l mem0 = Some m /\ view m = Some W /\
  hexec (OPara 1 (ABody 0) (OStyle "Title")) m = Ok m' /\ view m' = Some W' /\ body W' 0 <> body W 0.
Proof.
  intros L. exists [ONew; OAddPara 0; OPara 0 (ABody 0) (OJc "center"); ONew; OAppend 1 0]. eexists _, _, _, _. split; [exists 1, 0; cbn; tauto|].
  split; [vm_compute; reflexivity|]. split; [vm_compute; reflexivity|]. split; [vm_compute; reflexivity|]. split; [vm_compute; reflexivity|].
  vm_compute. discriminate.
Qed.
Lemma some_change : forall (L : GoLib), exists l m W o m' W' s, (exists d, In (OAppend d s) l) /\ h_run_ops l mem0 = Some m /\ view m = Some W /\
  hexec o m = Ok m' /\ view m' = Some W' /\ target o <> Some s /\ s < length W /\ body W' s <> body W s.
Proof.
  intros L. destruct (append_changes L) as (m & W & m' & W' & E & V & E' & V' & Ne). exists ex_append, m, W, (OPara 1 (ABody 0) (ORun 0 RBold)), m', W', 0.
  split; [exists 1; cbn; tauto|]. repeat (split; [assumption|]). split; [cbn; discriminate|]. split; [|exact Ne].
  destruct W; [exfalso; apply Ne; clear Ne; unfold body|cbn; lia]. vm_compute in E. inversion E; subst. vm_compute in V. discriminate.
Qed.
Lemma some_change_split : forall (L : GoLib), exists l m W o m' W' s, (exists sep, In (OSplit s sep) l) /\ h_run_ops l mem0 = Some m /\ view m = Some W /\
  hexec o m = Ok m' /\ view m' = Some W' /\ target o <> Some s /\ s < length W /\ body W' s <> body W s.
Proof.
  intros L. destruct (split_changes L) as (m & W & m' & W' & E & V & E' & V' & Ne). exists ex_split, m, W, (OPara 1 (ABody 0) (ORun 0 (RColor "FF0000"))), m', W', 0.
  split; [eexists; cbn; eauto 6|]. repeat (split; [assumption|]). split; [cbn; discriminate|]. split; [|exact Ne].
  destruct W; [exfalso; apply Ne; clear Ne; unfold body|cbn; lia]. vm_compute in E. inversion E; subst. vm_compute in V. discriminate.
Qed.
