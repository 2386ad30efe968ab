(** Specification for calls on separate documents. *)
From Coq Require Import String List Bool Arith.
From Verif Require Import GoStr Num Lib Types Docx History Alias SpecAlias.
Import ListNotations.
Local Open Scope list_scope.

(** the document a call works on; calls that make a new document, and the split
    of a document, change none *)
Definition works_on (o : op) : option nat :=
  match o with
  | OPara d _ _ | OAddPara d | OCellPara d _ _ _ | OTable d _ _ _ _ | OTwips d _ _ _ _ | OTableJc d _ _ | ORowJc d _ _ _
  | OCellShade d _ _ _ _ _ _ | OPage d _ | OTemplate d _ | OKeep d _ | ODropAll d _ | OAppend d _ => Some d
  | ODetached p _ => para_file p
  | ONew | OLoad _ _ | OSplit _ _ | OParse _ => None
  end.
(** a document it takes content from *)
Definition takes_from (o : op) : option nat :=
  match o with OAppend _ from => Some from | OSplit d _ => Some d | _ => None end.

(** the documents that matter; calls that work on another one are left out *)
Definition matters (S : nat -> bool) (o : op) : bool := match works_on o with Some d => S d | None => true end.
(** what is taken into a document that matters comes from one that matters *)
Definition closed_under (S : nat -> bool) (o : op) : Prop :=
  matters S o = true -> forall from, takes_from o = Some from -> S from = true.

(** neither works on a document of the other *)
Definition separate (o1 o2 : op) : Prop :=
  (exists i, works_on o1 = Some i /\ works_on o2 <> Some i /\ takes_from o2 <> Some i) /\
  (exists j, works_on o2 = Some j /\ works_on o1 <> Some j /\ takes_from o1 <> Some j).

(** copies share the objects of properties with their source; here everything is
    formatted before anything is copied *)
Definition formatted_first (l : list op) : Prop :=
  exists l1 l2, l = (l1 ++ l2)%list /\ (forall o, In o l1 -> copies o = false) /\ (forall o, In o l2 -> formats o = false).
(** the documents in memory after the calls *)
Definition documents `{GoLib} (l : list op) : option world := match h_run_ops l mem0 with Some m => view m | None => None end.
