(** The template can be chosen at any time. *)
From Coq Require Import String List Bool Arith ZArith.
From Verif Require Import GoStr Num Lib Types Docx Api Pack History Alias SpecAlias SpecSep SpecAnyTime AnyTimeFacts.
Import ListNotations.
Local Open Scope list_scope.
Local Open Scope string_scope.

(** UseTemplate can be called before or after a stretch of calls that change the
    content of documents, this one among them: the documents are the same, and so
    are panics. *)
Theorem C85_any_time : forall (L : GoLib) l1 e t l l2, Forall edits l -> formatted_first (l1 ++ (OTemplate e t :: l) ++ l2)%list ->
  documents (l1 ++ (OTemplate e t :: l) ++ l2)%list = documents (l1 ++ (l ++ [OTemplate e t]) ++ l2)%list.
Proof. exact @template_any_time. Qed.
Print Assumptions C85_any_time.

(** A template that is replaced later by another leaves no trace. *)
Theorem C85_replaced : forall (L : GoLib) l1 e t t' l l2, Forall edits l -> formatted_first (l1 ++ (OTemplate e t :: l ++ [OTemplate e t']) ++ l2)%list ->
  documents (l1 ++ (OTemplate e t :: l ++ [OTemplate e t']) ++ l2)%list = documents (l1 ++ (l ++ [OTemplate e t']) ++ l2)%list.
Proof. exact @template_replaced. Qed.
Print Assumptions C85_replaced.

(** Over SplitByParagraph it cannot be moved: the parts get the template the
    document has then. *)
Theorem C85_split_refuted : exists (L : GoLib) l1 e t d sep, formatted_first (l1 ++ [OTemplate e t; OSplit d sep])%list /\
  documents (l1 ++ [OTemplate e t; OSplit d sep])%list <> documents (l1 ++ [OSplit d sep; OTemplate e t])%list.
Proof. exact split_before. Qed.
Print Assumptions C85_split_refuted.

Definition ex_lib : GoLib := {| lib_float := fun _ => None; lib_md5 := fun s => s; lib_imgsize := fun s => Some (i64_of 1, i64_of 1, "png") |}.
Definition ex_t (s : string) : tmpl := mk_tmpl s (fun n => FNone) ["a.xml"].
Definition ex_l : list op :=
  [OAddPara 0; OPara 0 (ABody 0) (OLink "x" "http://x"); OAppend 1 0; OPara 0 (ABody 0) (ODrawing false "p"); OAddPara 1; OPage 0 true; OKeep 0 ["*docx.Paragraph"]].
Lemma ex_first : forall l, forallb (fun o => negb (formats o)) l = true -> formatted_first l.
Proof. intros l F. exists [], l. split; [reflexivity|]. split; [intros o []|]. rewrite forallb_forall in F. intros o I. apply F in I. now destruct (formats o). Qed.
Definition ex_names (o : option world) : list (string * nat) := match o with Some w => map (fun d => (t_name (d_tmpl d), length (d_items d))) w | None => [] end.
Example C85_any_time_ex : Forall edits ex_l /\ formatted_first ([ONew; ONew] ++ (OTemplate 0 (ex_t "t") :: ex_l) ++ [OAddPara 1])%list /\
  ex_names (@documents ex_lib ([ONew; ONew] ++ (ex_l ++ [OTemplate 0 (ex_t "t")]) ++ [OAddPara 1])%list) = [("t", 1); ("", 3)].
Proof. split; [repeat constructor|]. split; [now apply ex_first|vm_compute; reflexivity]. Qed.
Example C85_replaced_ex : Forall edits ex_l /\ formatted_first ([ONew; ONew] ++ (OTemplate 0 (ex_t "t") :: ex_l ++ [OTemplate 0 (ex_t "u")]) ++ [OSplit 1 (fun _ => Ok false)])%list /\
  ex_names (@documents ex_lib ([ONew; ONew] ++ (OTemplate 0 (ex_t "t") :: ex_l ++ [OTemplate 0 (ex_t "u")]) ++ [OSplit 1 (fun _ => Ok false)])%list) = [("u", 1); ("", 2); ("", 2)].
Proof. split; [repeat constructor|]. split; [now apply ex_first|vm_compute; reflexivity]. Qed.
