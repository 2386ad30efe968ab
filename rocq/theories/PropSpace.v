(** Properties of white space at the ends of text. *)
From Coq Require Import String Ascii List Bool Arith NArith ZArith.
From Verif Require Import GoStr Num Lib Types XmlTok Unmarshal Lex Marshal Docx Api Merge Pack History SpecXml SpecMerge SpecSpace SpaceFacts.
Import ListNotations.
Local Open Scope list_scope.
Local Open Scope string_scope.
Definition ex_lib : GoLib := {| lib_float := fun _ => None; lib_md5 := fun s => s; lib_imgsize := fun _ => None |}.
Definition para0 : para := mk_para None [] None.

(** C65, the full statement: for every t and p, seen (m_para (add_text t p)) =
    seen (m_para p) ++ t, and merging does not change what is seen. Both fail:
    AddText sets no xml:space, and MergeText takes it away from loaded text. *)
Theorem C65_refuted : exists (L : GoLib) l w d p, run_ops l [] = Some w /\ nth_error w 0 = Some d /\ d_items d = [IPara p] /\
  para_children p = para_children (add_text "b" (add_text "a " para0)) /\ stored (m_para p) = "a b" /\ seen (m_para p) = "ab".
Proof.
  exists ex_lib, [ONew; OAddPara 0; OPara 0 (ABody 0) (OText "a "); OPara 0 (ABody 0) (OText "b")]. do 3 eexists.
  split; [vm_compute; reflexivity|]. split; [reflexivity|]. split; [reflexivity|]. vm_compute. auto.
Qed.
Print Assumptions C65_refuted.

(** What is true: the text is stored as given; what is seen of it is each piece
    between tabs and line ends without the white space around it. So all of it
    is seen exactly if no piece has white space at its ends. *)
Theorem C65_stored : forall t p, stored (m_para (add_text t p)) = stored (m_para p) ++ t.
Proof. exact added_stored. Qed.
Print Assumptions C65_stored.
Theorem C65_seen : forall t p, seen (m_para (add_text t p)) = seen (m_para p) ++ trimmed t.
Proof. exact added_seen. Qed.
Print Assumptions C65_seen.
Theorem C65_seen_exactly : forall t p, seen (m_para (add_text t p)) = seen (m_para p) ++ t <-> all_tight t.
Proof. exact added_iff. Qed.
Print Assumptions C65_seen_exactly.
Example C65_ex : trimmed (" a  b " ++ TABs ++ "c " ++ NLs ++ " d") = "a  b" ++ TABs ++ "c" ++ NLs ++ "d" /\
  seen (m_para (add_text (" a  b " ++ TABs ++ "c") para0)) = "a  b" ++ TABs ++ "c" /\ tight "a  b".
Proof.
  split; [reflexivity|]. split; [reflexivity|]. apply trim_same. reflexivity.
Qed.

(** Loading a text and saving it does not change what is seen of it, whatever
    the attributes, as long as "space" is xml:space and there once. *)
Theorem C65_loaded : forall (L : GoLib) f a s, (forall x, In x a -> snd (fst x) = "space" -> fst (fst x) = "xml") ->
  length (filter (fun x : attr => String.eqb (snd (fst x)) "space") a) <= 1 ->
  exists x, parse_document f (toks (run_doc [Elem (w "t") a [Chr s]])) = (run_items f None [RText x], SOk) /\
  forall all k, shown all k (m_text x) = shown all k (Elem (w "t") a [Chr s]).
Proof. exact @loaded_space. Qed.
Print Assumptions C65_loaded.
Definition ex_marked : tree := Elem (w "t") [(xml_ "space", "preserve")] [Chr " a "].
Example C65_ex_loaded : exists x, @parse_document ex_lib None (toks (run_doc [ex_marked])) = (run_items None None [RText x], SOk) /\
  seen (m_text x) = " a ".
Proof. eexists. split; vm_compute; reflexivity. Qed.

(** MergeText: no text of a run of the result has a mark, so white space at its
    ends is not seen any more. *)
Theorem C65_merge_unmarked : forall f p p', merge_text f p = Ok p' ->
  forall r x, In (PRun r) (para_children p') -> In (RText x) (runR_children r) -> text_space x = "".
Proof. exact merge_unmarked. Qed.
Print Assumptions C65_merge_unmarked.
Theorem C65_merge_refuted : exists (L : GoLib) p p', parse_document None (toks (run_doc [ex_marked])) = ([IPara p], SOk) /\
  merge_text merge_all_runs p = Ok p' /\ seen (m_para p) = " a " /\ seen (m_para p') = "a".
Proof. exists ex_lib. do 2 eexists. repeat split; vm_compute; reflexivity. Qed.
Print Assumptions C65_merge_refuted.
(** It is seen as before when it needed no mark and merging is harmless (C23).
    Missing: all other paragraphs. *)
Theorem C65_merge_partial : forall f p p', mergeable None (para_children p) = true -> plain_runs (para_children p) -> merge_text f p = Ok p' ->
  seen (m_para p') = seen (m_para p).
Proof. exact merge_seen. Qed.
Print Assumptions C65_merge_partial.
Definition ex_tight : para := add_text ("a b" ++ TABs) (add_text "c" para0).
Example C65_ex_merge : mergeable None (para_children ex_tight) = true /\ plain_runs (para_children ex_tight) /\
  exists p', merge_text merge_all_runs ex_tight = Ok p' /\ length (para_children p') = 1 /\ seen (m_para p') = "ca b" ++ TABs.
Proof.
  split; [reflexivity|]. split; [|eexists; split; [vm_compute; reflexivity|split; reflexivity]].
  intros r [[= <-]|[[= <-]|[]]]; (split; [reflexivity|]); intros x I; cbn in I; decompose [or] I; try discriminate; try contradiction;
  match goal with E : RText _ = RText x |- _ => injection E as <- end; apply trim_same; reflexivity.
Qed.
