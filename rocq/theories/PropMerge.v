(** Properties of MergeText and its rules. *)
From Coq Require Import String Ascii List Bool Arith NArith ZArith.
From Verif Require Import GoStr Num Lib Types Docx Text Api Copy History Merge SpecApi SpecMerge SpecMerge2 MergeFacts MergeFacts2 MergeFacts3 MergeFacts4 MergeFacts5 MergeFacts6 PropApi RuleFacts.
Import ListNotations.
Local Open Scope list_scope.
Local Open Scope string_scope.

(** C23, the full statement: for every rule f, every paragraph p and every
    result p', merge_text f p = Ok p' -> para_string w p' = para_string w p. It
    fails for paragraphs made by the API: text before a tab is replaced by the
    text after it, and text moves across a hyperlink. *)
Theorem C23_refuted : exists (L : GoLib) l w d p1 p2 q1 q2, run_ops l [] = Some w /\ nth_error w 0 = Some d /\ d_items d = [IPara p1; IPara p2] /\
  merge_text merge_all_runs p1 = Ok q1 /\ merge_text merge_same_prop_runs p2 = Ok q2 /\
  para_string w p1 = Ok (String "010" ("x" ++ String "009" "y")) /\ para_string w q1 = Ok (String "010" ("y" ++ String "009" "y")) /\
  para_string w p2 = Ok "a[t](http://e)b" /\ para_string w q2 = Ok "ab[t](http://e)".
Proof.
  exists ex_lib, [ONew; OAddPara 0; OPara 0 (ABody 0) OBreak; OPara 0 (ABody 0) (OText ("x" ++ String "009" "y"));
    OAddPara 0; OPara 0 (ABody 1) (OText "a"); OPara 0 (ABody 1) (OLink "t" "http://e"); OPara 0 (ABody 1) (OText "b")].
  do 6 eexists. split; [vm_compute; reflexivity|]. split; [reflexivity|]. split; [reflexivity|].
  split; [vm_compute; reflexivity|]. split; [vm_compute; reflexivity|]. vm_compute. auto.
Qed.
Print Assumptions C23_refuted.
(** What is true: everything the reader meets, and with it the text, stays the
    same when no run after the first one has text before a tab, break or drawing
    (it may begin with text if the run before it ends with text) and no run comes
    after a hyperlink that comes after a run. Missing: all other paragraphs. *)
Theorem C23_harmless_partial : forall (L : GoLib) w f p p', mergeable None (para_children p) = true -> merge_text f p = Ok p' ->
  pieces p' = pieces p /\ para_string w p' = para_string w p.
Proof. exact @merge_string. Qed.
Print Assumptions C23_harmless_partial.
Definition ex_merge_para : para := mk_para None
  [PLink "rId1" (mk_runR "" None "t" []); PRun (api_run [RText (mk_text "" "a"); RTab tab0; RText (mk_text "" "b")]);
   PRun (api_run [RText (mk_text "" "c"); RBr ""; RText (mk_text "" "d"); RText (mk_text "" "e")]);
   PRun (mk_runR "" (Some rpr0) "" [RBr "page"; RText (mk_text "" "")]); PRun (api_run [RTab tab0; RText (mk_text "" "f")]);
   PLink "rId2" (mk_runR "" None "u" [])] (Some 0).
Example C23_ex : mergeable None (para_children ex_merge_para) = true /\
  exists p', merge_text merge_all_runs ex_merge_para = Ok p' /\ length (para_children p') = 3 /\
  @para_string ex_lib [new_docx] p' = @para_string ex_lib [new_docx] ex_merge_para.
Proof. split; [reflexivity|]. eexists. split; [vm_compute; reflexivity|]. split; reflexivity. Qed.
(** A rule that always refuses leaves the text of every paragraph alone. *)
Theorem C23_refused_partial : forall (L : GoLib) w f p, (forall a b, f a b = Ok false) ->
  exists p', merge_text f p = Ok p' /\ para_string w p' = para_string w p.
Proof. exact merge_refuse_string. Qed.
Print Assumptions C23_refused_partial.
Example C23_ex_refused : exists p', merge_text (fun _ _ => Ok false) ex_merge_para = Ok p' /\ length (para_children p') = 6.
Proof. eexists. split; [vm_compute; reflexivity|reflexivity]. Qed.

(** What MergeText does to every paragraph, whatever the rule: it decides of each
    run behind the first whether it joins the run before; a group of joined runs
    becomes one run at the place of the first, made as [joined] says, without any
    pointers: text before an object in a run that joins is shown as the final text
    of that run, and text at its beginning continues a text before it. *)
Theorem C23_exactly : forall f p p', merge_text f p = Ok p' -> exists ds, length ds = pred (length (runs p)) /\
  p' = mk_para (para_ppr p) (merged (false :: ds) (para_children p)) (para_file p).
Proof. exact merge_any. Qed.
Print Assumptions C23_exactly.
(** The decisions of a rule that looks at the properties. *)
Theorem C23_exactly_props : forall f same p, (forall a b, f a b = Ok (same (runR_rpr a) (runR_rpr b))) ->
  merge_text f p = Ok (mk_para (para_ppr p) (merged (decisions same None (para_children p)) (para_children p)) (para_file p)).
Proof. exact merge_by_props. Qed.
Print Assumptions C23_exactly_props.
Theorem C23_exactly_all : forall p,
  merge_text merge_all_runs p = Ok (mk_para (para_ppr p) (merged (false :: map (fun _ => true) (runs p)) (para_children p)) (para_file p)).
Proof. exact merge_all_exactly. Qed.
Print Assumptions C23_exactly_all.
Theorem C23_exactly_same : exists same, (forall a b, same a b = true <-> a = b) /\ forall p,
  merge_text merge_same_prop_runs p = Ok (mk_para (para_ppr p) (merged (decisions same None (para_children p)) (para_children p)) (para_file p)).
Proof. exact merge_same_exactly. Qed.
Print Assumptions C23_exactly_same.
(** So no tab, break or drawing is lost, added or moved past another one, and the
    hyperlinks stay. *)
Theorem C23_objects : forall f p p', merge_text f p = Ok p' ->
  flat_map (fun r => filter (fun c => negb (is_text c)) (runR_children r)) (runs p') =
  flat_map (fun r => filter (fun c => negb (is_text c)) (runR_children r)) (runs p) /\
  non_runs p' = non_runs p.
Proof. exact merge_objects. Qed.
Print Assumptions C23_objects.
Definition ex_merge_para3 : para := mk_para None
  [PRun (api_run [RBr ""]); PRun (api_run [RText (mk_text "" "a"); RTab tab0; RText (mk_text "" "b")]); PLink "rId1" (mk_runR "" None "t" []);
   PRun (api_run [RText (mk_text "" "c"); RBr ""; RText (mk_text "" "d"); RBr "page"]); PRun (api_run [RText (mk_text "" "e")])] (Some 0).
Example C23_ex_exactly : merge_text merge_all_runs ex_merge_para3 = Ok (mk_para None
  [PRun (api_run [RBr ""; RText (mk_text "" "bc"); RTab tab0; RText (mk_text "" "bc"); RBr ""; RText (mk_text "" ""); RBr "page"; RText (mk_text "" "e")]);
   PLink "rId1" (mk_runR "" None "t" [])] (Some 0)).
Proof. vm_compute. reflexivity. Qed.

(** C24: with MergeSamePropRuns the runs of the result are made of groups of
    neighbouring runs with equal properties, and neighbours differ. *)
Theorem C24_same_prop : forall p, exists p', merge_text merge_same_prop_runs p = Ok p' /\
  non_runs p' = non_runs p /\
  (exists gs, concat gs = runs p /\ Forall2 (fun g r => g <> [] /\ forall x, In x g -> runR_rpr x = runR_rpr r) gs (runs p')) /\
  (forall a x y b, runs p' = (a ++ x :: y :: b)%list -> runR_rpr x <> runR_rpr y).
Proof. exact merge_same_groups. Qed.
Print Assumptions C24_same_prop.
Example C24_ex : length (runs ex_merge_para) = 4 /\ exists p', merge_text merge_same_prop_runs ex_merge_para = Ok p' /\
  length (runs p') = 1.
Proof. split; [reflexivity|]. eexists. split; [vm_compute; reflexivity|reflexivity]. Qed.
Definition ex_merge_para2 : para := mk_para None
  [PRun (mk_runR "" (Some (set_rpr_bold true rpr0)) "" [RText (mk_text "" "a")]); PRun (mk_runR "" (Some (set_rpr_bold true rpr0)) "" [RText (mk_text "" "b")]);
   PRun (mk_runR "" None "" [RText (mk_text "" "c")]); PRun (mk_runR "" (Some (set_rpr_bold true rpr0)) "" [RText (mk_text "" "d")])] (Some 0).
Example C24_ex2 : exists p', merge_text merge_same_prop_runs ex_merge_para2 = Ok p' /\
  map run_text (runs p') = ["ab"; "c"; "d"].
Proof. eexists. split; [vm_compute; reflexivity|reflexivity]. Qed.
(** A rule that always refuses changes neither number nor order of the children;
    each run keeps its properties and everything in it. *)
Theorem C24_refused : forall f p, (forall a b, f a b = Ok false) ->
  exists p', merge_text f p = Ok p' /\
  Forall2 (fun c c' => match c with
    | PRun r => exists r', c' = PRun r' /\ runR_rpr r' = runR_rpr r /\ runR_instr r' = runR_instr r /\ runR_space r' = runR_space r /\ run_pieces r' = run_pieces r
    | c => c' = c
    end) (para_children p) (para_children p').
Proof. exact merge_refuse. Qed.
Print Assumptions C24_refused.

(** C25: MergeSamePropRuns is equality of the properties. [shared] says whether
    the two runs point to the same properties. *)
Theorem C25_same_prop : forall shared a b, (shared = true -> runR_rpr a = runR_rpr b) ->
  (same_prop shared (Some a) (Some b) = true <-> runR_rpr a = runR_rpr b).
Proof. exact same_prop_spec. Qed.
Print Assumptions C25_same_prop.
Theorem C25_nil : forall shared a b, a = None \/ b = None -> same_prop shared a b = false.
Proof. exact same_prop_nil. Qed.
Print Assumptions C25_nil.
Example C25_ex : same_prop false (Some (mk_runR "" (Some (set_rpr_bold true rpr0)) "" [])) (Some (mk_runR "x" (Some (set_rpr_bold true rpr0)) "y" [RBr ""])) = true /\
  same_prop false (Some (mk_runR "" (Some (set_rpr_kern (Some i0) rpr0)) "" [])) (Some (mk_runR "" (Some (set_rpr_kern (Some (i64_of 1)) rpr0)) "" [])) = false.
Proof. vm_compute. auto. Qed.
(** MergeSamePropRunsOf compares the named properties and no other. *)
Theorem C25_names : forall names a b p q, runR_rpr a = Some p -> runR_rpr b = Some q ->
  (forall n, In n names -> In n (map fst rnames)) ->
  exists v, same_prop_of names false (Some a) (Some b) = Ok v /\
  (v = true <-> forall n f, In n names -> In (n, f) rnames -> rget f p = rget f q).
Proof. exact same_prop_of_spec. Qed.
Print Assumptions C25_names.
Theorem C25_names_nil : forall names shared a b, runR_rpr a = None \/ runR_rpr b = None ->
  exists v, same_prop_of names shared (Some a) (Some b) = Ok v /\ (v = true <-> runR_rpr a = runR_rpr b).
Proof. exact same_prop_of_nil. Qed.
Print Assumptions C25_names_nil.
(** A name that is not a property panics when the names before it compare equal. *)
Theorem C25_unknown_name : forall names1 n names2 a b p q, runR_rpr a = Some p -> runR_rpr b = Some q ->
  (forall m, In m names1 -> exists f, In (m, f) rnames /\ rget f p = rget f q) ->
  ~ In n (map fst rnames) -> n <> "XMLName" -> same_prop_of (names1 ++ n :: names2)%list false (Some a) (Some b) = Panic.
Proof. exact same_prop_of_panic. Qed.
Print Assumptions C25_unknown_name.
(** The two as rules of MergeText, which passes pointers to both runs. *)
Theorem C25_rule : forall a b, exists v, merge_same_prop_runs a b = Ok v /\ (v = true <-> runR_rpr a = runR_rpr b).
Proof. exact rule_same_prop. Qed.
Print Assumptions C25_rule.
Theorem C25_rule_names : forall names a b, (forall n, In n names -> In n (map fst rnames)) ->
  exists v, merge_same_prop_runs_of names a b = Ok v /\
  (v = true <-> (runR_rpr a = None /\ runR_rpr b = None) \/
     exists p q, runR_rpr a = Some p /\ runR_rpr b = Some q /\ forall n f, In n names -> In (n, f) rnames -> rget f p = rget f q).
Proof. exact rule_same_prop_of. Qed.
Print Assumptions C25_rule_names.
Example C25_ex_names :
  same_prop_of ["Bold"; "Size"] false (Some (mk_runR "" (Some (set_rpr_bold true rpr0)) "" [])) (Some (mk_runR "" (Some (set_rpr_bold true (set_rpr_color (Some "x") rpr0))) "" [])) = Ok true /\
  same_prop_of ["Bold"; "bold"] false (Some (mk_runR "" (Some (set_rpr_bold true rpr0)) "" [])) (Some (mk_runR "" (Some (set_rpr_bold true rpr0)) "" [])) = Panic /\
  same_prop_of ["Bold"; "bold"] false (Some (mk_runR "" (Some (set_rpr_bold true rpr0)) "" [])) (Some (mk_runR "" (Some rpr0) "" [])) = Ok false.
Proof. vm_compute. auto. Qed.
Example C25_ex_rule : (forall n, In n ["Bold"; "Size"] -> In n (map fst rnames)) /\
  merge_same_prop_runs_of ["Bold"; "Size"] (mk_runR "" (Some (set_rpr_bold true rpr0)) "" []) (mk_runR "" (Some (set_rpr_bold true (set_rpr_color (Some "x") rpr0))) "" []) = Ok true /\
  merge_same_prop_runs_of ["Bold"; "Size"] (mk_runR "" (Some (set_rpr_bold true rpr0)) "" []) (mk_runR "" (Some rpr0) "" []) = Ok false /\
  merge_same_prop_runs (mk_runR "" (Some (set_rpr_bold true rpr0)) "" []) (mk_runR "" (Some (set_rpr_bold true (set_rpr_color (Some "x") rpr0))) "" []) = Ok false.
Proof. split; [intros n [<-|[<-|[]]]; cbn; tauto|vm_compute; auto]. Qed.
