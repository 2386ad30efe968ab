(** C60: a document reads the same after saving and opening again. *)
From Coq Require Import String Ascii List Bool Arith NArith ZArith Permutation.
From Verif Require Import GoStr Num Lib Types Docx Api Text Lex Reload Pack History SpecLex SpecPack SpecReopen PackFacts LexFacts3 StableFacts2 ReopenFacts ReopenFacts2.
Import ListNotations.
Local Open Scope list_scope.
Local Open Scope string_scope.

(** A document of a history of legal calls that was written without error can be
    parsed: the body is the one that was written (up to the losses of
    [reload_item]), with the same relationships and pictures. *)
Theorem C60_reopen : forall (L : GoLib) l w i d ar f, Forall legal_call l -> run_ops l [] = Some w -> nth_error w i = Some d ->
  (N.of_nat (length (rels (d_reg d))) < 2 ^ 62)%N -> no_media_tmpl d -> writes d (Ok ar) ->
  exists d', unpack f ar = Ok d' /\ d_items d' = map (reload_item (Some f)) (d_items d) /\
    rels (d_reg d') = rels (d_reg d) /\ relns (d_reg d') = relns (d_reg d) /\
    Permutation (media (d_reg d')) (media (d_reg d)) /\
    (forall m, In m (media (d_reg d)) <-> media_of (d_reg d') (fst m) = Ok (Some m)).
Proof. exact @reopen. Qed.
Print Assumptions C60_reopen.

(** What String gave for a paragraph or a table, it gives for the paragraph or
    table at the same place of the document opened again. *)
Theorem C60_texts : forall (L : GoLib) l w i d ar, Forall legal_call l -> run_ops l [] = Some w -> nth_error w i = Some d ->
  (N.of_nat (length (rels (d_reg d))) < 2 ^ 62)%N -> no_media_tmpl d -> writes d (Ok ar) ->
  exists d', exec (OParse ar) w = Ok (w ++ [d'])%list /\
    (forall a p s, get_para (d_items d) a = Some p -> para_string w p = Ok s -> exists p', get_para (d_items d') a = Some p' /\ para_string (w ++ [d'])%list p' = Ok s) /\
    (forall k t s, nth_error (d_items d) k = Some (ITable t) -> table_string w t = Ok s ->
       exists t', nth_error (d_items d') k = Some (ITable t') /\ table_string (w ++ [d'])%list t' = Ok s).
Proof. exact @reopen_texts. Qed.
Print Assumptions C60_texts.

(** A document with text, tab, line break, link, shape and table, which is
    appended to a second one; that one gets a picture and is saved. *)
Definition ex_lib : GoLib := {| lib_float := fun _ => None; lib_md5 := fun s => s;
  lib_imgsize := fun s => match s with String "P"%char _ => Some (i64_of 400, i64_of 300, "png") | _ => None end |}.
Definition ex_ops : list op :=
  [ONew; OAddPara 0; OPara 0 (ABody 0) (OText ("a" ++ String "009" ("<b>" ++ String "010" "c&d"))); OPara 0 (ABody 0) (OLink "e" "https://e"); OPara 0 (ABody 0) (ORun 0 RBold);
   OPara 0 (ABody 0) (OShape false (i64_of 10) (i64_of 10) "box" "auto" "rect" None);
   OTable 0 (i64_of 2) (i64_of 2) (i64_of 100) None; OCellPara 0 1 1 0; OPara 0 (ACell 1 1 0 0) (OText "f");
   ONew; OAppend 1 0; OAddPara 1; OPara 1 (ABody 2) (ODrawing false "P")].
Definition ex_doc (l : list op) (i : nat) : docx := match @run_ops ex_lib l [] with Some w => nth i w new_docx | None => new_docx end.
Definition ex_archive (d : docx) : archive := match pack_files d with Ok m => m | _ => [] end.
Definition ex_texts (w : world) (i : nat) : list (option string) :=
  match nth_error w i with
  | Some d => map (fun x => match x with
                            | IPara p => match @para_string ex_lib w p with Ok s => Some s | _ => None end
                            | ITable t => match @table_string ex_lib w t with Ok s => Some s | _ => None end
                            | _ => None
                            end) (d_items d)
  | None => []
  end.
Definition ex_reopened (l : list op) (i : nat) : world :=
  match @run_ops ex_lib l [] with Some w => match @exec ex_lib (OParse (ex_archive (nth i w new_docx))) w with Ok w' => w' | _ => [] end | None => [] end.
Lemma ex_writes : forall d, match pack_files d with Ok m => forallb (fun x => match write_entry x with Ok _ => true | _ => false end) m | _ => false end = true -> writes d (Ok (ex_archive d)).
Proof.
  intros d E. unfold writes, ex_archive. destruct (pack_files d) as [m| |]; try discriminate. exists m. split; [apply Permutation_refl|]. symmetry. apply write_entries_all.
  apply Forall_forall. intros (k, v) I. rewrite forallb_forall in E. specialize (E _ I). unfold write_entry in *. cbn [fst snd] in *. destruct (65535 <? _)%N; [discriminate|]. destruct v; [|discriminate].
  destruct (_ && _); [discriminate|]. reflexivity.
Qed.
Lemma ex_no_tmpl : forall d, t_list (d_tmpl d) = [] -> no_media_tmpl d.
Proof. intros d E n I. rewrite E in I. destruct I. Qed.
Lemma ex_legal : Forall (@legal_call ex_lib) ex_ops.
Proof.
  repeat (apply Forall_cons; [split; [apply Forall_forall; intros s I; apply xml_by; revert s I; apply forallb_forall; vm_compute; reflexivity|try exact I]|]); [|apply Forall_nil].
  intros a b f E. injection E as <- <- <-. apply xml_by. reflexivity.
Qed.
Example C60_ex : Forall (@legal_call ex_lib) ex_ops /\ writes (ex_doc ex_ops 1) (Ok (ex_archive (ex_doc ex_ops 1))) /\ no_media_tmpl (ex_doc ex_ops 1) /\
  ex_texts (match @run_ops ex_lib ex_ops [] with Some w => w | None => [] end) 1 =
    [Some ("a" ++ String "009" ("<b>" ++ String "010" "c&d[e](https://e)![inlnsp box 1](rect)"));
     Some ("|  :----: | :----: |" ++ String "010" "|        |        |" ++ String "010" "| f |        |"); None] /\
  ex_texts (ex_reopened ex_ops 1) 2 =
    [Some ("a" ++ String "009" ("<b>" ++ String "010" "c&d[e](https://e)![inlnsp box 1](rect)"));
     Some ("|  :----: | :----: |" ++ String "010" "|        |        |" ++ String "010" "| f |        |"); Some ("![inlnim " ++ TUPIAN ++ " 1](P)")].
Proof. split; [exact ex_legal|]. split; [apply ex_writes; vm_compute; reflexivity|]. split; [apply ex_no_tmpl; vm_compute; reflexivity|]. split; vm_compute; reflexivity. Qed.

(** With LoadBodyItems this fails: the items go on looking up links in the
    document they come from; what is saved are the relationships of the new one. *)
Definition ex_items : list item := Eval vm_compute in d_items (ex_doc [ONew; OAddPara 0; OPara 0 (ABody 0) (OLink "e" "https://e")] 0).
Definition ex_load : list op := [ONew; OAddPara 0; OPara 0 (ABody 0) (OLink "e" "https://e"); OLoad ex_items []].
Definition text_is (w : world) (p : para) (s : string) : bool := match @para_string ex_lib w p with Ok t => String.eqb t s | _ => false end.
Definition ex_check (l : list op) (s s' : string) : bool :=
  match @run_ops ex_lib l [] with
  | Some w =>
      match nth_error w 1 with
      | Some d =>
          match pack_files d with Ok m => forallb (fun x => match write_entry x with Ok _ => true | _ => false end) m | _ => false end &&
          match @exec ex_lib (OParse (ex_archive d)) w with
          | Ok w' =>
              match nth_error w' 2 with
              | Some d' => match get_para (d_items d) (ABody 0), get_para (d_items d') (ABody 0) with Some p, Some p' => text_is w p s && text_is w' p' s' | _, _ => false end
              | None => false
              end
          | _ => false
          end
      | None => false
      end
  | None => false
  end.
Lemma ex_checked : forall l s s', ex_check l s s' = true -> exists w d ar w' d' p p', @run_ops ex_lib l [] = Some w /\ nth_error w 1 = Some d /\ writes d (Ok ar) /\
  @exec ex_lib (OParse ar) w = Ok w' /\ nth_error w' 2 = Some d' /\ get_para (d_items d) (ABody 0) = Some p /\ get_para (d_items d') (ABody 0) = Some p' /\
  @para_string ex_lib w p = Ok s /\ @para_string ex_lib w' p' = Ok s'.
Proof.
  intros l s s' E. unfold ex_check in E. destruct (@run_ops ex_lib l []) as [w|] eqn:E1; [|discriminate]. destruct (nth_error w 1) as [d|] eqn:E2; [|discriminate].
  apply andb_prop in E as [E3 E]. destruct (@exec ex_lib (OParse (ex_archive d)) w) as [w'| |] eqn:E4; try discriminate. destruct (nth_error w' 2) as [d'|] eqn:E5; [|discriminate].
  destruct (get_para (d_items d) (ABody 0)) as [p|] eqn:E6; [|discriminate]. destruct (get_para (d_items d') (ABody 0)) as [p'|] eqn:E7; [|discriminate].
  apply andb_prop in E as [E8 E9]. unfold text_is in *. destruct (@para_string ex_lib w p) as [t| |] eqn:T1; try discriminate. destruct (@para_string ex_lib w' p') as [t'| |] eqn:T2; try discriminate.
  apply String.eqb_eq in E8, E9. subst t t'. exists w, d, (ex_archive d), w', d', p, p'. pose proof (ex_writes d E3). repeat (split; [assumption || reflexivity|]). exact T2.
Qed.
Theorem C60_refuted : exists L l w d ar w' d' p p', @run_ops L l [] = Some w /\ nth_error w 1 = Some d /\ writes d (Ok ar) /\
  @exec L (OParse ar) w = Ok w' /\ nth_error w' 2 = Some d' /\ get_para (d_items d) (ABody 0) = Some p /\ get_para (d_items d') (ABody 0) = Some p' /\
  @para_string L w p = Ok "[e](https://e)" /\ @para_string L w' p' = Ok "[e](rId4)".
Proof. exists ex_lib, ex_load. apply ex_checked. vm_compute. reflexivity. Qed.
Print Assumptions C60_refuted.
