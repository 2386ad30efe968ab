(** C69: the package of a document holds what the document uses. *)
From Coq Require Import String Ascii List Bool Arith NArith ZArith Permutation.
From Verif Require Import GoStr Num Lib Types Docx Api Lex Pack History SpecLex SpecPack SpecOpc SpecReopen SpecClean SpecLeft PackFacts StableFacts2 OpcFacts LeftFacts3.
Import ListNotations.
Local Open Scope list_scope.
Local Open Scope string_scope.

(** Full statement: every picture in the saved package is shown in the document
    and every external address is the target of a link in it. It holds for a
    document that is made by New or by SplitByParagraph (from any document) as
    long as nothing is taken out of it; missing are the calls that take
    something out, for which it is false (next theorems). *)
Theorem C69_used_partial : forall (L : GoLib) l1 w l2 w' i d ar, run_ops l1 [] = Some w -> Forall own_or_parsed l1 -> length w <= i ->
  run_ops l2 w = Some w' -> Forall (adding i) l2 -> nth_error w' i = Some d -> no_media_tmpl d -> writes d (Ok ar) -> nothing_left ar.
Proof. exact @history_left. Qed.
Print Assumptions C69_used_partial.

(** What is in the package once stays: no call takes a picture or a relationship
    out of it. *)
Theorem C69_stays : forall (L : GoLib) l1 w l2 w' i d d' ar ar', Forall sane_call l1 -> Forall sane_call l2 -> run_ops l1 [] = Some w -> run_ops l2 w = Some w' ->
  nth_error w i = Some d -> nth_error w' i = Some d' -> (N.of_nat (length (rels (d_reg d'))) < 2 ^ 62)%N -> no_media_tmpl d -> writes d (Ok ar) -> writes d' (Ok ar') ->
  (forall n b, files_of ar ("word/media/" ++ n) b -> files_of ar' ("word/media/" ++ n) b) /\
  (forall r r' a, files_of ar MAIN_RELS r -> files_of ar' MAIN_RELS r' -> In a (elems r "Relationship") -> In a (elems r' "Relationship")).
Proof. exact @history_stays. Qed.
Print Assumptions C69_stays.

Definition ex_lib : GoLib := {| lib_float := fun _ => None; lib_md5 := fun s => s;
  lib_imgsize := fun s => match s with String "P"%char _ => Some (i64_of 400, i64_of 300, "png") | _ => None end |}.
(** A document with two links, split at its second paragraph; the second part
    gets another link and two pictures. *)
Definition ex_links : list op :=
  [ONew; OAddPara 0; OPara 0 (ABody 0) (OLink "a" "https://a"); OAddPara 0; OPara 0 (ABody 1) (OText "t"); OPara 0 (ABody 1) (OLink "b" "https://b")].
Definition ex_split : list op :=
  [OSplit 0 (fun p => Ok (Nat.eqb (length (para_children p)) 2)); OAddPara 2; OPara 2 (ABody 1) (OLink "c" "https://c"); OPara 2 (ABody 1) (ODrawing false "P1"); OPara 2 (ABody 1) (ODrawing true "P2")].
(** A document with two pictures and a link, from which the paragraphs are taken out *)
Definition ex_ops : list op :=
  [ONew; OAddPara 0; OPara 0 (ABody 0) (ODrawing false "P1"); OAddPara 0; OPara 0 (ABody 1) (OLink "e" "https://e"); OPara 0 (ABody 1) (ODrawing true "P2")].
Definition ex_keep : list op := [OKeep 0 ["*docx.Table"]].
Definition ex_world (l : list op) : world := match @run_ops ex_lib l [] with Some w => w | None => [] end.
Definition ex_doc (l : list op) (i : nat) : docx := nth i (ex_world l) new_docx.
Definition ex_archive (d : docx) : archive := match pack_files d with Ok m => m | _ => [] end.
Lemma ex_writes : forall d, match pack_files d with Ok m => forallb (fun x => match write_entry x with Ok _ => true | _ => false end) m | _ => false end = true -> writes d (Ok (ex_archive d)).
Proof.
  intros d E. unfold writes, ex_archive. destruct (pack_files d) as [m| |]; try discriminate. exists m. split; [apply Permutation_refl|]. symmetry. apply write_entries_all.
  apply Forall_forall. intros (k, v) I. rewrite forallb_forall in E. specialize (E _ I). unfold write_entry in *. cbn [fst snd] in *. destruct (65535 <? _)%N; [discriminate|]. destruct v; [|discriminate].
  destruct (_ && _); [discriminate|]. reflexivity.
Qed.
Lemma ex_no_tmpl : forall d, t_list (d_tmpl d) = [] -> no_media_tmpl d.
Proof. intros d E n I. rewrite E in I. destruct I. Qed.
Definition ex_part_of (d : docx) (n : string) : string := match find (fun x => String.eqb (fst x) n) (ex_archive d) with Some (_, Some s) => s | _ => "" end.
Lemma ex_find : forall d n, match find (fun x => String.eqb (fst x) n) (ex_archive d) with Some (_, Some _) => true | _ => false end = true -> files_of (ex_archive d) n (ex_part_of d n).
Proof.
  intros d n E. unfold ex_part_of. destruct (find _ _) as [[k [s|]]|] eqn:F; try discriminate. apply find_some in F as (I & Q). cbn in Q. apply String.eqb_eq in Q. now subst k.
Qed.
Definition ex_count (d : docx) (n e : string) : nat := match find (fun x => String.eqb (fst x) n) (ex_archive d) with Some (_, Some s) => length (elems s e) | _ => 0 end.
Definition ex_part : docx := ex_doc (ex_links ++ ex_split)%list 2.
Definition ex_kept : docx := ex_doc (ex_ops ++ ex_keep)%list 0.
(** the second part has the links "b" and "c" and the two pictures *)
Example C69_ex : Forall own_or_parsed ex_links /\ length (ex_world ex_links) = 1 /\ Forall (adding 2) ex_split /\
  @run_ops ex_lib ex_split (ex_world ex_links) = Some (ex_world (ex_links ++ ex_split)%list) /\ length (ex_world (ex_links ++ ex_split)%list) = 3 /\
  writes ex_part (Ok (ex_archive ex_part)) /\ no_media_tmpl ex_part /\
  filter (has_prefix "word/media/") (map fst (ex_archive ex_part)) = ["word/media/image1.png"; "word/media/image2.png"] /\
  ex_count ex_part MAIN_PART "blip" = 2 /\ ex_count ex_part MAIN_PART "hyperlink" = 2 /\ ex_count ex_part MAIN_RELS "Relationship" = 7.
Proof. split; [repeat constructor|]. split; [vm_compute; reflexivity|]. split; [repeat constructor|]. split; [vm_compute; reflexivity|]. split; [vm_compute; reflexivity|]. split; [apply ex_writes; vm_compute; reflexivity|]. split; [apply ex_no_tmpl; vm_compute; reflexivity|]. repeat split; vm_compute; reflexivity. Qed.
(** pictures and address are still there when the paragraphs are gone *)
Example C69_ex2 : Forall (@sane_call ex_lib) ex_ops /\ Forall (@sane_call ex_lib) ex_keep /\ @run_ops ex_lib ex_keep (ex_world ex_ops) = Some (ex_world (ex_ops ++ ex_keep)%list) /\
  writes (ex_doc ex_ops 0) (Ok (ex_archive (ex_doc ex_ops 0))) /\ writes ex_kept (Ok (ex_archive ex_kept)) /\ d_items ex_kept = [] /\
  filter (has_prefix "word/media/") (map fst (ex_archive ex_kept)) = ["word/media/image1.png"; "word/media/image2.png"] /\ ex_count ex_kept MAIN_RELS "Relationship" = 6.
Proof.
  split; [repeat constructor|]. split; [repeat constructor|]. split; [vm_compute; reflexivity|]. split; [apply ex_writes; vm_compute; reflexivity|]. split; [apply ex_writes; vm_compute; reflexivity|].
  repeat split; vm_compute; reflexivity.
Qed.

(** The full statement is false: KeepElements leaves the pictures and the
    addresses of what it takes out. *)
Theorem C69_refuted : exists (L : GoLib) l w d ar, run_ops l [] = Some w /\ Forall own_or_parsed l /\ nth_error w 0 = Some d /\ no_media_tmpl d /\ writes d (Ok ar) /\
  (exists b, files_of ar "word/media/image1.png" b /\ ~ shown_file ar "word/media/image1.png") /\
  (exists r a, files_of ar MAIN_RELS r /\ In a (elems r "Relationship") /\ value "TargetMode" a = Some "External" /\ value "Target" a = Some "https://e" /\ ~ linked_to ar "https://e").
Proof.
  assert (W : writes ex_kept (Ok (ex_archive ex_kept))) by (apply ex_writes; vm_compute; reflexivity).
  assert (D : forall c e, files_of (ex_archive ex_kept) MAIN_PART c -> e = "blip" \/ e = "hyperlink" -> elems c e = []).
  { intros c e F E. assert (c = ex_part_of ex_kept MAIN_PART) as -> by (eapply file_once; [exact W|exact F|]; apply ex_find; vm_compute; reflexivity).
    destruct E as [->| ->]; vm_compute; reflexivity. }
  exists ex_lib, (ex_ops ++ ex_keep)%list, (ex_world (ex_ops ++ ex_keep)%list), ex_kept, (ex_archive ex_kept).
  split; [vm_compute; reflexivity|]. split; [repeat constructor|]. split; [vm_compute; reflexivity|]. split; [apply ex_no_tmpl; vm_compute; reflexivity|]. split; [exact W|]. split.
  - exists (ex_part_of ex_kept "word/media/image1.png"). split; [apply ex_find; vm_compute; reflexivity|]. intros (r & c & a & b & t & id & _ & F & _ & _ & _ & _ & I & _). pose proof (D c "blip" F (or_introl eq_refl)) as Z. revert I. rewrite Z. intros [].
  - exists (ex_part_of ex_kept MAIN_RELS). eexists. split; [apply ex_find; vm_compute; reflexivity|]. split; [vm_compute; do 4 right; left; reflexivity|]. split; [reflexivity|]. split; [reflexivity|].
    intros (r & c & a & b & id & _ & F & _ & _ & _ & I & _). pose proof (D c "hyperlink" F (or_intror eq_refl)) as Z. revert I. rewrite Z. intros [].
Qed.
Print Assumptions C69_refuted.

