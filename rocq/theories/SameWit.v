(** Documents that show why the exceptions are needed. *)
From Coq Require Import String Ascii List Bool Arith NArith ZArith.
From Verif Require Import GoStr Num Lib Types XmlTok Unmarshal DecLemmas SpecSkip SkipFacts SkipFacts3.
Import ListNotations.
Local Open Scope string_scope.
Local Open Scope list_scope.

Definition ex_lib : GoLib := {| lib_float := fun _ => None; lib_md5 := fun s => s; lib_imgsize := fun _ => None |}.
Lemma trimmed_loads : forall (L : GoLib) f t, sturdy t -> parse_document f (toks t) = parse_document f (toks (trimmed t)).
Proof. intros L f t S. apply parse_same. now apply trimmed_same. Qed.

(** an element within elements of these names, with attributes [a] and children [c] *)
Fixpoint nest (path : list string) (a : list attr) (c : list tree) : tree :=
  match path with
  | [] => Chr ""
  | [l] => Elem (w l) a c
  | l :: p => Elem (w l) [] [nest p a c]
  end.
Definition last_with (path : list string) (a : list attr) : tree := nest path a [].
Lemma puts_nest : forall x path, path <> [] -> forall a c, puts x (last path "") (nest path a c) (nest path a (x :: c)).
Proof.
  intros x path. induction path as [|l [|l' p] IH]; intros NE a c; [now destruct NE| |].
  - exact (pt_here x l (w l) a [] c eq_refl).
  - change (last (l :: l' :: p) "") with (last (l' :: p) "").
    exact (pt_in x _ (w l) [] [] [] _ _ (IH ltac:(discriminate) a c)).
Qed.
Definition P := ["document"; "body"; "p"].
Definition R := P ++ ["r"].
Definition D := R ++ ["drawing"; "anchor"].
Definition G := D ++ ["graphic"; "graphicData"; "wsp"].
Definition T := ["document"; "body"; "tbl"; "tblPr"].
Definition S := ["document"; "body"; "sectPr"].
Definition paths : list (list string) :=
 [R ++ ["rPr"; "rFonts"]; P ++ ["pPr"; "spacing"]; P ++ ["pPr"; "ind"]; P ++ ["pPr"; "shd"]; P ++ ["pPr"; "tabs"; "tab"]; R ++ ["br"]; D ++ ["extent"]; D ++ ["effectExtent"]; D ++ ["docPr"];
  G ++ ["cNvPr"]; G ++ ["spPr"; "ln"; "headEnd"]; G ++ ["spPr"; "ln"; "tailEnd"]; G ++ ["spPr"; "blipFill"; "tile"]; G ++ ["cNvSpPr"; "spLocks"];
  T ++ ["tblBorders"; "top"]; T ++ ["tblBorders"; "left"]; T ++ ["tblBorders"; "bottom"]; T ++ ["tblBorders"; "right"]; T ++ ["tblBorders"; "insideH"]; T ++ ["tblBorders"; "insideV"];
  T ++ ["tblpPr"]; T ++ ["tblStyle"]; T ++ ["tblW"]; T ++ ["tblLook"]; ["document"; "body"; "tbl"; "tblGrid"; "gridCol"];
  S ++ ["pgSz"]; S ++ ["pgMar"]; S ++ ["cols"]; S ++ ["docGrid"]].
Lemma paths_solid : map (fun p => last p "") paths = solid. Proof. reflexivity. Qed.
Definition ok (s : status) : bool := match s with SOk => true | _ => false end.
Lemma paths_fail : forall (L : GoLib), forallb (fun p => ok (snd (parse_document None (toks (nest p [] [])))) &&
  forallb (fun x => negb (ok (snd (parse_document None (toks (nest p [] [x])))))) [Cmt; Chr " "; Elem ("a", "extLst") [] []]) paths = true.
Proof. intros L. vm_compute. reflexivity. Qed.
Lemma solid_needed : forall (L : GoLib) l x, In l solid -> In x [Cmt; Chr " "; Elem ("a", "extLst") [] []] ->
  exists t t', puts x l t t' /\ snd (parse_document None (toks t)) = SOk /\ snd (parse_document None (toks t')) <> SOk.
Proof.
  intros L l x IL IX. rewrite <- paths_solid in IL. apply in_map_iff in IL as (p & <- & IP).
  pose proof (paths_fail L) as F. rewrite forallb_forall in F. specialize (F p IP). apply andb_prop in F as [F1 F2]. rewrite forallb_forall in F2. specialize (F2 x IX).
  exists (nest p [] []), (nest p [] [x]). split; [|split].
  - apply puts_nest. intros ->. revert IP. cbn. intuition discriminate.
  - destruct (snd (parse_document None (toks (nest p [] [])))); try discriminate. reflexivity.
  - intros E. rewrite E in F2. discriminate.
Qed.
Lemma fragile_needed : forall (L : GoLib), exists t t', puts (Chr " ") fragile t t' /\ snd (parse_document None (toks t)) = SOk /\ snd (parse_document None (toks t')) <> SOk.
Proof.
  intros L. exists (nest (R ++ [fragile]) [] [nest ["Choice"; "t"] [] []]), (nest (R ++ [fragile]) [] [Chr " "; nest ["Choice"; "t"] [] []]). split; [|split].
  - apply (puts_nest (Chr " ") (R ++ [fragile])). discriminate.
  - vm_compute. reflexivity.
  - vm_compute. discriminate.
Qed.
(** what can be compared of a loaded document: the texts of its runs, the
    numbers of tab stops of its paragraphs *)
Definition texts (r : list item * status) : list string :=
  flat_map (fun i => match i with IPara p => flat_map (fun k => match k with PRun r => flat_map (fun c => match c with RText t => [text_text t] | _ => [] end) (runR_children r) | _ => [] end) (para_children p) | _ => [] end) (fst r).
Definition stops (r : list item * status) : list nat :=
  flat_map (fun i => match i with IPara p => match para_ppr p with Some q => match ppr_tabs q with Some l => [List.length l] | None => [] end | None => [] end | _ => [] end) (fst r).
Lemma text_needed : forall (L : GoLib), exists p a s1 s2, s1 <> "" /\ s2 <> "" /\
  texts (parse_document None (toks (nest p a [Chr (s1 ++ s2)%string]))) = [(s1 ++ s2)%string] /\ texts (parse_document None (toks (nest p a [Chr s1; Cmt; Chr s2]))) = [s2].
Proof. intros L. exists (R ++ ["t"]), [], "ab", "c". repeat split; try discriminate. Qed.
Lemma tabs_needed : forall (L : GoLib), exists x t t', (exists q a c, x = Elem q a c /\ ~ In (snd q) known) /\ puts x "tabs" t t' /\
  parse_document None (toks t) <> parse_document None (toks t').
Proof.
  intros L. exists (Elem ("", "x") [] [Elem (w "tab") [] []]). do 2 eexists. split; [|split].
  - do 3 eexists. split; [reflexivity|]. apply notin. reflexivity.
  - apply (puts_nest _ (P ++ ["pPr"; "tabs"])) with (a := []) (c := []). discriminate.
  - intros E. apply (f_equal stops) in E. vm_compute in E. discriminate.
Qed.
Lemma namespace_needed : forall (L : GoLib), exists a c t t', puts (Elem ("foreign", "p") a c) "body" t t' /\ parse_document None (toks t) <> parse_document None (toks t').
Proof.
  intros L. exists [], []. do 2 eexists. split.
  - apply (puts_nest _ ["document"; "body"]) with (a := []) (c := []). discriminate.
  - intros E. apply (f_equal (fun r => List.length (fst r))) in E. vm_compute in E. discriminate.
Qed.
Lemma declaration_needed : forall (L : GoLib), exists p a v, snd (parse_document None (toks (last_with p a))) = SOk /\
  snd (parse_document None (toks (last_with p (a ++ [(("xmlns", "w"), v)])))) <> SOk.
Proof.
  intros L. exists (S ++ ["pgSz"]), [(("w", "w"), "10")], "http://schemas.openxmlformats.org/wordprocessingml/2006/main".
  split; [vm_compute; reflexivity|vm_compute; discriminate].
Qed.
