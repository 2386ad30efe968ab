(** AppendFile and SplitByParagraph on content without hyperlinks and pictures. *)
From Coq Require Import String Ascii List Bool Arith NArith ZArith.
From Verif Require Import GoStr Num Lib Types Docx Api Copy Pack Text History SpecApi SpecPack SpecVerb VerbFacts SteadyInv.
Import ListNotations.
Local Open Scope list_scope.
Local Open Scope string_scope.

(** The body of a main part is found in one way only. *)
Theorem C76_body : forall s a b x y, opens a x s -> opens b y s -> a = b /\ x = y.
Proof. exact opens_unique. Qed.
Print Assumptions C76_body.

(** AppendFile, also of a document to itself: it succeeds, the new body is the
    text of the old one followed by the text of the other one, and all other parts
    of the package stay the same. *)
Theorem C76_append : forall to from w d s, nth_error w to = Some d -> nth_error w from = Some s -> steady (d_items s) ->
  exists w' d', append_file to from w = Ok w' /\ length w' = length w /\ (forall i, i <> to -> nth_error w' i = nth_error w i) /\ nth_error w' to = Some d' /\
    ((exists ar', writes d' (Ok ar')) <-> (exists ar, writes d (Ok ar))) /\
    forall ar ars ar' x y z, writes d (Ok ar) -> writes s (Ok ars) -> writes d' (Ok ar') -> In (DOC_NAME, Some x) ar -> In (DOC_NAME, Some y) ars -> In (DOC_NAME, Some z) ar' ->
      (exists start bd start2 bs, opens start bd x /\ opens start2 bs y /\ opens start (bd ++ bs) z) /\
      (forall n c, n <> DOC_NAME -> (In (n, c) ar' <-> In (n, c) ar)).
Proof. exact appended_text. Qed.
Print Assumptions C76_append.

(** SplitByParagraph with a rule that answers: the texts of the bodies of the
    parts, one after the other, are the text of the body. *)
Theorem C76_split : forall i sep w d, nth_error w i = Some d -> (forall p, In (IPara p) (d_items d) -> exists b, sep p = Ok b) -> steady (d_items d) ->
  exists ds, split_by_paragraph i sep w = Ok (w ++ ds)%list /\
    forall ar x, writes d (Ok ar) -> In (DOC_NAME, Some x) ar ->
      exists start body bs, opens start body x /\ body = sconcat bs /\
        Forall2 (fun e b => forall are z, writes e (Ok are) -> In (DOC_NAME, Some z) are -> exists st, opens st b z) ds bs.
Proof. exact split_text. Qed.
Print Assumptions C76_split.

(** This is about all documents made by calls that bring in no hyperlinks and no
    drawings but shapes and canvases; Parse and LoadBodyItems may be among them. *)
Theorem C76_history : forall (L : GoLib) l w i d, run_ops l [] = Some w -> Forall steady_call l -> nth_error w i = Some d -> steady (d_items d).
Proof. exact @history_steady. Qed.
Print Assumptions C76_history.

(** Two documents: the second has a text, a table and a shape *)
Definition ex_lib : GoLib := {| lib_float := fun _ => None; lib_md5 := fun s => s; lib_imgsize := fun s => None |}.
Definition ex_ops : list op :=
  [ONew; OAddPara 0; OPara 0 (ABody 0) (OText "a<b"); ONew; OAddPara 1; OPara 1 (ABody 0) (OText "# one"); OTable 1 (i64_of 1) (i64_of 1) (i64_of 100) None;
   OCellPara 1 1 0 0; OPara 1 (ACell 1 0 0 0) (OText "cell"); OAddPara 1; OPara 1 (ABody 2) (OText "# two"); OPara 1 (ABody 2) (OShape true (i64_of 7) (i64_of 8) "n" "b" "p" None)].
Definition ex_world : world := match @run_ops ex_lib ex_ops [] with Some w => w | None => [] end.
Definition ex_main (d : docx) : string :=
  match pack_files d with Ok m => match find (fun e => String.eqb (fst e) DOC_NAME) m with Some (_, Some s) => s | _ => "" end | _ => "" end.
Definition strip (s : string) : string :=
  match index 0 "<w:body>" s with Some i => substring (i + 8) (String.length s - i - 8 - 22) s | None => "" end.
Definition ex_sep (p : para) : res bool := match @para_string ex_lib [] p with Ok (String c _) => Ok (Ascii.eqb c "#") | _ => Ok false end.
Example C76_ex : exists d s, nth_error ex_world 0 = Some d /\ nth_error ex_world 1 = Some s /\ steady (d_items s) /\
  strip (ex_main d) = "<w:p><w:r><w:rPr></w:rPr><w:t>a&lt;b</w:t></w:r></w:p>" /\
  (exists w' d', append_file 0 1 ex_world = Ok w' /\ nth_error w' 0 = Some d' /\ strip (ex_main d') = strip (ex_main d) ++ strip (ex_main s)) /\
  (exists e f, split_by_paragraph 1 ex_sep ex_world = Ok (ex_world ++ [e; f])%list /\
     prefix "<w:p><w:r><w:rPr></w:rPr><w:t># two</w:t></w:r><w:r><w:rPr></w:rPr><w:drawing><wp:anchor distT=" (strip (ex_main f)) = true /\ strip (ex_main s) = strip (ex_main e) ++ strip (ex_main f)).
Proof.
  do 2 eexists. split; [vm_compute; reflexivity|]. split; [vm_compute; reflexivity|]. split.
  { apply (@history_steady ex_lib ex_ops ex_world 1); [vm_compute; reflexivity| |vm_compute; reflexivity]. repeat constructor. }
  split; [vm_compute; reflexivity|]. split.
  - do 2 eexists. split; [vm_compute; reflexivity|]. split; [reflexivity|vm_compute; reflexivity].
  - do 2 eexists. split; [vm_compute; reflexivity|]. split; [vm_compute; reflexivity|vm_compute; reflexivity].
Qed.
