(** Laws of KeepElements and the Drop functions, as equations between calls. *)
From Coq Require Import String Ascii List Bool Arith NArith ZArith.
From Verif Require Import GoStr Num Lib Types Docx Api Keep History LawFacts.
Import ListNotations.
Local Open Scope list_scope.
Local Open Scope string_scope.

(** KeepElements twice is KeepElements with the names in both lists. *)
Theorem C77_keep : forall (L : GoLib) d a b c w, (forall n, In n c <-> In n a /\ In n b) -> run_ops [OKeep d a; OKeep d b] w = run_ops [OKeep d c] w.
Proof. exact @law_keep. Qed.
Print Assumptions C77_keep.
Theorem C77_keep_para : forall (L : GoLib) d x a b c w, (forall n, In n c <-> In n a /\ In n b) ->
  run_ops [OPara d x (OKeepP a); OPara d x (OKeepP b)] w = run_ops [OPara d x (OKeepP c)] w.
Proof. exact @plaw_keep. Qed.
Print Assumptions C77_keep_para.

(** With the names of the three kinds of body items it changes nothing. *)
Theorem C77_keep_all : forall (L : GoLib) d a w, d < length w -> incl ["*docx.Paragraph"; "*docx.Table"; "*docx.SectPr"] a -> run_ops [OKeep d a] w = Some w.
Proof. exact @law_all. Qed.
Print Assumptions C77_keep_all.

(** DropDrawingOf: once is enough, the order does not matter. *)
Theorem C77_twice : forall (L : GoLib) d n w, run_ops [ODropAll d n; ODropAll d n] w = run_ops [ODropAll d n] w.
Proof. exact @law_twice. Qed.
Print Assumptions C77_twice.
Theorem C77_swap : forall (L : GoLib) d n m w, run_ops [ODropAll d n; ODropAll d m] w = run_ops [ODropAll d m; ODropAll d n] w.
Proof. exact @law_swap. Qed.
Print Assumptions C77_swap.

(** The combined names are the single ones one after the other. *)
Theorem C77_shape_canvas : forall (L : GoLib) d w, run_ops [ODropAll d "Shape"; ODropAll d "Canvas"] w = run_ops [ODropAll d "ShapeAndCanvas"] w.
Proof. exact @law_shape_canvas. Qed.
Print Assumptions C77_shape_canvas.
Theorem C77_three : forall (L : GoLib) d w, run_ops [ODropAll d "ShapeAndCanvas"; ODropAll d "Group"] w = run_ops [ODropAll d "ShapeAndCanvasAndGroup"] w.
Proof. exact @law_three. Qed.
Print Assumptions C77_three.
Theorem C77_mixed : forall (L : GoLib) d n a w, run_ops [ODropAll d n; OKeep d a] w = run_ops [OKeep d a; ODropAll d n] w.
Proof. exact @law_mixed. Qed.
Print Assumptions C77_mixed.

(** The same for the methods of a paragraph, in the body or in a table cell *)
Theorem C77_para_twice : forall (L : GoLib) d x n w, run_ops [OPara d x (ODropP n); OPara d x (ODropP n)] w = run_ops [OPara d x (ODropP n)] w.
Proof. exact @plaw_twice. Qed.
Print Assumptions C77_para_twice.
Theorem C77_para_swap : forall (L : GoLib) d x n m w, run_ops [OPara d x (ODropP n); OPara d x (ODropP m)] w = run_ops [OPara d x (ODropP m); OPara d x (ODropP n)] w.
Proof. exact @plaw_swap. Qed.
Print Assumptions C77_para_swap.
Theorem C77_para_shape_canvas : forall (L : GoLib) d x w, run_ops [OPara d x (ODropP "Shape"); OPara d x (ODropP "Canvas")] w = run_ops [OPara d x (ODropP "ShapeAndCanvas")] w.
Proof. exact @plaw_shape_canvas. Qed.
Print Assumptions C77_para_shape_canvas.
Theorem C77_para_three : forall (L : GoLib) d x w, run_ops [OPara d x (ODropP "ShapeAndCanvas"); OPara d x (ODropP "Group")] w = run_ops [OPara d x (ODropP "ShapeAndCanvasAndGroup")] w.
Proof. exact @plaw_three. Qed.
Print Assumptions C77_para_three.
Theorem C77_para_mixed : forall (L : GoLib) d x n a w, run_ops [OPara d x (ODropP n); OPara d x (OKeepP a)] w = run_ops [OPara d x (OKeepP a); OPara d x (ODropP n)] w.
Proof. exact @plaw_mixed. Qed.
Print Assumptions C77_para_mixed.

(** A document with a shape, a text and a table: the calls do something, and they
    do not do the same. *)
Definition ex_lib : GoLib := {| lib_float := fun _ => None; lib_md5 := fun s => s; lib_imgsize := fun s => None |}.
Definition ex_ops : list op :=
  [ONew; OAddPara 0; OPara 0 (ABody 0) (OText "a"); OPara 0 (ABody 0) (OShape true (i64_of 7) (i64_of 8) "n" "b" "p" None); OTable 0 (i64_of 1) (i64_of 1) (i64_of 100) None;
   OCellPara 0 1 0 0; OPara 0 (ACell 1 0 0 0) (OShape true (i64_of 7) (i64_of 8) "n" "b" "p" None)].
Definition after (l : list op) : world := match @run_ops ex_lib (ex_ops ++ l)%list [] with Some w => w | None => [] end.
Example C77_ex :
  @run_ops ex_lib [ODropAll 0 "ShapeAndCanvas"] (after []) = Some (after [ODropAll 0 "Shape"; ODropAll 0 "Canvas"]) /\
  @run_ops ex_lib [OPara 0 (ACell 1 0 0 0) (ODropP "Shape")] (after []) = Some (after [OPara 0 (ACell 1 0 0 0) (ODropP "Shape"); OPara 0 (ACell 1 0 0 0) (ODropP "Shape")]) /\
  @run_ops ex_lib [OKeep 0 ["*docx.Table"]] (after []) = Some (after [OKeep 0 ["*docx.Table"; "*docx.Paragraph"]; OKeep 0 ["*docx.SectPr"; "*docx.Table"]]) /\
  after [ODropAll 0 "Shape"] <> after [] /\ after [ODropAll 0 "Canvas"] = after [] /\ after [OPara 0 (ACell 1 0 0 0) (ODropP "Shape")] <> after [] /\
  after [OPara 0 (ACell 1 0 0 0) (ODropP "Shape")] <> after [ODropAll 0 "Shape"] /\ after [OKeep 0 ["*docx.Table"]] <> after [].
Proof. repeat split; vm_compute; try reflexivity; discriminate. Qed.
