(** C59: which calls on documents made from scratch panic. *)
From Coq Require Import String Ascii List Bool Arith NArith ZArith.
From Verif Require Import GoStr Num Lib Types Docx Api Text History SpecPanic PanicFacts.
Import ListNotations.
Local Open Scope list_scope.
Local Open Scope string_scope.

(** Whatever was done before, a call panics exactly if it is one of those that
    [misuse] lists. *)
Theorem C59_calls : forall (L : GoLib) l w o, Forall from_scratch l -> run_ops l [] = Some w -> from_scratch o ->
  (exec o w = Panic <-> misuse o w).
Proof. exact @scratch_panics. Qed.
Print Assumptions C59_calls.

(** String of a paragraph or table panics exactly if it comes to a picture. *)
Theorem C59_strings : forall (L : GoLib) l w d x, Forall from_scratch l -> run_ops l [] = Some w -> nth_error w d = Some x ->
  (forall a p, get_para (d_items x) a = Some p -> (para_string w p = Panic <-> has_picture p)) /\
  (forall i t, nth_error (d_items x) i = Some (ITable t) -> (table_string w t = Panic <-> table_picture t)).
Proof. exact @scratch_strings. Qed.
Print Assumptions C59_strings.

(** A picture of 400 x 300 and one of 0 x 300. *)
Definition ex_lib : GoLib := {| lib_float := fun _ => None; lib_md5 := fun s => s;
  lib_imgsize := fun s => match s with String "P"%char _ => Some (i64_of 400, i64_of 300, "png") | String "0"%char _ => Some (i64_of 0, i64_of 300, "png") | _ => None end |}.
Definition ex_ops : list op :=
  [ONew; OAddPara 0; OPara 0 (ABody 0) (OText "a"); OPara 0 (ABody 0) (ORun 0 RBold); OPara 0 (ABody 0) (OLink "b" "https://b");
   OPara 0 (ABody 0) (OShape false (i64_of 10) (i64_of 10) "box" "auto" "rect" None);
   OTable 0 (i64_of 2) (i64_of 2) (i64_of 100) None; OCellPara 0 1 1 0; OPara 0 (ACell 1 1 0 0) (ODrawing false "P"); OTableJc 0 1 "center";
   OKeep 0 ["*docx.Table"; "*docx.Paragraph"]].
Definition ok_ops (l : list op) : bool := match @run_ops ex_lib l [] with Some _ => true | None => false end.
Definition panics (l : list op) (o : op) : bool :=
  match @run_ops ex_lib l [] with Some w => match @exec ex_lib o w with Panic => true | _ => false end | None => false end.
Example C59_ex : Forall from_scratch ex_ops /\ ok_ops ex_ops = true /\
  map (panics ex_ops)
    [OPara 0 (ABody 0) (ORun 1 RItalic); OPara 0 (ABody 0) (ODrawing true "0"); OPara 0 (ABody 0) (ODrawing true "x");
     OPara 0 (ABody 0) (ORun 7 RItalic); OTable 0 (i64_of (-1)) (i64_of 1) (i64_of 0) None; OTable 0 (i64_of 0) (i64_of (-1)) (i64_of 0) None;
     OPara 0 (ABody 0) (ORun 2 (RDrawSize 0 false (i64_of 5) (i64_of 5))); OPara 0 (ABody 0) (ORun 2 (RDrawSize 0 true (i64_of 5) (i64_of 5)))] =
    [false; true; false; true; true; false; false; true].
Proof. split; [repeat constructor|]. split; vm_compute; reflexivity. Qed.
(** the paragraph can be printed, the table cannot *)
Definition prints (l : list op) : list bool :=
  match @run_ops ex_lib l [] with
  | Some w => match nth_error w 0 with
              | Some x => map (fun i => match i with
                                        | IPara p => match @para_string ex_lib w p with Ok _ => true | _ => false end
                                        | ITable t => match @table_string ex_lib w t with Ok _ => true | _ => false end
                                        | _ => true
                                        end) (d_items x)
              | None => []
              end
  | None => []
  end.
Example C59_ex_strings : prints ex_ops = [true; false].
Proof. vm_compute. reflexivity. Qed.
