(** Vocabulary: which calls on documents made from scratch panic. *)
From Coq Require Import String Ascii List Bool Arith NArith ZArith.
From Verif Require Import GoStr Num Lib Types Docx Api History.
Import ListNotations.
Local Open Scope list_scope.
Local Open Scope string_scope.

(** New and the calls that add to a document or change it; no documents from
    elsewhere, no copying, no paragraph kept from before a KeepElements *)
Definition from_scratch (o : op) : Prop :=
  match o with OLoad _ _ | ODetached _ _ | OAppend _ _ | OSplit _ _ | OParse _ => False | _ => True end.

(** what is at a place *)
Definition para_at (d : nat) (a : addr) (w : world) : option para :=
  match nth_error w d with Some x => get_para (d_items x) a | None => None end.
Definition cell_at (d i r c : nat) (w : world) : option cell :=
  match nth_error w d with Some x => get_cell (d_items x) i r c | None => None end.
Definition table_at (d i : nat) (w : world) : option table :=
  match nth_error w d with
  | Some x => match nth_error (d_items x) i with Some (ITable t) => Some t | _ => None end
  | None => None
  end.
Definition row_at (d i r : nat) (w : world) : option row :=
  match table_at d i w with Some t => nth_error (table_rows t) r | None => None end.
(** the run, or the run of the link, that is the k-th child *)
Definition run_at (k : nat) (p : para) : option run :=
  match nth_error (para_children p) k with Some (PRun r) => Some r | Some (PLink _ r) => Some r | _ => None end.
(** the k-th child of the run is an inline drawing (an anchored one) *)
Definition drawing_at (anch : bool) (k : nat) (r : run) : Prop :=
  exists i a, nth_error (runR_children r) k = Some (RDraw i a) /\ (if anch then a <> None else i <> None).

(** The calls that cannot be made: something that is not there, a table with a
    negative size, a picture of width 0. *)
Definition run_misuse (o : rop) (r : run) : Prop :=
  match o with RDrawSize k anch _ _ => ~ drawing_at anch k r | _ => False end.
Definition para_misuse `{GoLib} (o : pop) (p : para) : Prop :=
  match o with
  | ODrawing _ data => exists w h f, lib_imgsize data = Some (w, h, f) /\ iv w = 0%Z
  | ORun k o => match run_at k p with None => True | Some r => run_misuse o r end
  | _ => False
  end.
Definition misuse `{GoLib} (o : op) (w : world) : Prop :=
  match o with
  | ONew => False
  | OPara d a o => match para_at d a w with None => True | Some p => para_misuse o p end
  | OCellPara d i r c => cell_at d i r c w = None
  | OTable d r c _ _ => nth_error w d = None \/ (iv r < 0)%Z \/ (iv c < 0 < iv r)%Z
  | OTableJc d i _ => table_at d i w = None
  | ORowJc d i r _ => row_at d i r w = None
  | OCellShade d i r c _ _ _ => cell_at d i r c w = None
  | OAddPara d | OTwips d _ _ _ _ | OPage d _ | OTemplate d _ | OKeep d _ | ODropAll d _ => nth_error w d = None
  | _ => False
  end.

(** a picture among the children of a run *)
Definition is_picture (c : rchild) : Prop :=
  match c with
  | RDraw (Some i) _ => exists g d p, inlineR_graphic i = Some g /\ graphicR_data g = Some d /\ gdataR_pic d = Some p
  | RDraw None (Some a) => exists g d p, anchorR_graphic a = Some g /\ graphicR_data g = Some d /\ gdataR_pic d = Some p
  | _ => False
  end.
Definition has_picture (p : para) : Prop :=
  exists r c, In (PRun r) (para_children p) /\ In c (runR_children r) /\ is_picture c.
(** a cell whose first paragraph has one, in a table whose first row has cells *)
Definition table_picture (t : table) : Prop :=
  (exists r0 l, table_rows t = r0 :: l /\ row_cells r0 <> []) /\
  exists r c p l, In r (table_rows t) /\ In c (row_cells r) /\ cell_paras c = p :: l /\ has_picture p.
