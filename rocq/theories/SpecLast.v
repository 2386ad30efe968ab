(** Specification for sequences of formatting calls. *)
From Coq Require Import String List Bool Arith.
From Verif Require Import GoStr Num Lib Types Docx History.
Import ListNotations.
Local Open Scope list_scope.

(** what a call on a run sets *)
Inductive run_aspect := AColor | ASize | ASizeCs | AShade | ASpacing | ABold | AItalic | AUnderline | AHighlight | AStrike | AFont.
Definition run_sets (o : rop) : option run_aspect :=
  match o with
  | RColor _ => Some AColor | RSize _ => Some ASize | RSizeCs _ => Some ASizeCs | RShade _ _ _ => Some AShade | RSpacing _ => Some ASpacing
  | RBold => Some ABold | RItalic => Some AItalic | RUnderline _ => Some AUnderline | RHighlight _ => Some AHighlight
  | RStrike _ => Some AStrike | RFont _ _ _ _ => Some AFont
  | RAddTab | RKeep _ | RDrawSize _ _ _ _ => None
  end.
(** what a call on a paragraph sets *)
Inductive para_aspect := PJc | PStyle | PNum | PNumFont | PNumSize.
Definition para_sets (o : pop) : option para_aspect :=
  match o with
  | OJc _ => Some PJc | OStyle _ => Some PStyle | ONum _ _ => Some PNum | ONumFont _ _ _ _ => Some PNumFont | ONumSize _ => Some PNumSize
  | _ => None
  end.

(** what a formatting call sets, and where: the child of a paragraph, a paragraph,
    a table, a row, a cell *)
Inductive thing :=
| TRun (d : nat) (a : addr) (k : nat) (x : run_aspect)
| TPara (d : nat) (a : addr) (x : para_aspect)
| TTable (d i : nat)
| TRow (d i r : nat)
| TCell (d i r c : nat).
Definition sets (o : op) : option thing :=
  match o with
  | OPara d a (ORun k o) => match run_sets o with Some x => Some (TRun d a k x) | None => None end
  | OPara d a o => match para_sets o with Some x => Some (TPara d a x) | None => None end
  | OTableJc d i _ => Some (TTable d i)
  | ORowJc d i r _ => Some (TRow d i r)
  | OCellShade d i r c _ _ _ => Some (TCell d i r c)
  | _ => None
  end.
