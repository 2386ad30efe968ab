(** Sequences of API calls. A call on a paragraph names it by its place in a
    document. Values are copied where Go shares pointers (LoadBodyItems,
    AppendFile and SplitByParagraph share properties, shapes and sections): a
    later formatting call on one holder is not seen by the other here. Alias.v
    treats that sharing. *)
From Coq Require Import String Ascii List Bool Arith NArith ZArith.
From Verif Require Import GoStr Num Lib Types Docx Api Keep Copy Pack.
Import ListNotations.
Local Open Scope list_scope.
Local Open Scope string_scope.

(** the k-th body item, or the p-th paragraph of a cell of a table item *)
Inductive addr := ABody (i : nat) | ACell (i r c p : nat).

Definition get_cell (l : list item) (i r c : nat) : option cell :=
  match nth_error l i with
  | Some (ITable t) => match nth_error (table_rows t) r with
                       | Some x => nth_error (row_cells x) c
                       | None => None
                       end
  | _ => None
  end.
Definition put_cell (l : list item) (i r c : nat) (v : cell) : list item :=
  match nth_error l i with
  | Some (ITable t) => match nth_error (table_rows t) r with
                       | Some x => set_nth l i (ITable (set_table_rows (set_nth (table_rows t) r (set_row_cells (set_nth (row_cells x) c v) x)) t))
                       | None => l
                       end
  | _ => l
  end.
Definition get_para (l : list item) (a : addr) : option para :=
  match a with
  | ABody i => match nth_error l i with Some (IPara p) => Some p | _ => None end
  | ACell i r c k => match get_cell l i r c with Some x => nth_error (cell_paras x) k | None => None end
  end.
Definition put_para (l : list item) (a : addr) (v : para) : list item :=
  match a with
  | ABody i => set_nth l i (IPara v)
  | ACell i r c k => match get_cell l i r c with
                     | Some x => put_cell l i r c (set_cell_paras (set_nth (cell_paras x) k v) x)
                     | None => l
                     end
  end.

(** calls on a run *)
Inductive rop :=
| RColor (v : string) | RSize (v : string) | RSizeCs (v : string) | RShade (v color fill : string)
| RSpacing (n : i64) | RBold | RItalic | RUnderline (v : string) | RHighlight (v : string)
| RStrike (b : bool) | RFont (a e h hint : string) | RAddTab | RKeep (names : list string)
| RDrawSize (k : nat) (anch : bool) (w h : i64).

(** the k-th child is a drawing: Inline.Size or Anchor.Size of it, nil panics *)
Definition child_size (anch : bool) (w h : i64) (c : rchild) : res rchild :=
  match c, anch with
  | RDraw (Some x) a, false => Ok (RDraw (Some (inline_size w h x)) a)
  | RDraw i (Some x), true => Ok (RDraw i (Some (anchor_size w h x)))
  | _, _ => Panic
  end.

Definition exec_rop (o : rop) (r : run) : res run :=
  match o with
  | RColor v => run_color v r
  | RSize v => run_size v r
  | RSizeCs v => run_sizecs v r
  | RShade v c f => run_shade v c f r
  | RSpacing n => run_spacing n r
  | RBold => run_bold r
  | RItalic => run_italic r
  | RUnderline v => run_underline v r
  | RHighlight v => run_highlight v r
  | RStrike b => run_strike b r
  | RFont a e h t => run_font a e h t r
  | RAddTab => Ok (run_addtab r)
  | RKeep names => Ok (run_keep names r)
  | RDrawSize k anch w h =>
      match nth_error (runR_children r) k with
      | None => Panic
      | Some c => bind (child_size anch w h c) (fun c' => Ok (set_runR_children (set_nth (runR_children r) k c') r))
      end
  end.

(** calls on a paragraph; [ORun k o] is a call on the run (or the run of the
    hyperlink) that is the k-th child *)
Inductive pop :=
| OText (t : string) | OTab | OBreak | OLink (t link : string)
| ODrawing (anch : bool) (data : string)
| OShape (anch : bool) (w h : i64) (name bw prst : string) (ln : option aline)
| OJc (v : string) | OStyle (v : string) | ONum (n l : string) | ONumFont (a e h hint : string) | ONumSize (v : string)
| OKeepP (names : list string) | ODropP (name : string)
| ORun (k : nat) (o : rop).

Definition exec_pop `{GoLib} (o : pop) (w : world) (p : para) : res (world * para) :=
  match o with
  | OText t => Ok (w, add_text t p)
  | OTab => Ok (w, add_tab p)
  | OBreak => Ok (w, add_page_breaks p)
  | OLink t l => add_link t l w p
  | ODrawing anch data => add_drawing anch data w p
  | OShape anch sw sh name bw prst ln => add_shape anch sw sh name bw prst ln w p
  | OJc v => Ok (w, para_justification v p)
  | OStyle v => Ok (w, para_style v p)
  | ONum n l => Ok (w, para_numpr n l p)
  | ONumFont a e h t => Ok (w, para_numfont a e h t p)
  | ONumSize v => Ok (w, para_numsize v p)
  | OKeepP names => Ok (w, para_keep names p)
  | ODropP name => Ok (w, para_drop name p)
  | ORun k o =>
      match nth_error (para_children p) k with
      | Some (PRun r) => bind (exec_rop o r) (fun r' => Ok (w, set_para_children (set_nth (para_children p) k (PRun r')) p))
      | Some (PLink id r) => bind (exec_rop o r) (fun r' => Ok (w, set_para_children (set_nth (para_children p) k (PLink id r')) p))
      | _ => Panic
      end
  end.

(** calls on documents *)
Inductive op :=
| ONew
| OLoad (l : list item) (ms : list mediaT)
| OPara (d : nat) (a : addr) (o : pop)
| ODetached (p : para) (o : pop)      (** a paragraph that is in no document (any more) *)
| OAddPara (d : nat)
| OCellPara (d i r c : nat)
| OTable (d : nat) (r c width : i64) (col : option colors)
| OTwips (d : nat) (rh cw : list i64) (width : i64) (col : option colors)
| OTableJc (d i : nat) (v : string)
| ORowJc (d i r : nat) (v : string)
| OCellShade (d i r c : nat) (v color fill : string)
| OPage (d : nat) (a3 : bool)
| OTemplate (d : nat) (t : tmpl)
| OKeep (d : nat) (names : list string)
| ODropAll (d : nat) (name : string)
| OAppend (d from : nat)
| OSplit (d : nat) (sep : para -> res bool)
| OParse (a : archive).

Definition on_doc (w : world) (i : nat) (k : docx -> res docx) : res world :=
  match nth_error w i with
  | None => Panic
  | Some d => bind (k d) (fun d' => Ok (set_nth w i d'))
  end.

(** One call. An error leaves the world as it was (see [run_ops]); an address
    that is not there is a Go nil or index panic in the caller. *)
Definition exec `{GoLib} (o : op) (w : world) : res world :=
  match o with
  | ONew => Ok (w ++ [new_docx])%list
  | OLoad l ms => Ok (w ++ [load_body_items l ms])%list
  | OPara d a o =>
      match nth_error w d with
      | None => Panic
      | Some x =>
          match get_para (d_items x) a with
          | None => Panic
          | Some p =>
              bind (exec_pop o w p) (fun '(w', p') =>
              on_doc w' d (fun y => Ok (set_d_items (put_para (d_items y) a p') y)))
          end
      end
  | ODetached p o => bind (exec_pop o w p) (fun '(w', _) => Ok w')
  | OAddPara d => on_doc w d (fun x => Ok (add_paragraph d x))
  | OCellPara d i r c =>
      on_doc w d (fun x => match get_cell (d_items x) i r c with
                           | None => Panic
                           | Some v => Ok (set_d_items (put_cell (d_items x) i r c (cell_add_paragraph v)) x)
                           end)
  | OTable d r c width col => on_doc w d (fun x => bind (add_table d r c width col x) (fun '(x', _) => Ok x'))
  | OTwips d rh cw width col => on_doc w d (fun x => Ok (fst (add_table_twips d rh cw width col x)))
  | OTableJc d i v =>
      on_doc w d (fun x => match nth_error (d_items x) i with
                           | Some (ITable t) => bind (table_justification v t) (fun t' => Ok (set_d_items (set_nth (d_items x) i (ITable t')) x))
                           | _ => Panic
                           end)
  | ORowJc d i r v =>
      on_doc w d (fun x => match nth_error (d_items x) i with
                           | Some (ITable t) =>
                               match nth_error (table_rows t) r with
                               | Some y => bind (row_justification v y) (fun y' => Ok (set_d_items (set_nth (d_items x) i (ITable (set_table_rows (set_nth (table_rows t) r y') t))) x))
                               | None => Panic
                               end
                           | _ => Panic
                           end)
  | OCellShade d i r c v color fill =>
      on_doc w d (fun x => match get_cell (d_items x) i r c with
                           | None => Panic
                           | Some y => bind (cell_shade v color fill y) (fun y' => Ok (set_d_items (put_cell (d_items x) i r c y') x))
                           end)
  | OPage d a3 => on_doc w d (fun x => Ok ((if a3 then with_a3 else with_a4) x))
  | OTemplate d t => on_doc w d (fun x => Ok (use_template t x))
  | OKeep d names => on_doc w d (fun x => Ok (set_d_items (body_keep names (d_items x)) x))
  | ODropAll d name => on_doc w d (fun x => Ok (set_d_items (drop_drawing_of name (d_items x)) x))
  | OAppend d from => match nth_error w d with None => Panic | Some _ => append_file d from w end
  | OSplit d sep => split_by_paragraph d sep w
  | OParse a => parse a w
  end.

(** A history: a call that returns an error leaves the world as it was; a panic
    ends the history ([None]). *)
Fixpoint run_ops `{GoLib} (l : list op) (w : world) : option world :=
  match l with
  | [] => Some w
  | o :: l' =>
      match exec o w with
      | Ok w' => run_ops l' w'
      | Err _ => run_ops l' w
      | Panic => None
      end
  end.
