(** KeepElements and the Drop functions (structdoc.go, structpara.go, structrun.go). *)
From Coq Require Import String List Bool Arith NArith.
From Verif Require Import GoStr Num Types Docx.
Import ListNotations.
Local Open Scope list_scope.
Local Open Scope string_scope.

(** reflect.ValueOf(item).Type().String() in structdoc.go:121,
    structpara.go:319 and structrun.go:193 *)
Definition item_type (x : item) : string :=
  match x with IPara _ => "*docx.Paragraph" | ITable _ => "*docx.Table" | ISect _ => "*docx.SectPr" end.
Definition pchild_type (x : pchild) : string :=
  match x with PRun _ => "*docx.Run" | PLink _ _ => "*docx.Hyperlink" | PRPr _ => "*docx.RunProperties" end.
Definition rchild_type (x : rchild) : string :=
  match x with RText _ => "*docx.Text" | RTab _ => "*docx.Tab" | RBr _ => "*docx.BarterRabbet" | RDraw _ _ => "*docx.Drawing" end.

(** the loop shared by structdoc.go:114-127, structpara.go:312-325,
    structrun.go:186-199; the map of names is a membership test *)
Fixpoint keep_named {A} (ty : A -> string) (names : list string) (l : list A) : list A :=
  match l with
  | [] => []
  | x :: l' => if existsb (String.eqb (ty x)) names then x :: keep_named ty names l' else keep_named ty names l'
  end.
Definition body_keep (names : list string) (l : list item) : list item := keep_named item_type names l.
Definition para_keep (names : list string) (p : para) : para :=
  set_para_children (keep_named pchild_type names (para_children p)) p.
Definition run_keep (names : list string) (r : run) : run :=
  set_runR_children (keep_named rchild_type names (runR_children r)) r.

(** the graphic data of an inline or anchor: x.Graphic.GraphicData if nothing
    is nil (structpara.go:334-346 and the same tests in the other methods) *)
Definition inline_data (i : option inline) : option gdata :=
  match i with
  | None => None
  | Some x => match inlineR_graphic x with None => None | Some g => graphicR_data g end
  end.
Definition anchor_data (a : option anchor) : option gdata :=
  match a with
  | None => None
  | Some x => match anchorR_graphic x with None => None | Some g => graphicR_data g end
  end.
Definition is_some {A} (o : option A) : bool := match o with Some _ => true | None => false end.
Definition data_test (f : gdata -> bool) (d : option gdata) : bool := match d with None => false | Some d => f d end.

(** [true] when the loop body reaches "continue": structpara.go:328-436 *)
Definition drops (f : gdata -> bool) (c : rchild) : bool :=
  match c with
  | RDraw i a => (data_test f (inline_data i) || data_test f (anchor_data a))%bool
  | _ => false
  end.
Definition d_canvas (d : gdata) : bool := is_some (gdataR_canvas d).
Definition d_shape (d : gdata) : bool := is_some (gdataR_shape d).
Definition d_group (d : gdata) : bool := is_some (gdataR_group d).
Definition d_shape_canvas (d : gdata) : bool := (d_shape d || d_canvas d)%bool.
Definition d_shape_canvas_group (d : gdata) : bool := (d_shape d || d_canvas d || d_group d)%bool.

(** structpara.go:452-485 DropNilPicture, in the order of its tests *)
Definition i_graphic (i : option inline) := match i with Some x => inlineR_graphic x | None => None end.
Definition a_graphic (a : option anchor) := match a with Some x => anchorR_graphic x | None => None end.
Definition g_data (g : option graphic) : option gdata := match g with Some x => graphicR_data x | None => None end.
Definition g_pic (d : option gdata) : option pic := match d with Some x => gdataR_pic x | None => None end.
Definition drops_nil (c : rchild) : bool :=
  match c with
  | RDraw i a =>
      if (negb (is_some i) && negb (is_some a))%bool then true
      else if ((is_some i && negb (is_some (i_graphic i))) || (is_some a && negb (is_some (a_graphic a))))%bool then true
      else if (is_some i && is_some (i_graphic i) && negb (is_some (g_data (i_graphic i))))%bool then true
      else if (is_some a && is_some (a_graphic a) && negb (is_some (g_data (a_graphic a))))%bool then true
      else if (is_some (inline_data i) && negb (is_some (g_pic (inline_data i))))%bool then true
      else if (is_some (anchor_data a) && negb (is_some (g_pic (anchor_data a))))%bool then true
      else false
  | _ => false
  end.

(** the loops (structpara.go:329-350): only the runs that are direct children,
    not those in hyperlinks *)
Definition drop_in_run (t : rchild -> bool) (r : run) : run :=
  set_runR_children (filter (fun c => negb (t c)) (runR_children r)) r.
Definition drop_in_pchild (t : rchild -> bool) (c : pchild) : pchild :=
  match c with PRun r => PRun (drop_in_run t r) | c => c end.
Definition drop_in_para (t : rchild -> bool) (p : para) : para :=
  set_para_children (map (drop_in_pchild t) (para_children p)) p.

(** the six exported methods of Paragraph whose names begin with Drop:
    structpara.go:328-478 *)
Definition drop_test (name : string) : option (rchild -> bool) :=
  if String.eqb name "Canvas" then Some (drops d_canvas)
  else if String.eqb name "Shape" then Some (drops d_shape)
  else if String.eqb name "Group" then Some (drops d_group)
  else if String.eqb name "ShapeAndCanvas" then Some (drops d_shape_canvas)
  else if String.eqb name "ShapeAndCanvasAndGroup" then Some (drops d_shape_canvas_group)
  else if String.eqb name "NilPicture" then Some drops_nil
  else None.
Definition para_drop (name : string) (p : para) : para :=
  match drop_test name with Some t => drop_in_para t p | None => p end.

(** structdoc.go:131-154 Body.DropDrawingOf; reflection finds exactly the six *)
Definition drop_cell (name : string) (c : cell) : cell := set_cell_paras (map (para_drop name) (cell_paras c)) c.
Definition drop_row (name : string) (r : row) : row := set_row_cells (map (drop_cell name) (row_cells r)) r.
Definition drop_table (name : string) (t : table) : table := set_table_rows (map (drop_row name) (table_rows t)) t.
Definition drop_item (name : string) (x : item) : item :=
  match x with
  | IPara p => IPara (para_drop name p)
  | ITable t => ITable (drop_table name t)
  | ISect s => ISect s
  end.
Definition drop_drawing_of (name : string) (l : list item) : list item := map (drop_item name) l.
