(** Specification: what a document is after it has been written to
    word/document.xml and read back. Written without reference to the encoder or
    the decoder; everything that is not mentioned here is unchanged. *)
From Coq Require Import String Ascii List Bool NArith ZArith.
From Verif Require Import GoStr Num Types.
Import ListNotations.
Local Open Scope string_scope.
Local Open Scope list_scope.

(** list numbering is lost *)
Definition reload_ppr (x : ppr) : ppr := set_ppr_num None x.

(** the adjustment list of the geometry of a shape is lost *)
Definition reload_sppr (x : sppr) : sppr :=
  set_sppr_geom (mk_geom (geom_prst (sppr_geom x)) false) x.

Definition reload_shapeR {P} (rp : P -> P) (x : shapeR P) : shapeR P :=
  mk_shapeR (shapeR_cnvPr x) (shapeR_cnvCn x) (shapeR_cnvSp x) (option_map reload_sppr (shapeR_sp x))
    (option_map (option_map (map rp)) (shapeR_textBox x)) (shapeR_body x).

Definition reload_canvasR {E} (re : E -> E) (x : canvasR E) : canvasR E :=
  mk_canvasR (canvasR_bg x) (canvasR_whole x) (map re (canvasR_items x)).

Definition reload_groupR {E} (re : E -> E) (x : groupR E) : groupR E :=
  mk_groupR (groupR_cnv x) (option_map reload_sppr (groupR_sp x)) (map re (groupR_elems x)).

(** of the elements of a group inside a group only those with [re e] not empty stay *)
Definition reload_gshapeR {E} (re : E -> list E) (x : gshapeR E) : gshapeR E :=
  mk_gshapeR (gshapeR_cnvPr x) (gshapeR_cnv x) (option_map reload_sppr (gshapeR_sp x)) (flat_map re (gshapeR_elems x)).

Definition reload_gdataR {Sh Ca Gr} (rs : Sh -> Sh) (rc : Ca -> Ca) (rg : Gr -> Gr) (x : gdataR Sh Ca Gr) : gdataR Sh Ca Gr :=
  mk_gdataR (gdataR_uri x) (gdataR_pic x) (option_map rs (gdataR_shape x)) (option_map rc (gdataR_canvas x)) (option_map rg (gdataR_group x)).

Definition reload_graphicR {D} (rd : D -> D) (x : graphicR D) : graphicR D :=
  mk_graphicR (graphicR_xmla x) (option_map rd (graphicR_data x)).

(** [f] is the document read *)
Definition reload_inlineR {G} (f : option nat) (rg : G -> G) (x : inlineR G) : inlineR G :=
  set_inlineR_file f (set_inlineR_graphic (option_map rg (inlineR_graphic x)) x).
Definition reload_anchorR {G} (f : option nat) (rg : G -> G) (x : anchorR G) : anchorR G :=
  set_anchorR_file f (set_anchorR_graphic (option_map rg (anchorR_graphic x)) x).

Definition reload_runR {C} (rc : C -> C) (x : runR C) : runR C :=
  mk_runR (runR_space x) (runR_rpr x) (runR_instr x) (map rc (runR_children x)).

(** - a tab in a run loses its attributes
    - what is inside a hyperlink does not know the document it is in
    - a picture in a group loses its namespace declaration
    - groups nested more than two deep are lost *)
Fixpoint reload_para (f : option nat) (x : para) : para :=
  match x with Para r => Para (mk_paraR (option_map reload_ppr (paraR_ppr r)) (map (reload_pchild f) (paraR_children r)) f) end
with reload_pchild (f : option nat) (x : pchild) : pchild :=
  match x with
  | PRun r => PRun (reload_runR (reload_rchild f) r)
  | PLink id r => PLink id (reload_runR (reload_rchild None) r)
  | PRPr r => PRPr r
  end
with reload_rchild (f : option nat) (x : rchild) : rchild :=
  match x with
  | RText t => RText t
  | RTab _ => RTab tab0
  | RBr ty => RBr ty
  | RDraw i a =>
      RDraw (option_map (reload_inlineR f (reload_graphicR (reload_gdataR (reload_shape f) (reload_canvas f) (reload_group f)))) i)
            (option_map (reload_anchorR f (reload_graphicR (reload_gdataR (reload_shape f) (reload_canvas f) (reload_group f)))) a)
  end
with reload_shape (f : option nat) (x : shape) : shape :=
  match x with Shape s => Shape (reload_shapeR (reload_para f) s) end
with reload_canvas (f : option nat) (x : canvas) : canvas :=
  match x with Canvas c => Canvas (reload_canvasR (reload_citem f) c) end
with reload_citem (f : option nat) (x : citem) : citem :=
  match x with CShape s => CShape (reload_shape f s) | CPic p => CPic p | CGroup g => CGroup (reload_group f g) end
with reload_group (f : option nat) (x : group) : group :=
  match x with Group g => Group (reload_groupR (reload_gelem f) g) end
with reload_gelem (f : option nat) (x : gelem) : gelem :=
  match x with
  | GPic p => GPic (set_pic_xmlpic "" p)
  | GShape s => GShape (reload_shape f s)
  | GCanvas c => GCanvas (reload_canvas f c)
  | GGrp g => GGrp (reload_gshapeR (fun e => match e with GGrp _ => [] | _ => [reload_gelem f e] end) g)
  end.

Definition reload_run (f : option nat) (r : run) : run := reload_runR (reload_rchild f) r.

(** only the first character of a look flag is read, as a digit *)
Definition reload_flag (v : i64) : i64 :=
  match itoa (iv v) with
  | String c _ => i64_of (Z.of_N ((N_of_ascii c + 208) mod 256))
  | "" => i0
  end.
Definition reload_look (x : look) : look :=
  mk_look (look_val x) (reload_flag (look_firstRow x)) (reload_flag (look_lastRow x)) (reload_flag (look_firstCol x))
    (reload_flag (look_lastCol x)) (reload_flag (look_noHBand x)) (reload_flag (look_noVBand x)).
Definition reload_tblpr (x : tblpr) : tblpr := set_tblpr_look (option_map reload_look (tblpr_look x)) x.

(** nil grid columns are lost *)
Definition reload_grid (x : list (option i64)) : list (option i64) :=
  filter (fun o => match o with Some _ => true | None => false end) x.

Definition reload_cell (f : option nat) (x : cell) : cell := mk_cell (cell_props x) (map (reload_para f) (cell_paras x)) f.
Definition reload_row (f : option nat) (x : row) : row := mk_row (row_props x) (map (reload_cell f) (row_cells x)).
Definition reload_table (f : option nat) (x : table) : table :=
  mk_table (option_map reload_tblpr (table_props x)) (option_map reload_grid (table_grid x)) (map (reload_row f) (table_rows x)).

Definition reload_item (f : option nat) (x : item) : item :=
  match x with IPara p => IPara (reload_para f p) | ITable t => ITable (reload_table f t) | ISect s => ISect s end.
