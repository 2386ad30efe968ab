(** Which documents are saved with all prefixes declared. *)
From Coq Require Import String Ascii List Bool.
From Verif Require Import GoStr Lib Types XmlTok Docx SpecNs.
Import ListNotations.
Local Open Scope list_scope.
Local Open Scope string_scope.

(** Every picture has a namespace name of its own. A graphic or a lock of a
    graphic frame has one of its own or is inside another graphic (in a text box);
    [a] tells whether it is. *)
Fixpoint dp_para (x : para) (a : bool) : bool := match x with Para r => forallb (fun c => dp_pchild c a) (paraR_children r) end
with dp_pchild (x : pchild) (a : bool) : bool :=
  match x with
  | PRun r => forallb (fun c => dp_rchild c a) (runR_children r)
  | PLink _ r => forallb (fun c => dp_rchild c a) (runR_children r)
  | PRPr _ => true
  end
with dp_rchild (x : rchild) (a : bool) : bool :=
  match x with
  | RDraw i n =>
      (opt (fun y => opt (fun l => a || named (glocks_xmla l)) (inlineR_frame y) &&
              opt (fun g => (a || named (graphicR_xmla g)) &&
                opt (fun d => opt nd_pic (gdataR_pic d) && opt dp_shape (gdataR_shape d) && opt dp_canvas (gdataR_canvas d) && opt dp_group (gdataR_group d))
                  (graphicR_data g)) (inlineR_graphic y)) i &&
       opt (fun y => opt (fun l => a || named (glocks_xmla l)) (anchorR_frame y) &&
              opt (fun g => (a || named (graphicR_xmla g)) &&
                opt (fun d => opt nd_pic (gdataR_pic d) && opt dp_shape (gdataR_shape d) && opt dp_canvas (gdataR_canvas d) && opt dp_group (gdataR_group d))
                  (graphicR_data g)) (anchorR_graphic y)) n)%bool
  | _ => true
  end
with dp_shape (x : shape) : bool := match x with Shape s => opt (opt (forallb (fun p => dp_para p true))) (shapeR_textBox s) end
with dp_canvas (x : canvas) : bool := match x with Canvas c => forallb dp_citem (canvasR_items c) end
with dp_citem (x : citem) : bool :=
  match x with CShape s => dp_shape s | CPic p => nd_pic p | CGroup g => dp_group g end
with dp_group (x : group) : bool := match x with Group g => forallb dp_gelem (groupR_elems g) end
with dp_gelem (x : gelem) : bool :=
  match x with
  | GPic p => nd_pic p | GShape s => dp_shape s | GCanvas c => dp_canvas c
  | GGrp g => forallb dp_gelem (gshapeR_elems g)
  end.
Definition dp_item (x : item) : bool :=
  match x with
  | IPara p => dp_para p false
  | ITable t => forallb (fun r => forallb (fun c => forallb (fun p => dp_para p false) (cell_paras c)) (row_cells r)) (table_rows t)
  | ISect _ => true
  end.
