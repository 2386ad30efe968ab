(** Namespace prefixes (Namespaces in XML 1.0): every prefix that is used has
    been declared, on the element itself or around it. *)
From Coq Require Import String Ascii List Bool.
From Verif Require Import GoStr Lib Types XmlTok Docx Pack History.
Import ListNotations.
Local Open Scope list_scope.
Local Open Scope string_scope.

(** the prefixes that are declared at some place *)
Definition scope := string -> bool.
Definition nowhere : scope := fun _ => false.
Definition declares (a : list attr) (p : string) : bool :=
  existsb (fun x => String.eqb (fst (fst x)) "xmlns" && String.eqb (snd (fst x)) p)%bool a.
Definition inside (a : list attr) (s : scope) : scope := fun p => (declares a p || s p)%bool.
(** names without prefix and the prefix xml need no declaration; a declaration
    has to name a namespace *)
Definition usable (s : scope) (p : string) : bool := (String.eqb p "" || String.eqb p "xml" || s p)%bool.
Definition ns_attr (s : scope) (x : attr) : bool :=
  if String.eqb (fst (fst x)) "xmlns" then negb (String.eqb (snd x) "") else usable s (fst (fst x)).
(** a document as a sequence of tokens; [st] has the scopes of the open
    elements *)
Fixpoint ns_tokens (st : list scope) (ts : list token) : bool :=
  match ts with
  | [] => true
  | TStart q a :: ts' =>
      let s := inside a (hd nowhere st) in
      (usable s (fst q) && forallb (ns_attr s) a && ns_tokens (s :: st) ts')%bool
  | TEnd _ :: ts' => ns_tokens (tl st) ts'
  | _ :: ts' => ns_tokens st ts'
  end.

(** every graphic, every lock of a graphic frame and every picture declares the
    prefix (a or pic) of its own name; [gp]: there may be pictures in groups *)
Definition named (s : string) : bool := negb (String.eqb s "").
Definition opt {A} (f : A -> bool) (o : option A) : bool := match o with Some x => f x | None => true end.
Definition nd_frame (x : glocks) : bool := named (glocks_xmla x).
Definition nd_pic (x : pic) : bool := named (pic_xmlpic x).
Section Declared.
Variable gp : bool.
Fixpoint nd_para (x : para) : bool := match x with Para r => forallb nd_pchild (paraR_children r) end
with nd_pchild (x : pchild) : bool :=
  match x with
  | PRun r => forallb nd_rchild (runR_children r)
  | PLink _ r => forallb nd_rchild (runR_children r)
  | PRPr _ => true
  end
with nd_rchild (x : rchild) : bool :=
  match x with
  | RDraw i a =>
      (opt (fun y => opt nd_frame (inlineR_frame y) &&
              opt (fun g => named (graphicR_xmla g) &&
                opt (fun d => opt nd_pic (gdataR_pic d) && opt nd_shape (gdataR_shape d) && opt nd_canvas (gdataR_canvas d) && opt nd_group (gdataR_group d))
                  (graphicR_data g)) (inlineR_graphic y)) i &&
       opt (fun y => opt nd_frame (anchorR_frame y) &&
              opt (fun g => named (graphicR_xmla g) &&
                opt (fun d => opt nd_pic (gdataR_pic d) && opt nd_shape (gdataR_shape d) && opt nd_canvas (gdataR_canvas d) && opt nd_group (gdataR_group d))
                  (graphicR_data g)) (anchorR_graphic y)) a)%bool
  | _ => true
  end
with nd_shape (x : shape) : bool := match x with Shape s => opt (opt (forallb nd_para)) (shapeR_textBox s) end
with nd_canvas (x : canvas) : bool := match x with Canvas c => forallb nd_citem (canvasR_items c) end
with nd_citem (x : citem) : bool :=
  match x with CShape s => nd_shape s | CPic p => nd_pic p | CGroup g => nd_group g end
with nd_group (x : group) : bool := match x with Group g => forallb nd_gelem (groupR_elems g) end
with nd_gelem (x : gelem) : bool :=
  match x with
  | GPic p => (gp && nd_pic p)%bool | GShape s => nd_shape s | GCanvas c => nd_canvas c
  | GGrp g => forallb nd_gelem (gshapeR_elems g)
  end.
Definition nd_item (x : item) : bool :=
  match x with
  | IPara p => nd_para p
  | ITable t => forallb (fun r => forallb (fun c => forallb nd_para (cell_paras c)) (row_cells r)) (table_rows t)
  | ISect _ => true
  end.
Definition declared (d : docx) : Prop := d_ns d = true /\ forallb nd_item (d_items d) = true.
(** what a call brings in from outside declares its prefixes *)
Definition brings_declared `{GoLib} (o : op) : Prop :=
  match o with
  | OLoad l _ => forallb nd_item l = true
  | OParse a => forall n d, unpack n a = Ok d -> declared d
  | _ => True
  end.
End Declared.
