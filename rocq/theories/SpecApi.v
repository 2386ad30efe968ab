(** Vocabulary for the statements about the API. It does not use the functions
    of the model, only its data types and lookups. *)
From Coq Require Import String Ascii List Bool Arith NArith ZArith.
From Verif Require Import GoStr Num Lib Types Docx.
Import ListNotations.
Local Open Scope list_scope.
Local Open Scope string_scope.

(** 2^63 *)
Definition two63 : N := 9223372036854775808.

(** what a run child contributes to plain text; drawings are excluded by [plain] *)
Definition child_text (c : rchild) : string :=
  match c with
  | RText t => text_text t
  | RTab _ => String "009" ""
  | RBr _ => String "010" ""
  | RDraw _ _ => ""
  end.
Definition run_text (r : run) : string := sconcat (map child_text (runR_children r)).
Definition is_drawing (c : rchild) : bool := match c with RDraw _ _ => true | _ => false end.
Definition is_text (c : rchild) : bool := match c with RText _ => true | _ => false end.
Definition is_tab (c : rchild) : bool := match c with RTab _ => true | _ => false end.
Definition is_break (c : rchild) : bool := match c with RBr _ => true | _ => false end.

Definition plain_run (r : run) : Prop := forall c, In c (runR_children r) -> is_drawing c = false.
(** no drawing in a run of the paragraph *)
Definition plain (p : para) : Prop := forall r, In (PRun r) (para_children p) -> plain_run r.

(** the first relationship with an id, as a relation *)
Definition first_rel (l : list rel) (id : string) (r : rel) : Prop :=
  exists a b, l = (a ++ r :: b)%list /\ rel_id r = id /\ forall x, In x a -> rel_id x <> id.
Definition first_target (l : list rel) (t : string) (r : rel) : Prop :=
  exists a b, l = (a ++ r :: b)%list /\ rel_target r = t /\ forall x, In x a -> rel_target x <> t.
(** the last media of a name *)
Definition last_media (l : list mediaT) (n : string) (m : mediaT) : Prop :=
  exists a b, l = (a ++ m :: b)%list /\ fst m = n /\ forall x, In x b -> fst x <> n.

(** markdown of a child of a paragraph without drawings; [resolve] finds the
    target of a relationship *)
Definition child_markdown (resolve : string -> option string) (c : pchild) : string :=
  match c with
  | PRun r => run_text r
  | PLink id r => "[" ++ runR_instr r ++ "](" ++ match resolve id with Some t => t | None => id end ++ ")"
  | PRPr _ => ""
  end.

(** the pictures in a drawing *)
Definition graphic_pic (g : option graphic) : option pic :=
  match g with
  | Some g => match graphicR_data g with Some d => gdataR_pic d | None => None end
  | None => None
  end.
Definition drawing_pics (c : rchild) : list pic :=
  match c with
  | RDraw i a =>
      (match i with Some x => match graphic_pic (inlineR_graphic x) with Some p => [p] | None => [] end | None => [] end ++
       match a with Some x => match graphic_pic (anchorR_graphic x) with Some p => [p] | None => [] end | None => [] end)%list
  | _ => []
  end.
Definition pic_embed (p : pic) : option string := option_map (fun b => ablip_embed (picblip_blip b)) (pic_blip p).
(** the drawing ids (docPr) of a drawing *)
Definition drawing_ids (c : rchild) : list i64 :=
  match c with
  | RDraw i a =>
      (match i with Some x => match inlineR_docPr x with Some n => [nonvis_id n] | None => [] end | None => [] end ++
       match a with Some x => match anchorR_docPr x with Some n => [nonvis_id n] | None => [] end | None => [] end)%list
  | _ => []
  end.
Definition pchild_run (c : pchild) : option run := match c with PRun r => Some r | PLink _ r => Some r | PRPr _ => None end.
Definition pchild_ids (c : pchild) : list i64 :=
  match pchild_run c with Some r => flat_map drawing_ids (runR_children r) | None => [] end.
Definition para_ids (p : para) : list i64 := flat_map pchild_ids (para_children p).
Definition table_paras (t : table) : list para :=
  flat_map (fun r => flat_map cell_paras (row_cells r)) (table_rows t).
Definition item_paras (x : item) : list para :=
  match x with IPara p => [p] | ITable t => table_paras t | ISect _ => [] end.
(** all paragraphs of a body, those of the tables included *)
Definition body_paras (l : list item) : list para := flat_map item_paras l.
Definition body_ids (l : list item) : list i64 := flat_map para_ids (body_paras l).

(** the sixteen properties of a run, and their values *)
Inductive rfield := FFonts | FBold | FIcs | FItalic | FHighlight | FColor | FSize | FSizeCs | FSpacing | FRunStyle | FStyle | FShade | FKern | FUnderline | FVertAlign | FStrike.
Inductive fval := VStr (v : option string) | VBool (v : bool) | VFonts (v : option rfonts) | VSpacing (v : option spacing)
| VShade (v : option shade) | VInt (v : option i64).
Definition rget (f : rfield) (q : rpr) : fval :=
  match f with
  | FFonts => VFonts (rpr_fonts q)
  | FBold => VBool (rpr_bold q)
  | FIcs => VBool (rpr_ics q)
  | FItalic => VBool (rpr_italic q)
  | FHighlight => VStr (rpr_highlight q)
  | FColor => VStr (rpr_color q)
  | FSize => VStr (rpr_size q)
  | FSizeCs => VStr (rpr_sizeCs q)
  | FSpacing => VSpacing (rpr_spacing q)
  | FRunStyle => VStr (rpr_runStyle q)
  | FStyle => VStr (rpr_style q)
  | FShade => VShade (rpr_shade q)
  | FKern => VInt (rpr_kern q)
  | FUnderline => VStr (rpr_underline q)
  | FVertAlign => VStr (rpr_vertAlign q)
  | FStrike => VStr (rpr_strike q)
  end.

(** the properties of a paragraph; the run properties of its mark count one by
    one, and missing properties count as empty ones *)
Inductive pfield := PTabs | PSpacing | PNum | PInd | PJc | PShade | PKern | PStyle | PTextAlignment | PAdjustRightInd | PSnapToGrid | PKinsoku | POverflowPunct | PMark (f : rfield).
Inductive pval := PVal (v : fval) | PVTabs (v : option (list tab)) | PVNum (v : option numpr) | PVInd (v : option ind).
Definition or_empty {A} (d : A) (o : option A) : A := match o with Some x => x | None => d end.
Definition pget (f : pfield) (p : para) : pval :=
  let q := or_empty ppr0 (para_ppr p) in
  match f with
  | PTabs => PVTabs (ppr_tabs q)
  | PSpacing => PVal (VSpacing (ppr_spacing q))
  | PNum => PVNum (ppr_num q)
  | PInd => PVInd (ppr_ind q)
  | PJc => PVal (VStr (ppr_jc q))
  | PShade => PVal (VShade (ppr_shade q))
  | PKern => PVal (VInt (ppr_kern q))
  | PStyle => PVal (VStr (ppr_style q))
  | PTextAlignment => PVal (VStr (ppr_textAlignment q))
  | PAdjustRightInd => PVal (VInt (ppr_adjustRightInd q))
  | PSnapToGrid => PVal (VInt (ppr_snapToGrid q))
  | PKinsoku => PVal (VInt (ppr_kinsoku q))
  | POverflowPunct => PVal (VInt (ppr_overflowPunct q))
  | PMark g => PVal (rget g (or_empty rpr0 (ppr_rpr q)))
  end.

(** a body without the paragraphs in it *)
Definition bare_cell (c : cell) : cell := mk_cell (cell_props c) [] (cell_file c).
Definition bare_row (r : row) : row := mk_row (row_props r) (map bare_cell (row_cells r)).
Definition bare_item (x : item) : item :=
  match x with
  | IPara _ => IPara (mk_para None [] None)
  | ITable t => ITable (mk_table (table_props t) (table_grid t) (map bare_row (table_rows t)))
  | ISect s => ISect s
  end.
Definition bare (l : list item) : list item := map bare_item l.

(** drawings without their sizes *)
Definition unsized_graphic (g : graphic) : graphic :=
  mk_graphicR (graphicR_xmla g) (option_map (fun d => mk_gdataR (gdataR_uri d)
     (option_map (fun p => mk_pic (pic_xmlpic p) (pic_nvpic p) (pic_blip p)
        (option_map (fun s => mk_picsp (set_xfrm_ext xy0 (picsp_xfrm s)) (picsp_geom s)) (pic_sp p))) (gdataR_pic d))
     (gdataR_shape d) (gdataR_canvas d) (gdataR_group d)) (graphicR_data g)).
Definition unsized_inline (x : inline) : inline :=
  set_inlineR_extent (option_map (fun _ => xy0) (inlineR_extent x)) (set_inlineR_graphic (option_map unsized_graphic (inlineR_graphic x)) x).
Definition unsized_anchor (x : anchor) : anchor :=
  set_anchorR_extent (option_map (fun _ => xy0) (anchorR_extent x)) (set_anchorR_graphic (option_map unsized_graphic (anchorR_graphic x)) x).
Definition pic_extent (p : pic) : option xy := option_map (fun s => xfrm_ext (picsp_xfrm s)) (pic_sp p).

(** markdown of a table; [txt] gives the text of a paragraph *)
Definition cell_markdown (txt : para -> string) (c : cell) : string :=
  match cell_paras c with
  | p :: _ => match para_children p with [] => "       " | _ => " " ++ txt p end
  | [] => "       "
  end ++ " |".
Fixpoint header_columns (n : nat) : string := match n with O => "" | S k => " :----: |" ++ header_columns k end.
Definition row_markdown (txt : para -> string) (r : row) : string :=
  String "010" "|" ++ sconcat (map (cell_markdown txt) (row_cells r)).

(** the graphic of a drawing holds something that satisfies [f], inline or anchored *)
Definition holds (f : gdata -> Prop) (c : rchild) : Prop :=
  match c with
  | RDraw i a =>
      (exists x g d, i = Some x /\ inlineR_graphic x = Some g /\ graphicR_data g = Some d /\ f d) \/
      (exists x g d, a = Some x /\ anchorR_graphic x = Some g /\ graphicR_data g = Some d /\ f d)
  | _ => False
  end.
Definition has_shape (d : gdata) : Prop := gdataR_shape d <> None.
Definition has_canvas (d : gdata) : Prop := gdataR_canvas d <> None.
Definition has_group (d : gdata) : Prop := gdataR_group d <> None.
(** a drawing with an inline or an anchor, and a picture in each of those present *)
Definition real_picture (c : rchild) : Prop :=
  match c with
  | RDraw i a =>
      (i <> None \/ a <> None) /\
      (forall x, i = Some x -> graphic_pic (inlineR_graphic x) <> None) /\
      (forall x, a = Some x -> graphic_pic (anchorR_graphic x) <> None)
  | _ => True
  end.
(** [b] is [a] without the elements that satisfy [f], everything else in order *)
Inductive without {A} (f : A -> Prop) : list A -> list A -> Prop :=
| wo_nil : without f [] []
| wo_drop x a b : f x -> without f a b -> without f (x :: a) b
| wo_keep x a b : ~ f x -> without f a b -> without f (x :: a) (x :: b).
(** the same for the runs of a paragraph; hyperlinks are not touched *)
Definition run_without (f : rchild -> Prop) (c c' : pchild) : Prop :=
  match c, c' with
  | PRun r, PRun r' => exists k, without f (runR_children r) k /\ r' = mk_runR (runR_space r) (runR_rpr r) (runR_instr r) k
  | PRun _, _ => False
  | c, c' => c' = c
  end.
Definition para_without (f : rchild -> Prop) (p p' : para) : Prop :=
  exists l, Forall2 (run_without f) (para_children p) l /\ p' = mk_para (para_ppr p) l (para_file p).
