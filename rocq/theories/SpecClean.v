(** Specification: what becomes of bytes that XML cannot represent. *)
From Coq Require Import String Ascii List Bool NArith ZArith.
From Verif Require Import GoStr Num Lib Types Docx Pack History SpecLex SpecPack SpecReopen.
Import ListNotations.
Local Open Scope list_scope.
Local Open Scope string_scope.

(** the code points UTF-8 can encode, and the replacement character U+FFFD *)
Definition scalar (r : N) : Prop := (r <= 55295 \/ 57344 <= r <= 1114111)%N.
Definition REPLACEMENT : string := encode 65533.

(** [cleans s s']: characters of XML stay; other characters, and bytes that do
    not begin a character, become the replacement character. *)
Inductive cleans : string -> string -> Prop :=
| cn_end : cleans "" ""
| cn_keep : forall r s s', xml_char r -> cleans s s' -> cleans (encode r ++ s) (encode r ++ s')
| cn_char : forall r s s', scalar r -> ~ xml_char r -> cleans s s' -> cleans (encode r ++ s) (REPLACEMENT ++ s')
| cn_byte : forall a s s', (forall r t, scalar r -> String a s <> encode r ++ t) -> cleans s s' -> cleans (String a s) (REPLACEMENT ++ s').

(** An item with the function [c] applied to each string in it; numbers, flags,
    structure and document pointers stay. One definition per record of Types.v,
    in the order of that file. *)
Section Each.
Variable c : string -> string.

Definition clean_rfonts (x : rfonts) : rfonts :=
  mk_rfonts (c (rfonts_ascii x)) (c (rfonts_eastAsia x)) (c (rfonts_hAnsi x)) (c (rfonts_hint x)).
Definition clean_spacing (x : spacing) : spacing :=
  mk_spacing (spacing_val x) (spacing_beforeLines x) (spacing_before x) (spacing_line x) (c (spacing_lineRule x)).
Definition clean_shade (x : shade) : shade :=
  mk_shade (c (shade_val x)) (c (shade_color x)) (c (shade_fill x)) (c (shade_themeFill x)) (c (shade_themeFillTint x)).
Definition clean_rpr (x : rpr) : rpr :=
  mk_rpr (option_map clean_rfonts (rpr_fonts x)) (rpr_bold x) (rpr_ics x) (rpr_italic x) (option_map c (rpr_highlight x)) (option_map c (rpr_color x)) (option_map c (rpr_size x)) (option_map c (rpr_sizeCs x)) (option_map clean_spacing (rpr_spacing x)) (option_map c (rpr_runStyle x)) (option_map c (rpr_style x)) (option_map clean_shade (rpr_shade x)) (rpr_kern x) (option_map c (rpr_underline x)) (option_map c (rpr_vertAlign x)) (option_map c (rpr_strike x)).
Definition clean_tab (x : tab) : tab :=
  mk_tab (c (tab_val x)) (tab_pos x).
Definition clean_numpr (x : numpr) : numpr :=
  mk_numpr (option_map c (numpr_numID x)) (option_map c (numpr_ilvl x)).
Definition clean_ppr (x : ppr) : ppr :=
  mk_ppr (option_map (map clean_tab) (ppr_tabs x)) (option_map clean_spacing (ppr_spacing x)) (option_map clean_numpr (ppr_num x)) (ppr_ind x) (option_map c (ppr_jc x)) (option_map clean_shade (ppr_shade x)) (ppr_kern x) (option_map c (ppr_style x)) (option_map c (ppr_textAlignment x)) (ppr_adjustRightInd x) (ppr_snapToGrid x) (ppr_kinsoku x) (ppr_overflowPunct x) (option_map clean_rpr (ppr_rpr x)).
Definition clean_text (x : text) : text :=
  mk_text (c (text_space x)) (c (text_text x)).
Definition clean_runR {C} (fc : C -> C) (x : runR C) : runR C :=
  mk_runR (c (runR_space x)) (option_map clean_rpr (runR_rpr x)) (c (runR_instr x)) (map fc (runR_children x)).
Definition clean_paraR {C} (fc : C -> C) (x : paraR C) : paraR C :=
  mk_paraR (option_map clean_ppr (paraR_ppr x)) (map fc (paraR_children x)) (paraR_file x).
Definition clean_nonvis (x : nonvis) : nonvis :=
  mk_nonvis (nonvis_id x) (c (nonvis_name x)).
Definition clean_glocks (x : glocks) : glocks :=
  mk_glocks (c (glocks_xmla x)) (glocks_noChange x).
Definition clean_ablip (x : ablip) : ablip :=
  mk_ablip (c (ablip_embed x)) (c (ablip_cstate x)) (ablip_alpha x).
Definition clean_picblip (x : picblip) : picblip :=
  mk_picblip (clean_ablip (picblip_blip x)) (picblip_stretch x).
Definition clean_nvpic (x : nvpic) : nvpic :=
  mk_nvpic (clean_nonvis (nvpic_nv x)) (nvpic_locks x).
Definition clean_geom (x : geom) : geom :=
  mk_geom (c (geom_prst x)) (geom_avLst x).
Definition clean_picsp (x : picsp) : picsp :=
  mk_picsp (picsp_xfrm x) (option_map clean_geom (picsp_geom x)).
Definition clean_pic (x : pic) : pic :=
  mk_pic (c (pic_xmlpic x)) (option_map clean_nvpic (pic_nvpic x)) (option_map clean_picblip (pic_blip x)) (option_map clean_picsp (pic_sp x)).
Definition clean_lend (x : lend) : lend :=
  mk_lend (c (lend_type x)) (c (lend_w x)) (c (lend_len x)).
Definition clean_aline (x : aline) : aline :=
  mk_aline (aline_w x) (c (aline_cap x)) (c (aline_cmpd x)) (c (aline_algn x)) (aline_noFill x) (option_map (option_map c) (aline_solid x)) (option_map c (aline_dash x)) (option_map c (aline_miter x)) (aline_round x) (option_map clean_lend (aline_head x)) (option_map clean_lend (aline_tail x)).
Definition clean_tile (x : tile) : tile :=
  mk_tile (tile_tx x) (tile_ty x) (tile_sx x) (tile_sy x) (c (tile_flip x)) (c (tile_algn x)).
Definition clean_blipfill (x : blipfill) : blipfill :=
  mk_blipfill (blipfill_dpi x) (blipfill_rot x) (option_map clean_ablip (blipfill_blip x)) (blipfill_srcRect x) (option_map clean_tile (blipfill_tile x)).
Definition clean_sppr (x : sppr) : sppr :=
  mk_sppr (c (sppr_bwMode x)) (sppr_xfrm x) (clean_geom (sppr_geom x)) (option_map (option_map c) (sppr_solid x)) (option_map clean_blipfill (sppr_blip x)) (sppr_noFill x) (option_map clean_aline (sppr_line x)).
Definition clean_bodypr (x : bodypr) : bodypr :=
  mk_bodypr (bodypr_rot x) (c (bodypr_vert x)) (c (bodypr_wrap x)) (bodypr_lIns x) (bodypr_tIns x) (bodypr_rIns x) (bodypr_bIns x) (c (bodypr_anchor x)) (bodypr_anchorCtr x) (bodypr_upright x) (bodypr_noAutofit x).
Definition clean_shapeR {P} (fp : P -> P) (x : shapeR P) : shapeR P :=
  mk_shapeR (option_map clean_nonvis (shapeR_cnvPr x)) (shapeR_cnvCn x) (shapeR_cnvSp x) (option_map clean_sppr (shapeR_sp x)) (option_map (option_map (map fp)) (shapeR_textBox x)) (option_map clean_bodypr (shapeR_body x)).
Definition clean_canvasR {E} (fe : E -> E) (x : canvasR E) : canvasR E :=
  mk_canvasR (canvasR_bg x) (option_map (option_map clean_aline) (canvasR_whole x)) (map fe (canvasR_items x)).
Definition clean_groupR {E} (fe : E -> E) (x : groupR E) : groupR E :=
  mk_groupR (groupR_cnv x) (option_map clean_sppr (groupR_sp x)) (map fe (groupR_elems x)).
Definition clean_gshapeR {E} (fe : E -> E) (x : gshapeR E) : gshapeR E :=
  mk_gshapeR (option_map clean_nonvis (gshapeR_cnvPr x)) (gshapeR_cnv x) (option_map clean_sppr (gshapeR_sp x)) (map fe (gshapeR_elems x)).
Definition clean_gdataR {Sh Ca Gr} (fs : Sh -> Sh) (fca : Ca -> Ca) (fgr : Gr -> Gr) (x : gdataR Sh Ca Gr) : gdataR Sh Ca Gr :=
  mk_gdataR (c (gdataR_uri x)) (option_map clean_pic (gdataR_pic x)) (option_map fs (gdataR_shape x)) (option_map fca (gdataR_canvas x)) (option_map fgr (gdataR_group x)).
Definition clean_graphicR {D} (fd : D -> D) (x : graphicR D) : graphicR D :=
  mk_graphicR (c (graphicR_xmla x)) (option_map fd (graphicR_data x)).
Definition clean_inlineR {G} (fg : G -> G) (x : inlineR G) : inlineR G :=
  mk_inlineR (inlineR_distT x) (inlineR_distB x) (inlineR_distL x) (inlineR_distR x) (inlineR_extent x) (inlineR_effect x) (option_map clean_nonvis (inlineR_docPr x)) (option_map clean_glocks (inlineR_frame x)) (option_map fg (inlineR_graphic x)) (inlineR_file x).
Definition clean_wpos (x : wpos) : wpos :=
  mk_wpos (c (wpos_rel x)) (wpos_off x).
Definition clean_anchorR {G} (fg : G -> G) (x : anchorR G) : anchorR G :=
  mk_anchorR (anchorR_distT x) (anchorR_distB x) (anchorR_distL x) (anchorR_distR x) (anchorR_simplePos x) (anchorR_relHeight x) (anchorR_behindDoc x) (anchorR_locked x) (anchorR_layoutInCell x) (anchorR_allowOverlap x) (anchorR_simpleXY x) (option_map clean_wpos (anchorR_posH x)) (option_map clean_wpos (anchorR_posV x)) (anchorR_extent x) (anchorR_effect x) (anchorR_wrapNone x) (option_map c (anchorR_wrapSquare x)) (option_map clean_nonvis (anchorR_docPr x)) (option_map clean_glocks (anchorR_frame x)) (option_map fg (anchorR_graphic x)) (anchorR_file x).
Definition clean_border (x : border) : border :=
  mk_border (c (border_val x)) (border_size x) (border_space x) (c (border_color x)).
Definition clean_borders (x : borders) : borders :=
  mk_borders (option_map clean_border (borders_top x)) (option_map clean_border (borders_left x)) (option_map clean_border (borders_bottom x)) (option_map clean_border (borders_right x)) (option_map clean_border (borders_insideH x)) (option_map clean_border (borders_insideV x)).
Definition clean_wtype (x : wtype) : wtype :=
  mk_wtype (wtype_w x) (c (wtype_type x)).
Definition clean_tblpos (x : tblpos) : tblpos :=
  mk_tblpos (tblpos_leftFT x) (tblpos_rightFT x) (c (tblpos_vertAnchor x)) (c (tblpos_horzAnchor x)) (c (tblpos_xspec x)) (c (tblpos_yspec x)) (tblpos_x x) (tblpos_y x).
Definition clean_look (x : look) : look :=
  mk_look (c (look_val x)) (look_firstRow x) (look_lastRow x) (look_firstCol x) (look_lastCol x) (look_noHBand x) (look_noVBand x).
Definition clean_tblpr (x : tblpr) : tblpr :=
  mk_tblpr (option_map clean_tblpos (tblpr_pos x)) (option_map c (tblpr_style x)) (option_map clean_wtype (tblpr_width x)) (option_map c (tblpr_jc x)) (option_map clean_borders (tblpr_borders x)) (option_map clean_look (tblpr_look x)).
Definition clean_trheight (x : trheight) : trheight :=
  mk_trheight (c (trheight_rule x)) (trheight_val x).
Definition clean_trpr (x : trpr) : trpr :=
  mk_trpr (option_map clean_trheight (trpr_height x)) (option_map c (trpr_jc x)).
Definition clean_tcpr (x : tcpr) : tcpr :=
  mk_tcpr (option_map clean_wtype (tcpr_width x)) (option_map c (tcpr_vMerge x)) (tcpr_span x) (option_map clean_borders (tcpr_borders x)) (option_map clean_shade (tcpr_shade x)) (option_map c (tcpr_vAlign x)).
Definition clean_docgrid (x : docgrid) : docgrid :=
  mk_docgrid (c (docgrid_type x)) (docgrid_pitch x).
Definition clean_sect (x : sect) : sect :=
  mk_sect (sect_pgSz x) (sect_pgMar x) (sect_cols x) (option_map clean_docgrid (sect_grid x)).

(** the nested types *)
Fixpoint clean_para (x : para) : para := match x with Para r => Para (clean_paraR clean_pchild r) end
with clean_pchild (x : pchild) : pchild :=
  match x with
  | PRun r => PRun (clean_runR clean_rchild r)
  | PLink id r => PLink (c id) (clean_runR clean_rchild r)
  | PRPr r => PRPr (clean_rpr r)
  end
with clean_rchild (x : rchild) : rchild :=
  match x with
  | RText t => RText (clean_text t)
  | RTab t => RTab (clean_tab t)
  | RBr ty => RBr (c ty)
  | RDraw i a => RDraw (option_map (clean_inlineR (clean_graphicR (clean_gdataR clean_shape clean_canvas clean_group))) i)
                       (option_map (clean_anchorR (clean_graphicR (clean_gdataR clean_shape clean_canvas clean_group))) a)
  end
with clean_shape (x : shape) : shape := match x with Shape s => Shape (clean_shapeR clean_para s) end
with clean_canvas (x : canvas) : canvas := match x with Canvas s => Canvas (clean_canvasR clean_citem s) end
with clean_citem (x : citem) : citem :=
  match x with CShape s => CShape (clean_shape s) | CPic p => CPic (clean_pic p) | CGroup g => CGroup (clean_group g) end
with clean_group (x : group) : group := match x with Group g => Group (clean_groupR clean_gelem g) end
with clean_gelem (x : gelem) : gelem :=
  match x with
  | GPic p => GPic (clean_pic p) | GShape s => GShape (clean_shape s) | GCanvas s => GCanvas (clean_canvas s)
  | GGrp g => GGrp (clean_gshapeR clean_gelem g)
  end.

Definition clean_cell (x : cell) : cell :=
  mk_cell (option_map clean_tcpr (cell_props x)) (map clean_para (cell_paras x)) (cell_file x).
Definition clean_row (x : row) : row :=
  mk_row (option_map clean_trpr (row_props x)) (map clean_cell (row_cells x)).
Definition clean_table (x : table) : table :=
  mk_table (option_map clean_tblpr (table_props x)) (table_grid x) (map clean_row (table_rows x)).
Definition clean_item (x : item) : item :=
  match x with IPara p => IPara (clean_para p) | ITable t => ITable (clean_table t) | ISect s => ISect (clean_sect s) end.

Definition clean_rel (r : rel) : rel := mk_rel (c (rel_id r)) (c (rel_type r)) (c (rel_target r)) (c (rel_mode r)).
End Each.

(** a document with its strings replaced *)
Definition clean_reg (c : string -> string) (g : reg) : reg :=
  mk_reg (map (clean_rel c) (rels g)) (c (relns g)) (media g) (midx g) (rid g) (imgid g) (docid g) (slow g).
Definition clean_docx (c : string -> string) (d : docx) : docx :=
  mk_docx (map (clean_item c) (d_items d)) (clean_reg c (d_reg d)) (d_tmpl d) (d_ns d).

(** Histories of calls without condition on the strings; documents that come
    from outside have each name once, and numbers that leave room for more. *)
Definition sane_call `{GoLib} (o : op) : Prop :=
  match o with
  | OLoad _ ms => NoDup (map fst ms) /\ forall m n f, In m ms -> fst m = picture_name n f -> n = 0%N
  | OParse a => NoDup (map fst a) /\ forall f d, unpack f a = Ok d -> roomy (d_reg d)
  | _ => True
  end.
