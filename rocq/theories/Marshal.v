(** Encoding of the element types by encoding/xml, as directed by the struct
    tags: attributes and children in field order, nil pointers left out,
    omitempty for zero values. Nothing but the tags of the cited types is
    involved; the encoder itself belongs to the trusted library model. *)
From Coq Require Import String Ascii List Bool ZArith.
From Verif Require Import GoStr Num Lib Types XmlTok.
Import ListNotations.
Local Open Scope string_scope.
Local Open Scope list_scope.

(** structrun.go:323-329 *)
Definition m_rfonts (x : rfonts) : tree :=
  Elem (w "rFonts") (ato (w "ascii") (rfonts_ascii x) ++ ato (w "eastAsia") (rfonts_eastAsia x) ++
                     ato (w "hAnsi") (rfonts_hAnsi x) ++ ato (w "hint") (rfonts_hint x)) [].

(** structeffects.go:281-290 *)
Definition m_spacing (x : spacing) : tree :=
  Elem (w "spacing") (atio (w "val") (spacing_val x) ++ atio (w "beforeLines") (spacing_beforeLines x) ++
                      atio (w "before") (spacing_before x) ++ atio (w "line") (spacing_line x) ++
                      ato (w "lineRule") (spacing_lineRule x)) [].

(** structeffects.go:328-337 *)
Definition m_ind (x : ind) : tree :=
  Elem (w "ind") (atio (w "leftChars") (ind_leftChars x) ++ atio (w "left") (ind_left x) ++
                  atio (w "firstLineChars") (ind_firstLineChars x) ++ atio (w "firstLine") (ind_firstLine x) ++
                  atio (w "hangingChars") (ind_hangingChars x) ++ atio (w "hanging") (ind_hanging x)) [].

(** structeffects.go:120-127 *)
Definition m_shade (x : shade) : tree :=
  Elem (w "shd") (ato (w "val") (shade_val x) ++ ato (w "color") (shade_color x) ++ ato (w "fill") (shade_fill x) ++
                  ato (w "themeFill") (shade_themeFill x) ++ ato (w "themeFillTint") (shade_themeFillTint x)) [].

(** structrun.go:202-220 with structeffects.go:29-117 *)
Definition m_rpr (x : rpr) : tree :=
  Elem (w "rPr") []
    (el m_rfonts (rpr_fonts x) ++ elb (w "b") (rpr_bold x) ++ elb (w "iCs") (rpr_ics x) ++
     elb (w "i") (rpr_italic x) ++ el (val_elo (w "highlight")) (rpr_highlight x) ++
     el (val_el (w "color")) (rpr_color x) ++ el (val_el (w "sz")) (rpr_size x) ++
     el (val_el (w "szCs")) (rpr_sizeCs x) ++ el m_spacing (rpr_spacing x) ++
     el (val_el (w "rStyle")) (rpr_runStyle x) ++ el (val_el (w "pStyle")) (rpr_style x) ++
     el m_shade (rpr_shade x) ++ el (val_eli (w "kern")) (rpr_kern x) ++
     el (val_elo (w "u")) (rpr_underline x) ++ el (val_el (w "vertAlign")) (rpr_vertAlign x) ++
     el (val_el (w "strike")) (rpr_strike x)).

(** structtext.go:63-67 *)
Definition m_tab (x : tab) : tree :=
  Elem (w "tab") (ato (w "val") (tab_val x) ++ atio (w "pos") (tab_pos x)) [].

(** structtext.go:31-34 *)
Definition m_tabs (x : list tab) : tree := Elem (w "tabs") [] (map m_tab x).

(** structnum.go:26-42 *)
Definition m_numpr (x : numpr) : tree :=
  Elem (w "numPr") [] (el (val_el (w "numId")) (numpr_numID x) ++ el (val_el (w "ilvl")) (numpr_ilvl x)).

(** structpara.go:31-48 *)
Definition m_ppr (x : ppr) : tree :=
  Elem (w "pPr") []
    (el m_tabs (ppr_tabs x) ++ el m_spacing (ppr_spacing x) ++ el m_numpr (ppr_num x) ++
     el m_ind (ppr_ind x) ++ el (val_el (w "jc")) (ppr_jc x) ++ el m_shade (ppr_shade x) ++
     el (val_eli (w "kern")) (ppr_kern x) ++ el (val_el (w "pStyle")) (ppr_style x) ++
     el (val_el (w "textAlignment")) (ppr_textAlignment x) ++
     el (val_eli (w "adjustRightInd")) (ppr_adjustRightInd x) ++
     el (val_eli (w "snapToGrid")) (ppr_snapToGrid x) ++ el (val_eli (w "kinsoku")) (ppr_kinsoku x) ++
     el (val_eli (w "overflowPunct")) (ppr_overflowPunct x) ++ el m_rpr (ppr_rpr x)).

(** structtext.go:111-117 *)
Definition m_text (x : text) : tree :=
  Elem (w "t") (ato (xml_ "space") (text_space x)) (chr (text_text x)).

(** structtext.go:92-95 *)
Definition m_br (ty : string) : tree := Elem (w "br") (ato (w "type") ty) [].

(** structdrawing.go:347-351 *)
Definition m_extent (x : xy) : tree := Elem (wp "extent") (ati (nn "cx") (xy_x x) ++ ati (nn "cy") (xy_y x)) [].

(** structdrawing.go:373-379 *)
Definition m_effect (x : eff) : tree :=
  Elem (wp "effectExtent") (ati (nn "l") (eff_l x) ++ ati (nn "t") (eff_t x) ++ ati (nn "r") (eff_r x) ++ ati (nn "b") (eff_b x)) [].

(** structdrawing.go:405-409 *)
Definition m_docpr (x : nonvis) : tree :=
  Elem (wp "docPr") (ati (nn "id") (nonvis_id x) ++ ato (nn "name") (nonvis_name x)) [].

(** structdrawing.go:434-437, 475-479 *)
Definition m_frame (x : glocks) : tree :=
  Elem (wp "cNvGraphicFramePr") []
    [Elem (a_ "graphicFrameLocks") (ato (xmlns "a") (glocks_xmla x) ++ atio (nn "noChangeAspect") (glocks_noChange x)) []].

(** structeffects.go:255-258, the element name comes from the field tag *)
Definition m_nonvis (q : qname) (x : nonvis) : tree :=
  Elem q (ati (nn "id") (nonvis_id x) ++ at_ (nn "name") (nonvis_name x)) [].

(** structdrawing.go:666-670, 713-716, 757-760 *)
Definition m_nvpic (x : nvpic) : tree :=
  Elem (pic_ "nvPicPr") []
    [m_nonvis (pic_ "cNvPr") (nvpic_nv x);
     Elem (pic_ "cNvPicPr") [] (el (fun v => Elem (a_ "picLocks") (ati (nn "noChangeAspect") v) []) (nvpic_locks x))].

(** structdrawing.go:805-810, 859-862 *)
Definition m_ablip (x : ablip) : tree :=
  Elem (a_ "blip") (at_ (r_ "embed") (ablip_embed x) ++ ato (nn "cstate") (ablip_cstate x))
    (el (fun v => Elem (a_ "alphaModFix") (ati (nn "amt") v) []) (ablip_alpha x)).

(** structdrawing.go:763-767, 865-868, 907-909 *)
Definition m_picblip (x : picblip) : tree :=
  Elem (pic_ "blipFill") []
    [m_ablip (picblip_blip x); Elem (a_ "stretch") [] (elb (a_ "fillRect") (picblip_stretch x))].

(** structdrawing.go:1063-1073 *)
Definition m_off (q : qname) (x : xy) : tree := Elem q (ati (nn "x") (xy_x x) ++ ati (nn "y") (xy_y x)) [].
Definition m_ext (q : qname) (x : xy) : tree := Elem q (ati (nn "cx") (xy_x x) ++ ati (nn "cy") (xy_y x)) [].

(** structdrawing.go:958-967 *)
Definition m_xfrm (x : xfrm) : tree :=
  Elem (a_ "xfrm") (atio (nn "rot") (xfrm_rot x) ++ atio (nn "flipH") (xfrm_flipH x) ++ atio (nn "flipV") (xfrm_flipV x))
    ([m_off (a_ "off") (xfrm_off x)] ++ [m_ext (a_ "ext") (xfrm_ext x)] ++
     el (m_off (a_ "chOff")) (xfrm_chOff x) ++ el (m_ext (a_ "chExt")) (xfrm_chExt x)).

(** structdrawing.go:1077-1081 *)
Definition m_geom (x : geom) : tree :=
  Elem (a_ "prstGeom") (at_ (nn "prst") (geom_prst x)) (elb (a_ "avLst") (geom_avLst x)).

(** structdrawing.go:913-917 *)
Definition m_picsp (x : picsp) : tree :=
  Elem (pic_ "spPr") [] ([m_xfrm (picsp_xfrm x)] ++ el m_geom (picsp_geom x)).

(** structdrawing.go:611-617 *)
Definition m_pic (x : pic) : tree :=
  Elem (pic_ "pic") (ato (xmlns "pic") (pic_xmlpic x))
    (el m_nvpic (pic_nvpic x) ++ el m_picblip (pic_blip x) ++ el m_picsp (pic_sp x)).

(** structshape.go:415-418, 458-461 *)
Definition m_solid (x : option string) : tree :=
  Elem (a_ "solidFill") [] (el (fun v => Elem (a_ "srgbClr") (at_ (nn "val") v) []) x).

(** structshape.go:476-481, 503-508 *)
Definition m_lend (q : qname) (x : lend) : tree :=
  Elem q (ato (nn "type") (lend_type x) ++ ato (nn "w") (lend_w x) ++ ato (nn "len") (lend_len x)) [].

(** structshape.go:326-340 *)
Definition m_aline (x : aline) : tree :=
  Elem (a_ "ln") (atio (nn "w") (aline_w x) ++ ato (nn "cap") (aline_cap x) ++ ato (nn "cmpd") (aline_cmpd x) ++ ato (nn "algn") (aline_algn x))
    (elb (a_ "noFill") (aline_noFill x) ++ el m_solid (aline_solid x) ++
     el (fun v => Elem (a_ "prstDash") (at_ (nn "val") v) []) (aline_dash x) ++
     el (fun v => Elem (a_ "miter") (at_ (nn "lim") v) []) (aline_miter x) ++
     elb (a_ "round") (aline_round x) ++ el (m_lend (a_ "headEnd")) (aline_head x) ++ el (m_lend (a_ "tailEnd")) (aline_tail x)).

(** structshape.go:287-295 *)
Definition m_tile (x : tile) : tree :=
  Elem (a_ "tile") (ati (nn "tx") (tile_tx x) ++ ati (nn "ty") (tile_ty x) ++ ati (nn "sx") (tile_sx x) ++
                    ati (nn "sy") (tile_sy x) ++ at_ (nn "flip") (tile_flip x) ++ at_ (nn "algn") (tile_algn x)) [].

(** structshape.go:213-221, 282-284 *)
Definition m_blipfill (x : blipfill) : tree :=
  Elem (a_ "blipFill") (ati (nn "dpi") (blipfill_dpi x) ++ ati (nn "rotWithShape") (blipfill_rot x))
    (el m_ablip (blipfill_blip x) ++ elb (a_ "srcRect") (blipfill_srcRect x) ++ el m_tile (blipfill_tile x)).

(** structeffects.go:177-189, the element name comes from the field tag *)
Definition m_sppr (q : qname) (x : sppr) : tree :=
  Elem q (at_ (nn "bwMode") (sppr_bwMode x))
    ([m_xfrm (sppr_xfrm x)] ++ [m_geom (sppr_geom x)] ++ el m_solid (sppr_solid x) ++
     el m_blipfill (sppr_blip x) ++ elb (a_ "noFill") (sppr_noFill x) ++ el m_aline (sppr_line x)).

(** structshape.go:105-108 *)
Definition m_cnvcn (b : bool) : tree := Elem (wps "cNvCnPr") [] (elb (a_ "cxnSpLocks") b).

(** structshape.go:138-143, 189-192 *)
Definition m_cnvsp (x : cnvsp) : tree :=
  Elem (wps "cNvSpPr") (atio (nn "txBox") (cnvsp_txBox x))
    (el (fun v => Elem (a_ "spLocks") (atio (nn "noChangeArrowheads") v) []) (cnvsp_locks x)).

(** structshape.go:612-626 *)
Definition m_bodypr (x : bodypr) : tree :=
  Elem (wps "bodyPr") (ati (nn "rot") (bodypr_rot x) ++ ato (nn "vert") (bodypr_vert x) ++ ato (nn "wrap") (bodypr_wrap x) ++
      ati (nn "lIns") (bodypr_lIns x) ++ ati (nn "tIns") (bodypr_tIns x) ++ ati (nn "rIns") (bodypr_rIns x) ++
      ati (nn "bIns") (bodypr_bIns x) ++ ato (nn "anchor") (bodypr_anchor x) ++
      ati (nn "anchorCtr") (bodypr_anchorCtr x) ++ ati (nn "upright") (bodypr_upright x))
    (elb (a_ "noAutofit") (bodypr_noAutofit x)).

(** structshape.go:30-40, 530-535, 571-576 *)
Definition m_shapeR {P} (mp : P -> tree) (x : shapeR P) : tree :=
  Elem (wps "wsp") []
    (el (m_nonvis (wps "cNvPr")) (shapeR_cnvPr x) ++ el m_cnvcn (shapeR_cnvCn x) ++ el m_cnvsp (shapeR_cnvSp x) ++
     el (m_sppr (wps "spPr")) (shapeR_sp x) ++
     el (fun c => Elem (wps "txbx") [] (el (fun ps => Elem (w "txbxContent") [] (map mp ps)) c)) (shapeR_textBox x) ++
     el m_bodypr (shapeR_body x)).

(** structcanvas.go:30-38, 102-105, 135-138 *)
Definition m_canvasR {E} (me : E -> tree) (x : canvasR E) : tree :=
  Elem (wpc "wpc") []
    (el (fun b => Elem (wpc "bg") [] (elb (a_ "noFill") b)) (canvasR_bg x) ++
     el (fun l => Elem (wpc "whole") [] (el m_aline l)) (canvasR_whole x) ++
     map me (canvasR_items x)).

(** structgroup.go:110-113, 147-149 *)
Definition m_gcnv (b : bool) : tree := Elem (wpg "cNvGrpSpPr") [] (elb (a_ "grpSpLocks") b).

(** structgroup.go:30-37 *)
Definition m_groupR {E} (me : E -> tree) (x : groupR E) : tree :=
  Elem (wpg "wgp") []
    (el m_gcnv (groupR_cnv x) ++ el (m_sppr (wpg "grpSpPr")) (groupR_sp x) ++ map me (groupR_elems x)).

(** structgroup.go:152-160 *)
Definition m_gshapeR {E} (me : E -> tree) (x : gshapeR E) : tree :=
  Elem (wpg "grpSp") []
    (el (m_nonvis (wpg "cNvPr")) (gshapeR_cnvPr x) ++ el m_gcnv (gshapeR_cnv x) ++
     el (m_sppr (wpg "grpSpPr")) (gshapeR_sp x) ++ map me (gshapeR_elems x)).

(** structdrawing.go:533-543 *)
Definition m_gdataR {Sh Ca Gr} (ms : Sh -> tree) (mc : Ca -> tree) (mg : Gr -> tree) (x : gdataR Sh Ca Gr) : tree :=
  Elem (a_ "graphicData") (at_ (nn "uri") (gdataR_uri x))
    (el m_pic (gdataR_pic x) ++ el ms (gdataR_shape x) ++ el mc (gdataR_canvas x) ++ el mg (gdataR_group x)).

(** structdrawing.go:482-488 *)
Definition m_graphicR {D} (md : D -> tree) (x : graphicR D) : tree :=
  Elem (a_ "graphic") (ato (xmlns "a") (graphicR_xmla x)) (el md (graphicR_data x)).

(** structdrawing.go:117-133 *)
Definition m_inlineR {G} (mg : G -> tree) (x : inlineR G) : tree :=
  Elem (wp "inline")
    (ati (nn "distT") (inlineR_distT x) ++ ati (nn "distB") (inlineR_distB x) ++
     ati (nn "distL") (inlineR_distL x) ++ ati (nn "distR") (inlineR_distR x))
    (el m_extent (inlineR_extent x) ++ el m_effect (inlineR_effect x) ++ el m_docpr (inlineR_docPr x) ++
     el m_frame (inlineR_frame x) ++ el mg (inlineR_graphic x)).

(** structdrawing.go:1442-1446, 1485-1489 *)
Definition m_wpos (q : qname) (x : wpos) : tree :=
  Elem q (at_ (nn "relativeFrom") (wpos_rel x)) [Elem (wp "posOffset") [] [Chr (itoa (iv (wpos_off x)))]].

(** structdrawing.go:1174-1199, 1435-1439, 1528-1531 *)
Definition m_anchorR {G} (mg : G -> tree) (x : anchorR G) : tree :=
  Elem (wp "anchor")
    (ati (nn "distT") (anchorR_distT x) ++ ati (nn "distB") (anchorR_distB x) ++
     ati (nn "distL") (anchorR_distL x) ++ ati (nn "distR") (anchorR_distR x) ++
     ati (nn "simplePos") (anchorR_simplePos x) ++ ati (nn "relativeHeight") (anchorR_relHeight x) ++
     ati (nn "behindDoc") (anchorR_behindDoc x) ++ ati (nn "locked") (anchorR_locked x) ++
     ati (nn "layoutInCell") (anchorR_layoutInCell x) ++ ati (nn "allowOverlap") (anchorR_allowOverlap x))
    (el (m_off (wp "simplePos")) (anchorR_simpleXY x) ++ el (m_wpos (wp "positionH")) (anchorR_posH x) ++
     el (m_wpos (wp "positionV")) (anchorR_posV x) ++ el m_extent (anchorR_extent x) ++
     el m_effect (anchorR_effect x) ++ elb (wp "wrapNone") (anchorR_wrapNone x) ++
     el (fun v => Elem (wp "wrapSquare") (at_ (nn "wrapText") v) []) (anchorR_wrapSquare x) ++
     el m_docpr (anchorR_docPr x) ++ el m_frame (anchorR_frame x) ++ el mg (anchorR_graphic x)).

(** structrun.go:32-45 *)
Definition m_runR {C} (mc : C -> tree) (x : runR C) : tree :=
  Elem (w "r") (ato (xml_ "space") (runR_space x))
    (el m_rpr (runR_rpr x) ++
     (if String.eqb (runR_instr x) "" then [] else [Elem (w "instrText") [] [Chr (runR_instr x)]]) ++
     map mc (runR_children x)).

(** structpara.go:171-183 *)
Definition m_paraR {C} (mc : C -> tree) (x : paraR C) : tree :=
  Elem (w "p") [] (el m_ppr (paraR_ppr x) ++ map mc (paraR_children x)).

Fixpoint m_para (x : para) : tree := match x with Para r => m_paraR m_pchild r end
with m_pchild (x : pchild) : tree :=
  match x with
  | PRun r => m_runR m_rchild r
  | PLink id r => Elem (w "hyperlink") (at_ (r_ "id") id) [m_runR m_rchild r]  (* structlink.go:30-34 *)
  | PRPr r => m_rpr r
  end
with m_rchild (x : rchild) : tree :=
  match x with
  | RText t => m_text t
  | RTab t => m_tab t
  | RBr ty => m_br ty
  | RDraw i a =>                                      (* structdrawing.go:46-52 *)
      Elem (w "drawing") []
        (el (m_inlineR (m_graphicR (m_gdataR m_shape m_canvas m_group))) i ++
         el (m_anchorR (m_graphicR (m_gdataR m_shape m_canvas m_group))) a)
  end
with m_shape (x : shape) : tree := match x with Shape s => m_shapeR m_para s end
with m_canvas (x : canvas) : tree := match x with Canvas c => m_canvasR m_citem c end
with m_citem (x : citem) : tree :=
  match x with CShape s => m_shape s | CPic p => m_pic p | CGroup g => m_group g end
with m_group (x : group) : tree := match x with Group g => m_groupR m_gelem g end
with m_gelem (x : gelem) : tree :=
  match x with
  | GPic p => m_pic p | GShape s => m_shape s | GCanvas c => m_canvas c
  | GGrp g => m_gshapeR m_gelem g
  end.

(** structtable.go:774-779, the element name comes from the field tag *)
Definition m_border (q : qname) (x : border) : tree :=
  Elem q (ato (w "val") (border_val x) ++ atio (w "sz") (border_size x) ++ atio (w "space") (border_space x) ++ ato (w "color") (border_color x)) [].

(** structtable.go:697-704 *)
Definition m_borders (q : qname) (x : borders) : tree :=
  Elem q [] (el (m_border (w "top")) (borders_top x) ++ el (m_border (w "left")) (borders_left x) ++
             el (m_border (w "bottom")) (borders_bottom x) ++ el (m_border (w "right")) (borders_right x) ++
             el (m_border (w "insideH")) (borders_insideH x) ++ el (m_border (w "insideV")) (borders_insideV x)).

(** structtable.go:265-269, 666-670 *)
Definition m_wtype (q : qname) (x : wtype) : tree :=
  Elem q (ati (w "w") (wtype_w x) ++ at_ (w "type") (wtype_type x)) [].

(** structtable.go:188-198 *)
Definition m_tblpos (x : tblpos) : tree :=
  Elem (w "tblpPr") (atio (w "leftFromText") (tblpos_leftFT x) ++ atio (w "rightFromText") (tblpos_rightFT x) ++
    ato (w "vertAnchor") (tblpos_vertAnchor x) ++ ato (w "horzAnchor") (tblpos_horzAnchor x) ++
    ato (w "tblpXSpec") (tblpos_xspec x) ++ ato (w "tblpYSpec") (tblpos_yspec x) ++
    atio (w "tblpX") (tblpos_x x) ++ atio (w "tblpY") (tblpos_y x)) [].

(** structtable.go:295-304 *)
Definition m_look (x : look) : tree :=
  Elem (w "tblLook") (at_ (w "val") (look_val x) ++ ati (w "firstRow") (look_firstRow x) ++ ati (w "lastRow") (look_lastRow x) ++
    ati (w "firstColumn") (look_firstCol x) ++ ati (w "lastColumn") (look_lastCol x) ++
    ati (w "noHBand") (look_noHBand x) ++ ati (w "noVBand") (look_noVBand x)) [].

(** structtable.go:108-116 *)
Definition m_tblpr (x : tblpr) : tree :=
  Elem (w "tblPr") [] (el m_tblpos (tblpr_pos x) ++ el (val_el (w "tblStyle")) (tblpr_style x) ++
    el (m_wtype (w "tblW")) (tblpr_width x) ++ el (val_el (w "jc")) (tblpr_jc x) ++
    el (m_borders (w "tblBorders")) (tblpr_borders x) ++ el m_look (tblpr_look x)).

(** structtable.go:337-340, 375-378 *)
Definition m_grid (x : list (option i64)) : tree :=
  Elem (w "tblGrid") [] (flat_map (el (fun v => Elem (w "gridCol") (ati (w "w") v) [])) x).

(** structtable.go:528-532 *)
Definition m_trheight (x : trheight) : tree :=
  Elem (w "trHeight") (ato (w "hRule") (trheight_rule x) ++ ati (w "val") (trheight_val x)) [].

(** structtable.go:466-470 *)
Definition m_trpr (x : trpr) : tree :=
  Elem (w "trPr") [] (el m_trheight (trpr_height x) ++ el (val_el (w "jc")) (trpr_jc x)).

(** structtable.go:584-592, 691-694, 815-824 *)
Definition m_tcpr (x : tcpr) : tree :=
  Elem (w "tcPr") [] (el (m_wtype (w "tcW")) (tcpr_width x) ++ el (val_elo (w "vMerge")) (tcpr_vMerge x) ++
    el (val_eli (w "gridSpan")) (tcpr_span x) ++ el (m_borders (w "tcBorders")) (tcpr_borders x) ++
    el m_shade (tcpr_shade x) ++ el (val_el (w "vAlign")) (tcpr_vAlign x)).

(** structtable.go:535-541 *)
Definition m_cell (x : cell) : tree :=
  Elem (w "tc") [] (el m_tcpr (cell_props x) ++ map m_para (cell_paras x)).

(** structtable.go:402-411 *)
Definition m_row (x : row) : tree :=
  Elem (w "tr") [] (el m_trpr (row_props x) ++ map m_cell (row_cells x)).

(** structtable.go:30-37 *)
Definition m_table (x : table) : tree :=
  Elem (w "tbl") [] (el m_tblpr (table_props x) ++ el m_grid (table_grid x) ++ map m_row (table_rows x)).

(** structsect.go:28-62 *)
Definition m_sect (x : sect) : tree :=
  Elem (w "sectPr") []
    (el (fun p => Elem (w "pgSz") (ati (w "w") (pgsz_w p) ++ ati (w "h") (pgsz_h p)) []) (sect_pgSz x) ++
     el (fun p => Elem (w "pgMar") (ati (w "top") (pgmar_top p) ++ ati (w "left") (pgmar_left p) ++
            ati (w "bottom") (pgmar_bottom p) ++ ati (w "right") (pgmar_right p) ++
            ati (w "header") (pgmar_header p) ++ ati (w "footer") (pgmar_footer p) ++ ati (w "gutter") (pgmar_gutter p)) []) (sect_pgMar x) ++
     el (fun v => Elem (w "cols") (ati (w "space") v) []) (sect_cols x) ++
     el (fun p => Elem (w "docGrid") (at_ (w "type") (docgrid_type p) ++ ati (w "linePitch") (docgrid_pitch p)) []) (sect_grid x)).

Definition m_item (x : item) : tree :=
  match x with IPara p => m_para p | ITable t => m_table t | ISect s => m_sect s end.

(** structdoc.go:30-46 namespace constants; structdoc.go:157-174 Document. The
    namespace attributes have these values in every document made by New,
    LoadBodyItems or SplitByParagraph, and after Parse has met a document part
    (docx.go:104-117, empty.go:27-42, structdoc.go:231-239, unpack.go:84-95). *)
Definition doc_attrs : list attr :=
  [(xmlns "w", "http://schemas.openxmlformats.org/wordprocessingml/2006/main");
   (xmlns "r", "http://schemas.openxmlformats.org/officeDocument/2006/relationships");
   (xmlns "wp", "http://schemas.openxmlformats.org/drawingml/2006/wordprocessingDrawing");
   (xmlns "wps", "http://schemas.microsoft.com/office/word/2010/wordprocessingShape");
   (xmlns "wpc", "http://schemas.microsoft.com/office/word/2010/wordprocessingCanvas");
   (xmlns "wpg", "http://schemas.microsoft.com/office/word/2010/wordprocessingGroup")].

(** otherwise the fields are empty; only the first one has no omitempty *)
Definition no_attrs : list attr := [(xmlns "w", "")].

Definition m_document_of (a : list attr) (items : list item) : tree :=
  Elem (w "document") a [Elem (w "body") [] (map m_item items)].
Definition m_document (items : list item) : tree := m_document_of doc_attrs items.
