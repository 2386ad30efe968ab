(** The element types of the package as Coq records (written by
    tools/gen_types.py). The XMLName fields are constants fixed by the struct
    tags and are left out. Go int and int64 are [i64]; a pointer to a struct is
    an [option]; a pointer to an empty struct is a [bool]; [file] is the number
    of the document in the world (see Docx.v) that the Go pointer refers to.
    [set_R_f] is the field assignment, [R0] the Go zero value. *)
From Coq Require Import String List.
From Verif Require Import GoStr Num.
Import ListNotations.
Local Open Scope string_scope.

(** structrun.go:323-329 RunFonts *)
Record rfonts := mk_rfonts {
  rfonts_ascii : string;
  rfonts_eastAsia : string;
  rfonts_hAnsi : string;
  rfonts_hint : string
}.
Definition set_rfonts_ascii  (v : string) (x : rfonts) : rfonts :=
  mk_rfonts v (rfonts_eastAsia x) (rfonts_hAnsi x) (rfonts_hint x).
Definition set_rfonts_eastAsia  (v : string) (x : rfonts) : rfonts :=
  mk_rfonts (rfonts_ascii x) v (rfonts_hAnsi x) (rfonts_hint x).
Definition set_rfonts_hAnsi  (v : string) (x : rfonts) : rfonts :=
  mk_rfonts (rfonts_ascii x) (rfonts_eastAsia x) v (rfonts_hint x).
Definition set_rfonts_hint  (v : string) (x : rfonts) : rfonts :=
  mk_rfonts (rfonts_ascii x) (rfonts_eastAsia x) (rfonts_hAnsi x) v.
Definition rfonts0  : rfonts := mk_rfonts "" "" "" "".

(** structeffects.go:281-290 Spacing *)
Record spacing := mk_spacing {
  spacing_val : i64;
  spacing_beforeLines : i64;
  spacing_before : i64;
  spacing_line : i64;
  spacing_lineRule : string
}.
Definition set_spacing_val  (v : i64) (x : spacing) : spacing :=
  mk_spacing v (spacing_beforeLines x) (spacing_before x) (spacing_line x) (spacing_lineRule x).
Definition set_spacing_beforeLines  (v : i64) (x : spacing) : spacing :=
  mk_spacing (spacing_val x) v (spacing_before x) (spacing_line x) (spacing_lineRule x).
Definition set_spacing_before  (v : i64) (x : spacing) : spacing :=
  mk_spacing (spacing_val x) (spacing_beforeLines x) v (spacing_line x) (spacing_lineRule x).
Definition set_spacing_line  (v : i64) (x : spacing) : spacing :=
  mk_spacing (spacing_val x) (spacing_beforeLines x) (spacing_before x) v (spacing_lineRule x).
Definition set_spacing_lineRule  (v : string) (x : spacing) : spacing :=
  mk_spacing (spacing_val x) (spacing_beforeLines x) (spacing_before x) (spacing_line x) v.
Definition spacing0  : spacing := mk_spacing i0 i0 i0 i0 "".

(** structeffects.go:328-337 Ind *)
Record ind := mk_ind {
  ind_leftChars : i64;
  ind_left : i64;
  ind_firstLineChars : i64;
  ind_firstLine : i64;
  ind_hangingChars : i64;
  ind_hanging : i64
}.
Definition set_ind_leftChars  (v : i64) (x : ind) : ind :=
  mk_ind v (ind_left x) (ind_firstLineChars x) (ind_firstLine x) (ind_hangingChars x) (ind_hanging x).
Definition set_ind_left  (v : i64) (x : ind) : ind :=
  mk_ind (ind_leftChars x) v (ind_firstLineChars x) (ind_firstLine x) (ind_hangingChars x) (ind_hanging x).
Definition set_ind_firstLineChars  (v : i64) (x : ind) : ind :=
  mk_ind (ind_leftChars x) (ind_left x) v (ind_firstLine x) (ind_hangingChars x) (ind_hanging x).
Definition set_ind_firstLine  (v : i64) (x : ind) : ind :=
  mk_ind (ind_leftChars x) (ind_left x) (ind_firstLineChars x) v (ind_hangingChars x) (ind_hanging x).
Definition set_ind_hangingChars  (v : i64) (x : ind) : ind :=
  mk_ind (ind_leftChars x) (ind_left x) (ind_firstLineChars x) (ind_firstLine x) v (ind_hanging x).
Definition set_ind_hanging  (v : i64) (x : ind) : ind :=
  mk_ind (ind_leftChars x) (ind_left x) (ind_firstLineChars x) (ind_firstLine x) (ind_hangingChars x) v.
Definition ind0  : ind := mk_ind i0 i0 i0 i0 i0 i0.

(** structeffects.go:120-127 Shade *)
Record shade := mk_shade {
  shade_val : string;
  shade_color : string;
  shade_fill : string;
  shade_themeFill : string;
  shade_themeFillTint : string
}.
Definition set_shade_val  (v : string) (x : shade) : shade :=
  mk_shade v (shade_color x) (shade_fill x) (shade_themeFill x) (shade_themeFillTint x).
Definition set_shade_color  (v : string) (x : shade) : shade :=
  mk_shade (shade_val x) v (shade_fill x) (shade_themeFill x) (shade_themeFillTint x).
Definition set_shade_fill  (v : string) (x : shade) : shade :=
  mk_shade (shade_val x) (shade_color x) v (shade_themeFill x) (shade_themeFillTint x).
Definition set_shade_themeFill  (v : string) (x : shade) : shade :=
  mk_shade (shade_val x) (shade_color x) (shade_fill x) v (shade_themeFillTint x).
Definition set_shade_themeFillTint  (v : string) (x : shade) : shade :=
  mk_shade (shade_val x) (shade_color x) (shade_fill x) (shade_themeFill x) v.
Definition shade0  : shade := mk_shade "" "" "" "" "".

(** structrun.go:202-220 RunProperties. Pointers to structs with one string (or int64) field are [option]; pointers to empty structs (Bold, ICs, Italic) are [bool] *)
Record rpr := mk_rpr {
  rpr_fonts : option rfonts;
  rpr_bold : bool;
  rpr_ics : bool;
  rpr_italic : bool;
  rpr_highlight : option string;
  rpr_color : option string;
  rpr_size : option string;
  rpr_sizeCs : option string;
  rpr_spacing : option spacing;
  rpr_runStyle : option string;
  rpr_style : option string;
  rpr_shade : option shade;
  rpr_kern : option i64;
  rpr_underline : option string;
  rpr_vertAlign : option string;
  rpr_strike : option string
}.
Definition set_rpr_fonts  (v : option rfonts) (x : rpr) : rpr :=
  mk_rpr v (rpr_bold x) (rpr_ics x) (rpr_italic x) (rpr_highlight x) (rpr_color x) (rpr_size x) (rpr_sizeCs x) (rpr_spacing x) (rpr_runStyle x) (rpr_style x) (rpr_shade x) (rpr_kern x) (rpr_underline x) (rpr_vertAlign x) (rpr_strike x).
Definition set_rpr_bold  (v : bool) (x : rpr) : rpr :=
  mk_rpr (rpr_fonts x) v (rpr_ics x) (rpr_italic x) (rpr_highlight x) (rpr_color x) (rpr_size x) (rpr_sizeCs x) (rpr_spacing x) (rpr_runStyle x) (rpr_style x) (rpr_shade x) (rpr_kern x) (rpr_underline x) (rpr_vertAlign x) (rpr_strike x).
Definition set_rpr_ics  (v : bool) (x : rpr) : rpr :=
  mk_rpr (rpr_fonts x) (rpr_bold x) v (rpr_italic x) (rpr_highlight x) (rpr_color x) (rpr_size x) (rpr_sizeCs x) (rpr_spacing x) (rpr_runStyle x) (rpr_style x) (rpr_shade x) (rpr_kern x) (rpr_underline x) (rpr_vertAlign x) (rpr_strike x).
Definition set_rpr_italic  (v : bool) (x : rpr) : rpr :=
  mk_rpr (rpr_fonts x) (rpr_bold x) (rpr_ics x) v (rpr_highlight x) (rpr_color x) (rpr_size x) (rpr_sizeCs x) (rpr_spacing x) (rpr_runStyle x) (rpr_style x) (rpr_shade x) (rpr_kern x) (rpr_underline x) (rpr_vertAlign x) (rpr_strike x).
Definition set_rpr_highlight  (v : option string) (x : rpr) : rpr :=
  mk_rpr (rpr_fonts x) (rpr_bold x) (rpr_ics x) (rpr_italic x) v (rpr_color x) (rpr_size x) (rpr_sizeCs x) (rpr_spacing x) (rpr_runStyle x) (rpr_style x) (rpr_shade x) (rpr_kern x) (rpr_underline x) (rpr_vertAlign x) (rpr_strike x).
Definition set_rpr_color  (v : option string) (x : rpr) : rpr :=
  mk_rpr (rpr_fonts x) (rpr_bold x) (rpr_ics x) (rpr_italic x) (rpr_highlight x) v (rpr_size x) (rpr_sizeCs x) (rpr_spacing x) (rpr_runStyle x) (rpr_style x) (rpr_shade x) (rpr_kern x) (rpr_underline x) (rpr_vertAlign x) (rpr_strike x).
Definition set_rpr_size  (v : option string) (x : rpr) : rpr :=
  mk_rpr (rpr_fonts x) (rpr_bold x) (rpr_ics x) (rpr_italic x) (rpr_highlight x) (rpr_color x) v (rpr_sizeCs x) (rpr_spacing x) (rpr_runStyle x) (rpr_style x) (rpr_shade x) (rpr_kern x) (rpr_underline x) (rpr_vertAlign x) (rpr_strike x).
Definition set_rpr_sizeCs  (v : option string) (x : rpr) : rpr :=
  mk_rpr (rpr_fonts x) (rpr_bold x) (rpr_ics x) (rpr_italic x) (rpr_highlight x) (rpr_color x) (rpr_size x) v (rpr_spacing x) (rpr_runStyle x) (rpr_style x) (rpr_shade x) (rpr_kern x) (rpr_underline x) (rpr_vertAlign x) (rpr_strike x).
Definition set_rpr_spacing  (v : option spacing) (x : rpr) : rpr :=
  mk_rpr (rpr_fonts x) (rpr_bold x) (rpr_ics x) (rpr_italic x) (rpr_highlight x) (rpr_color x) (rpr_size x) (rpr_sizeCs x) v (rpr_runStyle x) (rpr_style x) (rpr_shade x) (rpr_kern x) (rpr_underline x) (rpr_vertAlign x) (rpr_strike x).
Definition set_rpr_runStyle  (v : option string) (x : rpr) : rpr :=
  mk_rpr (rpr_fonts x) (rpr_bold x) (rpr_ics x) (rpr_italic x) (rpr_highlight x) (rpr_color x) (rpr_size x) (rpr_sizeCs x) (rpr_spacing x) v (rpr_style x) (rpr_shade x) (rpr_kern x) (rpr_underline x) (rpr_vertAlign x) (rpr_strike x).
Definition set_rpr_style  (v : option string) (x : rpr) : rpr :=
  mk_rpr (rpr_fonts x) (rpr_bold x) (rpr_ics x) (rpr_italic x) (rpr_highlight x) (rpr_color x) (rpr_size x) (rpr_sizeCs x) (rpr_spacing x) (rpr_runStyle x) v (rpr_shade x) (rpr_kern x) (rpr_underline x) (rpr_vertAlign x) (rpr_strike x).
Definition set_rpr_shade  (v : option shade) (x : rpr) : rpr :=
  mk_rpr (rpr_fonts x) (rpr_bold x) (rpr_ics x) (rpr_italic x) (rpr_highlight x) (rpr_color x) (rpr_size x) (rpr_sizeCs x) (rpr_spacing x) (rpr_runStyle x) (rpr_style x) v (rpr_kern x) (rpr_underline x) (rpr_vertAlign x) (rpr_strike x).
Definition set_rpr_kern  (v : option i64) (x : rpr) : rpr :=
  mk_rpr (rpr_fonts x) (rpr_bold x) (rpr_ics x) (rpr_italic x) (rpr_highlight x) (rpr_color x) (rpr_size x) (rpr_sizeCs x) (rpr_spacing x) (rpr_runStyle x) (rpr_style x) (rpr_shade x) v (rpr_underline x) (rpr_vertAlign x) (rpr_strike x).
Definition set_rpr_underline  (v : option string) (x : rpr) : rpr :=
  mk_rpr (rpr_fonts x) (rpr_bold x) (rpr_ics x) (rpr_italic x) (rpr_highlight x) (rpr_color x) (rpr_size x) (rpr_sizeCs x) (rpr_spacing x) (rpr_runStyle x) (rpr_style x) (rpr_shade x) (rpr_kern x) v (rpr_vertAlign x) (rpr_strike x).
Definition set_rpr_vertAlign  (v : option string) (x : rpr) : rpr :=
  mk_rpr (rpr_fonts x) (rpr_bold x) (rpr_ics x) (rpr_italic x) (rpr_highlight x) (rpr_color x) (rpr_size x) (rpr_sizeCs x) (rpr_spacing x) (rpr_runStyle x) (rpr_style x) (rpr_shade x) (rpr_kern x) (rpr_underline x) v (rpr_strike x).
Definition set_rpr_strike  (v : option string) (x : rpr) : rpr :=
  mk_rpr (rpr_fonts x) (rpr_bold x) (rpr_ics x) (rpr_italic x) (rpr_highlight x) (rpr_color x) (rpr_size x) (rpr_sizeCs x) (rpr_spacing x) (rpr_runStyle x) (rpr_style x) (rpr_shade x) (rpr_kern x) (rpr_underline x) (rpr_vertAlign x) v.
Definition rpr0  : rpr := mk_rpr None false false false None None None None None None None None None None None None.

(** structtext.go:63-67 Tab *)
Record tab := mk_tab {
  tab_val : string;
  tab_pos : i64
}.
Definition set_tab_val  (v : string) (x : tab) : tab :=
  mk_tab v (tab_pos x).
Definition set_tab_pos  (v : i64) (x : tab) : tab :=
  mk_tab (tab_val x) v.
Definition tab0  : tab := mk_tab "" i0.

(** structnum.go:26-42 NumProperties *)
Record numpr := mk_numpr {
  numpr_numID : option string;
  numpr_ilvl : option string
}.
Definition set_numpr_numID  (v : option string) (x : numpr) : numpr :=
  mk_numpr v (numpr_ilvl x).
Definition set_numpr_ilvl  (v : option string) (x : numpr) : numpr :=
  mk_numpr (numpr_numID x) v.
Definition numpr0  : numpr := mk_numpr None None.

(** structpara.go:31-48 ParagraphProperties. Tabs (structtext.go:31-34) is its slice; nil elements in that slice are not modelled *)
Record ppr := mk_ppr {
  ppr_tabs : option (list tab);
  ppr_spacing : option spacing;
  ppr_num : option numpr;
  ppr_ind : option ind;
  ppr_jc : option string;
  ppr_shade : option shade;
  ppr_kern : option i64;
  ppr_style : option string;
  ppr_textAlignment : option string;
  ppr_adjustRightInd : option i64;
  ppr_snapToGrid : option i64;
  ppr_kinsoku : option i64;
  ppr_overflowPunct : option i64;
  ppr_rpr : option rpr
}.
Definition set_ppr_tabs  (v : option (list tab)) (x : ppr) : ppr :=
  mk_ppr v (ppr_spacing x) (ppr_num x) (ppr_ind x) (ppr_jc x) (ppr_shade x) (ppr_kern x) (ppr_style x) (ppr_textAlignment x) (ppr_adjustRightInd x) (ppr_snapToGrid x) (ppr_kinsoku x) (ppr_overflowPunct x) (ppr_rpr x).
Definition set_ppr_spacing  (v : option spacing) (x : ppr) : ppr :=
  mk_ppr (ppr_tabs x) v (ppr_num x) (ppr_ind x) (ppr_jc x) (ppr_shade x) (ppr_kern x) (ppr_style x) (ppr_textAlignment x) (ppr_adjustRightInd x) (ppr_snapToGrid x) (ppr_kinsoku x) (ppr_overflowPunct x) (ppr_rpr x).
Definition set_ppr_num  (v : option numpr) (x : ppr) : ppr :=
  mk_ppr (ppr_tabs x) (ppr_spacing x) v (ppr_ind x) (ppr_jc x) (ppr_shade x) (ppr_kern x) (ppr_style x) (ppr_textAlignment x) (ppr_adjustRightInd x) (ppr_snapToGrid x) (ppr_kinsoku x) (ppr_overflowPunct x) (ppr_rpr x).
Definition set_ppr_ind  (v : option ind) (x : ppr) : ppr :=
  mk_ppr (ppr_tabs x) (ppr_spacing x) (ppr_num x) v (ppr_jc x) (ppr_shade x) (ppr_kern x) (ppr_style x) (ppr_textAlignment x) (ppr_adjustRightInd x) (ppr_snapToGrid x) (ppr_kinsoku x) (ppr_overflowPunct x) (ppr_rpr x).
Definition set_ppr_jc  (v : option string) (x : ppr) : ppr :=
  mk_ppr (ppr_tabs x) (ppr_spacing x) (ppr_num x) (ppr_ind x) v (ppr_shade x) (ppr_kern x) (ppr_style x) (ppr_textAlignment x) (ppr_adjustRightInd x) (ppr_snapToGrid x) (ppr_kinsoku x) (ppr_overflowPunct x) (ppr_rpr x).
Definition set_ppr_shade  (v : option shade) (x : ppr) : ppr :=
  mk_ppr (ppr_tabs x) (ppr_spacing x) (ppr_num x) (ppr_ind x) (ppr_jc x) v (ppr_kern x) (ppr_style x) (ppr_textAlignment x) (ppr_adjustRightInd x) (ppr_snapToGrid x) (ppr_kinsoku x) (ppr_overflowPunct x) (ppr_rpr x).
Definition set_ppr_kern  (v : option i64) (x : ppr) : ppr :=
  mk_ppr (ppr_tabs x) (ppr_spacing x) (ppr_num x) (ppr_ind x) (ppr_jc x) (ppr_shade x) v (ppr_style x) (ppr_textAlignment x) (ppr_adjustRightInd x) (ppr_snapToGrid x) (ppr_kinsoku x) (ppr_overflowPunct x) (ppr_rpr x).
Definition set_ppr_style  (v : option string) (x : ppr) : ppr :=
  mk_ppr (ppr_tabs x) (ppr_spacing x) (ppr_num x) (ppr_ind x) (ppr_jc x) (ppr_shade x) (ppr_kern x) v (ppr_textAlignment x) (ppr_adjustRightInd x) (ppr_snapToGrid x) (ppr_kinsoku x) (ppr_overflowPunct x) (ppr_rpr x).
Definition set_ppr_textAlignment  (v : option string) (x : ppr) : ppr :=
  mk_ppr (ppr_tabs x) (ppr_spacing x) (ppr_num x) (ppr_ind x) (ppr_jc x) (ppr_shade x) (ppr_kern x) (ppr_style x) v (ppr_adjustRightInd x) (ppr_snapToGrid x) (ppr_kinsoku x) (ppr_overflowPunct x) (ppr_rpr x).
Definition set_ppr_adjustRightInd  (v : option i64) (x : ppr) : ppr :=
  mk_ppr (ppr_tabs x) (ppr_spacing x) (ppr_num x) (ppr_ind x) (ppr_jc x) (ppr_shade x) (ppr_kern x) (ppr_style x) (ppr_textAlignment x) v (ppr_snapToGrid x) (ppr_kinsoku x) (ppr_overflowPunct x) (ppr_rpr x).
Definition set_ppr_snapToGrid  (v : option i64) (x : ppr) : ppr :=
  mk_ppr (ppr_tabs x) (ppr_spacing x) (ppr_num x) (ppr_ind x) (ppr_jc x) (ppr_shade x) (ppr_kern x) (ppr_style x) (ppr_textAlignment x) (ppr_adjustRightInd x) v (ppr_kinsoku x) (ppr_overflowPunct x) (ppr_rpr x).
Definition set_ppr_kinsoku  (v : option i64) (x : ppr) : ppr :=
  mk_ppr (ppr_tabs x) (ppr_spacing x) (ppr_num x) (ppr_ind x) (ppr_jc x) (ppr_shade x) (ppr_kern x) (ppr_style x) (ppr_textAlignment x) (ppr_adjustRightInd x) (ppr_snapToGrid x) v (ppr_overflowPunct x) (ppr_rpr x).
Definition set_ppr_overflowPunct  (v : option i64) (x : ppr) : ppr :=
  mk_ppr (ppr_tabs x) (ppr_spacing x) (ppr_num x) (ppr_ind x) (ppr_jc x) (ppr_shade x) (ppr_kern x) (ppr_style x) (ppr_textAlignment x) (ppr_adjustRightInd x) (ppr_snapToGrid x) (ppr_kinsoku x) v (ppr_rpr x).
Definition set_ppr_rpr  (v : option rpr) (x : ppr) : ppr :=
  mk_ppr (ppr_tabs x) (ppr_spacing x) (ppr_num x) (ppr_ind x) (ppr_jc x) (ppr_shade x) (ppr_kern x) (ppr_style x) (ppr_textAlignment x) (ppr_adjustRightInd x) (ppr_snapToGrid x) (ppr_kinsoku x) (ppr_overflowPunct x) v.
Definition ppr0  : ppr := mk_ppr None None None None None None None None None None None None None None.

(** structtext.go:111-117 Text *)
Record text := mk_text {
  text_space : string;
  text_text : string
}.
Definition set_text_space  (v : string) (x : text) : text :=
  mk_text v (text_text x).
Definition set_text_text  (v : string) (x : text) : text :=
  mk_text (text_space x) v.
Definition text0  : text := mk_text "" "".

(** structrun.go:32-45 Run. The field file is only read while decoding and is not stored *)
Record runR (C : Type) := mk_runR {
  runR_space : string;
  runR_rpr : option rpr;
  runR_instr : string;
  runR_children : list C
}.
Arguments mk_runR {C}.
Arguments runR_space {C}.
Arguments runR_rpr {C}.
Arguments runR_instr {C}.
Arguments runR_children {C}.
Definition set_runR_space {C : Type} (v : string) (x : runR C) : runR C :=
  mk_runR v (runR_rpr x) (runR_instr x) (runR_children x).
Definition set_runR_rpr {C : Type} (v : option rpr) (x : runR C) : runR C :=
  mk_runR (runR_space x) v (runR_instr x) (runR_children x).
Definition set_runR_instr {C : Type} (v : string) (x : runR C) : runR C :=
  mk_runR (runR_space x) (runR_rpr x) v (runR_children x).
Definition set_runR_children {C : Type} (v : list C) (x : runR C) : runR C :=
  mk_runR (runR_space x) (runR_rpr x) (runR_instr x) v.
Definition runR0 {C : Type} : runR C := mk_runR "" None "" [].

(** structpara.go:171-183 Paragraph *)
Record paraR (C : Type) := mk_paraR {
  paraR_ppr : option ppr;
  paraR_children : list C;
  paraR_file : option nat
}.
Arguments mk_paraR {C}.
Arguments paraR_ppr {C}.
Arguments paraR_children {C}.
Arguments paraR_file {C}.
Definition set_paraR_ppr {C : Type} (v : option ppr) (x : paraR C) : paraR C :=
  mk_paraR v (paraR_children x) (paraR_file x).
Definition set_paraR_children {C : Type} (v : list C) (x : paraR C) : paraR C :=
  mk_paraR (paraR_ppr x) v (paraR_file x).
Definition set_paraR_file {C : Type} (v : option nat) (x : paraR C) : paraR C :=
  mk_paraR (paraR_ppr x) (paraR_children x) v.
Definition paraR0 {C : Type} : paraR C := mk_paraR None [] None.

(** structdrawing.go:1063-1073 AOff, AExt; 347-351 WPExtent; 1435-1439 WPSimplePos (two int64) *)
Record xy := mk_xy {
  xy_x : i64;
  xy_y : i64
}.
Definition set_xy_x  (v : i64) (x : xy) : xy :=
  mk_xy v (xy_y x).
Definition set_xy_y  (v : i64) (x : xy) : xy :=
  mk_xy (xy_x x) v.
Definition xy0  : xy := mk_xy i0 i0.

(** structdrawing.go:373-379 WPEffectExtent *)
Record eff := mk_eff {
  eff_l : i64;
  eff_t : i64;
  eff_r : i64;
  eff_b : i64
}.
Definition set_eff_l  (v : i64) (x : eff) : eff :=
  mk_eff v (eff_t x) (eff_r x) (eff_b x).
Definition set_eff_t  (v : i64) (x : eff) : eff :=
  mk_eff (eff_l x) v (eff_r x) (eff_b x).
Definition set_eff_r  (v : i64) (x : eff) : eff :=
  mk_eff (eff_l x) (eff_t x) v (eff_b x).
Definition set_eff_b  (v : i64) (x : eff) : eff :=
  mk_eff (eff_l x) (eff_t x) (eff_r x) v.
Definition eff0  : eff := mk_eff i0 i0 i0 i0.

(** structeffects.go:255-258 NonVisualProperties; structdrawing.go:405-409 WPDocPr *)
Record nonvis := mk_nonvis {
  nonvis_id : i64;
  nonvis_name : string
}.
Definition set_nonvis_id  (v : i64) (x : nonvis) : nonvis :=
  mk_nonvis v (nonvis_name x).
Definition set_nonvis_name  (v : string) (x : nonvis) : nonvis :=
  mk_nonvis (nonvis_id x) v.
Definition nonvis0  : nonvis := mk_nonvis i0 "".

(** structdrawing.go:434-437 WPCNvGraphicFramePr with its AGraphicFrameLocks (475-479) *)
Record glocks := mk_glocks {
  glocks_xmla : string;
  glocks_noChange : i64
}.
Definition set_glocks_xmla  (v : string) (x : glocks) : glocks :=
  mk_glocks v (glocks_noChange x).
Definition set_glocks_noChange  (v : i64) (x : glocks) : glocks :=
  mk_glocks (glocks_xmla x) v.
Definition glocks0  : glocks := mk_glocks "" i0.

(** structdrawing.go:805-810 ABlip *)
Record ablip := mk_ablip {
  ablip_embed : string;
  ablip_cstate : string;
  ablip_alpha : option i64
}.
Definition set_ablip_embed  (v : string) (x : ablip) : ablip :=
  mk_ablip v (ablip_cstate x) (ablip_alpha x).
Definition set_ablip_cstate  (v : string) (x : ablip) : ablip :=
  mk_ablip (ablip_embed x) v (ablip_alpha x).
Definition set_ablip_alpha  (v : option i64) (x : ablip) : ablip :=
  mk_ablip (ablip_embed x) (ablip_cstate x) v.
Definition ablip0  : ablip := mk_ablip "" "" None.

(** structdrawing.go:763-767 PICBlipFill; stretch = AStretch.FillRect is not nil (865-868) *)
Record picblip := mk_picblip {
  picblip_blip : ablip;
  picblip_stretch : bool
}.
Definition set_picblip_blip  (v : ablip) (x : picblip) : picblip :=
  mk_picblip v (picblip_stretch x).
Definition set_picblip_stretch  (v : bool) (x : picblip) : picblip :=
  mk_picblip (picblip_blip x) v.
Definition picblip0  : picblip := mk_picblip ablip0 false.

(** structdrawing.go:666-670 PICNonVisualPicProperties; locks = PicCNvPicPr.Locks (713-716, 757-760) *)
Record nvpic := mk_nvpic {
  nvpic_nv : nonvis;
  nvpic_locks : option i64
}.
Definition set_nvpic_nv  (v : nonvis) (x : nvpic) : nvpic :=
  mk_nvpic v (nvpic_locks x).
Definition set_nvpic_locks  (v : option i64) (x : nvpic) : nvpic :=
  mk_nvpic (nvpic_nv x) v.
Definition nvpic0  : nvpic := mk_nvpic nonvis0 None.

(** structdrawing.go:958-967 AXfrm *)
Record xfrm := mk_xfrm {
  xfrm_rot : i64;
  xfrm_flipH : i64;
  xfrm_flipV : i64;
  xfrm_off : xy;
  xfrm_ext : xy;
  xfrm_chOff : option xy;
  xfrm_chExt : option xy
}.
Definition set_xfrm_rot  (v : i64) (x : xfrm) : xfrm :=
  mk_xfrm v (xfrm_flipH x) (xfrm_flipV x) (xfrm_off x) (xfrm_ext x) (xfrm_chOff x) (xfrm_chExt x).
Definition set_xfrm_flipH  (v : i64) (x : xfrm) : xfrm :=
  mk_xfrm (xfrm_rot x) v (xfrm_flipV x) (xfrm_off x) (xfrm_ext x) (xfrm_chOff x) (xfrm_chExt x).
Definition set_xfrm_flipV  (v : i64) (x : xfrm) : xfrm :=
  mk_xfrm (xfrm_rot x) (xfrm_flipH x) v (xfrm_off x) (xfrm_ext x) (xfrm_chOff x) (xfrm_chExt x).
Definition set_xfrm_off  (v : xy) (x : xfrm) : xfrm :=
  mk_xfrm (xfrm_rot x) (xfrm_flipH x) (xfrm_flipV x) v (xfrm_ext x) (xfrm_chOff x) (xfrm_chExt x).
Definition set_xfrm_ext  (v : xy) (x : xfrm) : xfrm :=
  mk_xfrm (xfrm_rot x) (xfrm_flipH x) (xfrm_flipV x) (xfrm_off x) v (xfrm_chOff x) (xfrm_chExt x).
Definition set_xfrm_chOff  (v : option xy) (x : xfrm) : xfrm :=
  mk_xfrm (xfrm_rot x) (xfrm_flipH x) (xfrm_flipV x) (xfrm_off x) (xfrm_ext x) v (xfrm_chExt x).
Definition set_xfrm_chExt  (v : option xy) (x : xfrm) : xfrm :=
  mk_xfrm (xfrm_rot x) (xfrm_flipH x) (xfrm_flipV x) (xfrm_off x) (xfrm_ext x) (xfrm_chOff x) v.
Definition xfrm0  : xfrm := mk_xfrm i0 i0 i0 xy0 xy0 None None.

(** structdrawing.go:1077-1081 APrstGeom *)
Record geom := mk_geom {
  geom_prst : string;
  geom_avLst : bool
}.
Definition set_geom_prst  (v : string) (x : geom) : geom :=
  mk_geom v (geom_avLst x).
Definition set_geom_avLst  (v : bool) (x : geom) : geom :=
  mk_geom (geom_prst x) v.
Definition geom0  : geom := mk_geom "" false.

(** structdrawing.go:913-917 PICSpPr *)
Record picsp := mk_picsp {
  picsp_xfrm : xfrm;
  picsp_geom : option geom
}.
Definition set_picsp_xfrm  (v : xfrm) (x : picsp) : picsp :=
  mk_picsp v (picsp_geom x).
Definition set_picsp_geom  (v : option geom) (x : picsp) : picsp :=
  mk_picsp (picsp_xfrm x) v.
Definition picsp0  : picsp := mk_picsp xfrm0 None.

(** structdrawing.go:611-617 Picture *)
Record pic := mk_pic {
  pic_xmlpic : string;
  pic_nvpic : option nvpic;
  pic_blip : option picblip;
  pic_sp : option picsp
}.
Definition set_pic_xmlpic  (v : string) (x : pic) : pic :=
  mk_pic v (pic_nvpic x) (pic_blip x) (pic_sp x).
Definition set_pic_nvpic  (v : option nvpic) (x : pic) : pic :=
  mk_pic (pic_xmlpic x) v (pic_blip x) (pic_sp x).
Definition set_pic_blip  (v : option picblip) (x : pic) : pic :=
  mk_pic (pic_xmlpic x) (pic_nvpic x) v (pic_sp x).
Definition set_pic_sp  (v : option picsp) (x : pic) : pic :=
  mk_pic (pic_xmlpic x) (pic_nvpic x) (pic_blip x) v.
Definition pic0  : pic := mk_pic "" None None None.

(** structshape.go:476-481 AHeadEnd, 503-508 ATailEnd *)
Record lend := mk_lend {
  lend_type : string;
  lend_w : string;
  lend_len : string
}.
Definition set_lend_type  (v : string) (x : lend) : lend :=
  mk_lend v (lend_w x) (lend_len x).
Definition set_lend_w  (v : string) (x : lend) : lend :=
  mk_lend (lend_type x) v (lend_len x).
Definition set_lend_len  (v : string) (x : lend) : lend :=
  mk_lend (lend_type x) (lend_w x) v.
Definition lend0  : lend := mk_lend "" "" "".

(** structshape.go:326-340 ALine; solid = ASolidFill with its SrgbClr (415-418, 458-461) *)
Record aline := mk_aline {
  aline_w : i64;
  aline_cap : string;
  aline_cmpd : string;
  aline_algn : string;
  aline_noFill : bool;
  aline_solid : option (option string);
  aline_dash : option string;
  aline_miter : option string;
  aline_round : bool;
  aline_head : option lend;
  aline_tail : option lend
}.
Definition set_aline_w  (v : i64) (x : aline) : aline :=
  mk_aline v (aline_cap x) (aline_cmpd x) (aline_algn x) (aline_noFill x) (aline_solid x) (aline_dash x) (aline_miter x) (aline_round x) (aline_head x) (aline_tail x).
Definition set_aline_cap  (v : string) (x : aline) : aline :=
  mk_aline (aline_w x) v (aline_cmpd x) (aline_algn x) (aline_noFill x) (aline_solid x) (aline_dash x) (aline_miter x) (aline_round x) (aline_head x) (aline_tail x).
Definition set_aline_cmpd  (v : string) (x : aline) : aline :=
  mk_aline (aline_w x) (aline_cap x) v (aline_algn x) (aline_noFill x) (aline_solid x) (aline_dash x) (aline_miter x) (aline_round x) (aline_head x) (aline_tail x).
Definition set_aline_algn  (v : string) (x : aline) : aline :=
  mk_aline (aline_w x) (aline_cap x) (aline_cmpd x) v (aline_noFill x) (aline_solid x) (aline_dash x) (aline_miter x) (aline_round x) (aline_head x) (aline_tail x).
Definition set_aline_noFill  (v : bool) (x : aline) : aline :=
  mk_aline (aline_w x) (aline_cap x) (aline_cmpd x) (aline_algn x) v (aline_solid x) (aline_dash x) (aline_miter x) (aline_round x) (aline_head x) (aline_tail x).
Definition set_aline_solid  (v : option (option string)) (x : aline) : aline :=
  mk_aline (aline_w x) (aline_cap x) (aline_cmpd x) (aline_algn x) (aline_noFill x) v (aline_dash x) (aline_miter x) (aline_round x) (aline_head x) (aline_tail x).
Definition set_aline_dash  (v : option string) (x : aline) : aline :=
  mk_aline (aline_w x) (aline_cap x) (aline_cmpd x) (aline_algn x) (aline_noFill x) (aline_solid x) v (aline_miter x) (aline_round x) (aline_head x) (aline_tail x).
Definition set_aline_miter  (v : option string) (x : aline) : aline :=
  mk_aline (aline_w x) (aline_cap x) (aline_cmpd x) (aline_algn x) (aline_noFill x) (aline_solid x) (aline_dash x) v (aline_round x) (aline_head x) (aline_tail x).
Definition set_aline_round  (v : bool) (x : aline) : aline :=
  mk_aline (aline_w x) (aline_cap x) (aline_cmpd x) (aline_algn x) (aline_noFill x) (aline_solid x) (aline_dash x) (aline_miter x) v (aline_head x) (aline_tail x).
Definition set_aline_head  (v : option lend) (x : aline) : aline :=
  mk_aline (aline_w x) (aline_cap x) (aline_cmpd x) (aline_algn x) (aline_noFill x) (aline_solid x) (aline_dash x) (aline_miter x) (aline_round x) v (aline_tail x).
Definition set_aline_tail  (v : option lend) (x : aline) : aline :=
  mk_aline (aline_w x) (aline_cap x) (aline_cmpd x) (aline_algn x) (aline_noFill x) (aline_solid x) (aline_dash x) (aline_miter x) (aline_round x) (aline_head x) v.
Definition aline0  : aline := mk_aline i0 "" "" "" false None None None false None None.

(** structshape.go:287-295 ATile *)
Record tile := mk_tile {
  tile_tx : i64;
  tile_ty : i64;
  tile_sx : i64;
  tile_sy : i64;
  tile_flip : string;
  tile_algn : string
}.
Definition set_tile_tx  (v : i64) (x : tile) : tile :=
  mk_tile v (tile_ty x) (tile_sx x) (tile_sy x) (tile_flip x) (tile_algn x).
Definition set_tile_ty  (v : i64) (x : tile) : tile :=
  mk_tile (tile_tx x) v (tile_sx x) (tile_sy x) (tile_flip x) (tile_algn x).
Definition set_tile_sx  (v : i64) (x : tile) : tile :=
  mk_tile (tile_tx x) (tile_ty x) v (tile_sy x) (tile_flip x) (tile_algn x).
Definition set_tile_sy  (v : i64) (x : tile) : tile :=
  mk_tile (tile_tx x) (tile_ty x) (tile_sx x) v (tile_flip x) (tile_algn x).
Definition set_tile_flip  (v : string) (x : tile) : tile :=
  mk_tile (tile_tx x) (tile_ty x) (tile_sx x) (tile_sy x) v (tile_algn x).
Definition set_tile_algn  (v : string) (x : tile) : tile :=
  mk_tile (tile_tx x) (tile_ty x) (tile_sx x) (tile_sy x) (tile_flip x) v.
Definition tile0  : tile := mk_tile i0 i0 i0 i0 "" "".

(** structshape.go:213-221 ABlipFill *)
Record blipfill := mk_blipfill {
  blipfill_dpi : i64;
  blipfill_rot : i64;
  blipfill_blip : option ablip;
  blipfill_srcRect : bool;
  blipfill_tile : option tile
}.
Definition set_blipfill_dpi  (v : i64) (x : blipfill) : blipfill :=
  mk_blipfill v (blipfill_rot x) (blipfill_blip x) (blipfill_srcRect x) (blipfill_tile x).
Definition set_blipfill_rot  (v : i64) (x : blipfill) : blipfill :=
  mk_blipfill (blipfill_dpi x) v (blipfill_blip x) (blipfill_srcRect x) (blipfill_tile x).
Definition set_blipfill_blip  (v : option ablip) (x : blipfill) : blipfill :=
  mk_blipfill (blipfill_dpi x) (blipfill_rot x) v (blipfill_srcRect x) (blipfill_tile x).
Definition set_blipfill_srcRect  (v : bool) (x : blipfill) : blipfill :=
  mk_blipfill (blipfill_dpi x) (blipfill_rot x) (blipfill_blip x) v (blipfill_tile x).
Definition set_blipfill_tile  (v : option tile) (x : blipfill) : blipfill :=
  mk_blipfill (blipfill_dpi x) (blipfill_rot x) (blipfill_blip x) (blipfill_srcRect x) v.
Definition blipfill0  : blipfill := mk_blipfill i0 i0 None false None.

(** structeffects.go:177-189 ShapeProperties *)
Record sppr := mk_sppr {
  sppr_bwMode : string;
  sppr_xfrm : xfrm;
  sppr_geom : geom;
  sppr_solid : option (option string);
  sppr_blip : option blipfill;
  sppr_noFill : bool;
  sppr_line : option aline
}.
Definition set_sppr_bwMode  (v : string) (x : sppr) : sppr :=
  mk_sppr v (sppr_xfrm x) (sppr_geom x) (sppr_solid x) (sppr_blip x) (sppr_noFill x) (sppr_line x).
Definition set_sppr_xfrm  (v : xfrm) (x : sppr) : sppr :=
  mk_sppr (sppr_bwMode x) v (sppr_geom x) (sppr_solid x) (sppr_blip x) (sppr_noFill x) (sppr_line x).
Definition set_sppr_geom  (v : geom) (x : sppr) : sppr :=
  mk_sppr (sppr_bwMode x) (sppr_xfrm x) v (sppr_solid x) (sppr_blip x) (sppr_noFill x) (sppr_line x).
Definition set_sppr_solid  (v : option (option string)) (x : sppr) : sppr :=
  mk_sppr (sppr_bwMode x) (sppr_xfrm x) (sppr_geom x) v (sppr_blip x) (sppr_noFill x) (sppr_line x).
Definition set_sppr_blip  (v : option blipfill) (x : sppr) : sppr :=
  mk_sppr (sppr_bwMode x) (sppr_xfrm x) (sppr_geom x) (sppr_solid x) v (sppr_noFill x) (sppr_line x).
Definition set_sppr_noFill  (v : bool) (x : sppr) : sppr :=
  mk_sppr (sppr_bwMode x) (sppr_xfrm x) (sppr_geom x) (sppr_solid x) (sppr_blip x) v (sppr_line x).
Definition set_sppr_line  (v : option aline) (x : sppr) : sppr :=
  mk_sppr (sppr_bwMode x) (sppr_xfrm x) (sppr_geom x) (sppr_solid x) (sppr_blip x) (sppr_noFill x) v.
Definition sppr0  : sppr := mk_sppr "" xfrm0 geom0 None None false None.

(** structshape.go:138-143 WPSCNvSpPr, 189-192 ASPLocks *)
Record cnvsp := mk_cnvsp {
  cnvsp_txBox : i64;
  cnvsp_locks : option i64
}.
Definition set_cnvsp_txBox  (v : i64) (x : cnvsp) : cnvsp :=
  mk_cnvsp v (cnvsp_locks x).
Definition set_cnvsp_locks  (v : option i64) (x : cnvsp) : cnvsp :=
  mk_cnvsp (cnvsp_txBox x) v.
Definition cnvsp0  : cnvsp := mk_cnvsp i0 None.

(** structshape.go:612-626 WPSBodyPr *)
Record bodypr := mk_bodypr {
  bodypr_rot : i64;
  bodypr_vert : string;
  bodypr_wrap : string;
  bodypr_lIns : i64;
  bodypr_tIns : i64;
  bodypr_rIns : i64;
  bodypr_bIns : i64;
  bodypr_anchor : string;
  bodypr_anchorCtr : i64;
  bodypr_upright : i64;
  bodypr_noAutofit : bool
}.
Definition set_bodypr_rot  (v : i64) (x : bodypr) : bodypr :=
  mk_bodypr v (bodypr_vert x) (bodypr_wrap x) (bodypr_lIns x) (bodypr_tIns x) (bodypr_rIns x) (bodypr_bIns x) (bodypr_anchor x) (bodypr_anchorCtr x) (bodypr_upright x) (bodypr_noAutofit x).
Definition set_bodypr_vert  (v : string) (x : bodypr) : bodypr :=
  mk_bodypr (bodypr_rot x) v (bodypr_wrap x) (bodypr_lIns x) (bodypr_tIns x) (bodypr_rIns x) (bodypr_bIns x) (bodypr_anchor x) (bodypr_anchorCtr x) (bodypr_upright x) (bodypr_noAutofit x).
Definition set_bodypr_wrap  (v : string) (x : bodypr) : bodypr :=
  mk_bodypr (bodypr_rot x) (bodypr_vert x) v (bodypr_lIns x) (bodypr_tIns x) (bodypr_rIns x) (bodypr_bIns x) (bodypr_anchor x) (bodypr_anchorCtr x) (bodypr_upright x) (bodypr_noAutofit x).
Definition set_bodypr_lIns  (v : i64) (x : bodypr) : bodypr :=
  mk_bodypr (bodypr_rot x) (bodypr_vert x) (bodypr_wrap x) v (bodypr_tIns x) (bodypr_rIns x) (bodypr_bIns x) (bodypr_anchor x) (bodypr_anchorCtr x) (bodypr_upright x) (bodypr_noAutofit x).
Definition set_bodypr_tIns  (v : i64) (x : bodypr) : bodypr :=
  mk_bodypr (bodypr_rot x) (bodypr_vert x) (bodypr_wrap x) (bodypr_lIns x) v (bodypr_rIns x) (bodypr_bIns x) (bodypr_anchor x) (bodypr_anchorCtr x) (bodypr_upright x) (bodypr_noAutofit x).
Definition set_bodypr_rIns  (v : i64) (x : bodypr) : bodypr :=
  mk_bodypr (bodypr_rot x) (bodypr_vert x) (bodypr_wrap x) (bodypr_lIns x) (bodypr_tIns x) v (bodypr_bIns x) (bodypr_anchor x) (bodypr_anchorCtr x) (bodypr_upright x) (bodypr_noAutofit x).
Definition set_bodypr_bIns  (v : i64) (x : bodypr) : bodypr :=
  mk_bodypr (bodypr_rot x) (bodypr_vert x) (bodypr_wrap x) (bodypr_lIns x) (bodypr_tIns x) (bodypr_rIns x) v (bodypr_anchor x) (bodypr_anchorCtr x) (bodypr_upright x) (bodypr_noAutofit x).
Definition set_bodypr_anchor  (v : string) (x : bodypr) : bodypr :=
  mk_bodypr (bodypr_rot x) (bodypr_vert x) (bodypr_wrap x) (bodypr_lIns x) (bodypr_tIns x) (bodypr_rIns x) (bodypr_bIns x) v (bodypr_anchorCtr x) (bodypr_upright x) (bodypr_noAutofit x).
Definition set_bodypr_anchorCtr  (v : i64) (x : bodypr) : bodypr :=
  mk_bodypr (bodypr_rot x) (bodypr_vert x) (bodypr_wrap x) (bodypr_lIns x) (bodypr_tIns x) (bodypr_rIns x) (bodypr_bIns x) (bodypr_anchor x) v (bodypr_upright x) (bodypr_noAutofit x).
Definition set_bodypr_upright  (v : i64) (x : bodypr) : bodypr :=
  mk_bodypr (bodypr_rot x) (bodypr_vert x) (bodypr_wrap x) (bodypr_lIns x) (bodypr_tIns x) (bodypr_rIns x) (bodypr_bIns x) (bodypr_anchor x) (bodypr_anchorCtr x) v (bodypr_noAutofit x).
Definition set_bodypr_noAutofit  (v : bool) (x : bodypr) : bodypr :=
  mk_bodypr (bodypr_rot x) (bodypr_vert x) (bodypr_wrap x) (bodypr_lIns x) (bodypr_tIns x) (bodypr_rIns x) (bodypr_bIns x) (bodypr_anchor x) (bodypr_anchorCtr x) (bodypr_upright x) v.
Definition bodypr0  : bodypr := mk_bodypr i0 "" "" i0 i0 i0 i0 "" i0 i0 false.

(** structshape.go:30-40 WordprocessingShape. cnvCn = WPSCNvCnPr with its ConnShapeLocks (105-108); textBox = WPSTextBox, its Content and that one's Paragraphs (530-576) *)
Record shapeR (P : Type) := mk_shapeR {
  shapeR_cnvPr : option nonvis;
  shapeR_cnvCn : option bool;
  shapeR_cnvSp : option cnvsp;
  shapeR_sp : option sppr;
  shapeR_textBox : option (option (list P));
  shapeR_body : option bodypr
}.
Arguments mk_shapeR {P}.
Arguments shapeR_cnvPr {P}.
Arguments shapeR_cnvCn {P}.
Arguments shapeR_cnvSp {P}.
Arguments shapeR_sp {P}.
Arguments shapeR_textBox {P}.
Arguments shapeR_body {P}.
Definition set_shapeR_cnvPr {P : Type} (v : option nonvis) (x : shapeR P) : shapeR P :=
  mk_shapeR v (shapeR_cnvCn x) (shapeR_cnvSp x) (shapeR_sp x) (shapeR_textBox x) (shapeR_body x).
Definition set_shapeR_cnvCn {P : Type} (v : option bool) (x : shapeR P) : shapeR P :=
  mk_shapeR (shapeR_cnvPr x) v (shapeR_cnvSp x) (shapeR_sp x) (shapeR_textBox x) (shapeR_body x).
Definition set_shapeR_cnvSp {P : Type} (v : option cnvsp) (x : shapeR P) : shapeR P :=
  mk_shapeR (shapeR_cnvPr x) (shapeR_cnvCn x) v (shapeR_sp x) (shapeR_textBox x) (shapeR_body x).
Definition set_shapeR_sp {P : Type} (v : option sppr) (x : shapeR P) : shapeR P :=
  mk_shapeR (shapeR_cnvPr x) (shapeR_cnvCn x) (shapeR_cnvSp x) v (shapeR_textBox x) (shapeR_body x).
Definition set_shapeR_textBox {P : Type} (v : option (option (list P))) (x : shapeR P) : shapeR P :=
  mk_shapeR (shapeR_cnvPr x) (shapeR_cnvCn x) (shapeR_cnvSp x) (shapeR_sp x) v (shapeR_body x).
Definition set_shapeR_body {P : Type} (v : option bodypr) (x : shapeR P) : shapeR P :=
  mk_shapeR (shapeR_cnvPr x) (shapeR_cnvCn x) (shapeR_cnvSp x) (shapeR_sp x) (shapeR_textBox x) v.
Definition shapeR0 {P : Type} : shapeR P := mk_shapeR None None None None None None.

(** structcanvas.go:30-38 WordprocessingCanvas; bg = WPCBackground.NoFill (102-105), whole = WPCWhole.Line (135-138) *)
Record canvasR (E : Type) := mk_canvasR {
  canvasR_bg : option bool;
  canvasR_whole : option (option aline);
  canvasR_items : list E
}.
Arguments mk_canvasR {E}.
Arguments canvasR_bg {E}.
Arguments canvasR_whole {E}.
Arguments canvasR_items {E}.
Definition set_canvasR_bg {E : Type} (v : option bool) (x : canvasR E) : canvasR E :=
  mk_canvasR v (canvasR_whole x) (canvasR_items x).
Definition set_canvasR_whole {E : Type} (v : option (option aline)) (x : canvasR E) : canvasR E :=
  mk_canvasR (canvasR_bg x) v (canvasR_items x).
Definition set_canvasR_items {E : Type} (v : list E) (x : canvasR E) : canvasR E :=
  mk_canvasR (canvasR_bg x) (canvasR_whole x) v.
Definition canvasR0 {E : Type} : canvasR E := mk_canvasR None None [].

(** structgroup.go:30-37 WordprocessingGroup; cnv = WPGcNvGrpSpPr.Locks present (110-113) *)
Record groupR (E : Type) := mk_groupR {
  groupR_cnv : option bool;
  groupR_sp : option sppr;
  groupR_elems : list E
}.
Arguments mk_groupR {E}.
Arguments groupR_cnv {E}.
Arguments groupR_sp {E}.
Arguments groupR_elems {E}.
Definition set_groupR_cnv {E : Type} (v : option bool) (x : groupR E) : groupR E :=
  mk_groupR v (groupR_sp x) (groupR_elems x).
Definition set_groupR_sp {E : Type} (v : option sppr) (x : groupR E) : groupR E :=
  mk_groupR (groupR_cnv x) v (groupR_elems x).
Definition set_groupR_elems {E : Type} (v : list E) (x : groupR E) : groupR E :=
  mk_groupR (groupR_cnv x) (groupR_sp x) v.
Definition groupR0 {E : Type} : groupR E := mk_groupR None None [].

(** structgroup.go:152-160 WPGGroupShape *)
Record gshapeR (E : Type) := mk_gshapeR {
  gshapeR_cnvPr : option nonvis;
  gshapeR_cnv : option bool;
  gshapeR_sp : option sppr;
  gshapeR_elems : list E
}.
Arguments mk_gshapeR {E}.
Arguments gshapeR_cnvPr {E}.
Arguments gshapeR_cnv {E}.
Arguments gshapeR_sp {E}.
Arguments gshapeR_elems {E}.
Definition set_gshapeR_cnvPr {E : Type} (v : option nonvis) (x : gshapeR E) : gshapeR E :=
  mk_gshapeR v (gshapeR_cnv x) (gshapeR_sp x) (gshapeR_elems x).
Definition set_gshapeR_cnv {E : Type} (v : option bool) (x : gshapeR E) : gshapeR E :=
  mk_gshapeR (gshapeR_cnvPr x) v (gshapeR_sp x) (gshapeR_elems x).
Definition set_gshapeR_sp {E : Type} (v : option sppr) (x : gshapeR E) : gshapeR E :=
  mk_gshapeR (gshapeR_cnvPr x) (gshapeR_cnv x) v (gshapeR_elems x).
Definition set_gshapeR_elems {E : Type} (v : list E) (x : gshapeR E) : gshapeR E :=
  mk_gshapeR (gshapeR_cnvPr x) (gshapeR_cnv x) (gshapeR_sp x) v.
Definition gshapeR0 {E : Type} : gshapeR E := mk_gshapeR None None None [].

(** structdrawing.go:533-543 AGraphicData *)
Record gdataR (Sh : Type) (Ca : Type) (Gr : Type) := mk_gdataR {
  gdataR_uri : string;
  gdataR_pic : option pic;
  gdataR_shape : option Sh;
  gdataR_canvas : option Ca;
  gdataR_group : option Gr
}.
Arguments mk_gdataR {Sh Ca Gr}.
Arguments gdataR_uri {Sh Ca Gr}.
Arguments gdataR_pic {Sh Ca Gr}.
Arguments gdataR_shape {Sh Ca Gr}.
Arguments gdataR_canvas {Sh Ca Gr}.
Arguments gdataR_group {Sh Ca Gr}.
Definition set_gdataR_uri {Sh : Type} {Ca : Type} {Gr : Type} (v : string) (x : gdataR Sh Ca Gr) : gdataR Sh Ca Gr :=
  mk_gdataR v (gdataR_pic x) (gdataR_shape x) (gdataR_canvas x) (gdataR_group x).
Definition set_gdataR_pic {Sh : Type} {Ca : Type} {Gr : Type} (v : option pic) (x : gdataR Sh Ca Gr) : gdataR Sh Ca Gr :=
  mk_gdataR (gdataR_uri x) v (gdataR_shape x) (gdataR_canvas x) (gdataR_group x).
Definition set_gdataR_shape {Sh : Type} {Ca : Type} {Gr : Type} (v : option Sh) (x : gdataR Sh Ca Gr) : gdataR Sh Ca Gr :=
  mk_gdataR (gdataR_uri x) (gdataR_pic x) v (gdataR_canvas x) (gdataR_group x).
Definition set_gdataR_canvas {Sh : Type} {Ca : Type} {Gr : Type} (v : option Ca) (x : gdataR Sh Ca Gr) : gdataR Sh Ca Gr :=
  mk_gdataR (gdataR_uri x) (gdataR_pic x) (gdataR_shape x) v (gdataR_group x).
Definition set_gdataR_group {Sh : Type} {Ca : Type} {Gr : Type} (v : option Gr) (x : gdataR Sh Ca Gr) : gdataR Sh Ca Gr :=
  mk_gdataR (gdataR_uri x) (gdataR_pic x) (gdataR_shape x) (gdataR_canvas x) v.
Definition gdataR0 {Sh : Type} {Ca : Type} {Gr : Type} : gdataR Sh Ca Gr := mk_gdataR "" None None None None.

(** structdrawing.go:482-488 AGraphic *)
Record graphicR (D : Type) := mk_graphicR {
  graphicR_xmla : string;
  graphicR_data : option D
}.
Arguments mk_graphicR {D}.
Arguments graphicR_xmla {D}.
Arguments graphicR_data {D}.
Definition set_graphicR_xmla {D : Type} (v : string) (x : graphicR D) : graphicR D :=
  mk_graphicR v (graphicR_data x).
Definition set_graphicR_data {D : Type} (v : option D) (x : graphicR D) : graphicR D :=
  mk_graphicR (graphicR_xmla x) v.
Definition graphicR0 {D : Type} : graphicR D := mk_graphicR "" None.

(** structdrawing.go:117-133 WPInline *)
Record inlineR (G : Type) := mk_inlineR {
  inlineR_distT : i64;
  inlineR_distB : i64;
  inlineR_distL : i64;
  inlineR_distR : i64;
  inlineR_extent : option xy;
  inlineR_effect : option eff;
  inlineR_docPr : option nonvis;
  inlineR_frame : option glocks;
  inlineR_graphic : option G;
  inlineR_file : option nat
}.
Arguments mk_inlineR {G}.
Arguments inlineR_distT {G}.
Arguments inlineR_distB {G}.
Arguments inlineR_distL {G}.
Arguments inlineR_distR {G}.
Arguments inlineR_extent {G}.
Arguments inlineR_effect {G}.
Arguments inlineR_docPr {G}.
Arguments inlineR_frame {G}.
Arguments inlineR_graphic {G}.
Arguments inlineR_file {G}.
Definition set_inlineR_distT {G : Type} (v : i64) (x : inlineR G) : inlineR G :=
  mk_inlineR v (inlineR_distB x) (inlineR_distL x) (inlineR_distR x) (inlineR_extent x) (inlineR_effect x) (inlineR_docPr x) (inlineR_frame x) (inlineR_graphic x) (inlineR_file x).
Definition set_inlineR_distB {G : Type} (v : i64) (x : inlineR G) : inlineR G :=
  mk_inlineR (inlineR_distT x) v (inlineR_distL x) (inlineR_distR x) (inlineR_extent x) (inlineR_effect x) (inlineR_docPr x) (inlineR_frame x) (inlineR_graphic x) (inlineR_file x).
Definition set_inlineR_distL {G : Type} (v : i64) (x : inlineR G) : inlineR G :=
  mk_inlineR (inlineR_distT x) (inlineR_distB x) v (inlineR_distR x) (inlineR_extent x) (inlineR_effect x) (inlineR_docPr x) (inlineR_frame x) (inlineR_graphic x) (inlineR_file x).
Definition set_inlineR_distR {G : Type} (v : i64) (x : inlineR G) : inlineR G :=
  mk_inlineR (inlineR_distT x) (inlineR_distB x) (inlineR_distL x) v (inlineR_extent x) (inlineR_effect x) (inlineR_docPr x) (inlineR_frame x) (inlineR_graphic x) (inlineR_file x).
Definition set_inlineR_extent {G : Type} (v : option xy) (x : inlineR G) : inlineR G :=
  mk_inlineR (inlineR_distT x) (inlineR_distB x) (inlineR_distL x) (inlineR_distR x) v (inlineR_effect x) (inlineR_docPr x) (inlineR_frame x) (inlineR_graphic x) (inlineR_file x).
Definition set_inlineR_effect {G : Type} (v : option eff) (x : inlineR G) : inlineR G :=
  mk_inlineR (inlineR_distT x) (inlineR_distB x) (inlineR_distL x) (inlineR_distR x) (inlineR_extent x) v (inlineR_docPr x) (inlineR_frame x) (inlineR_graphic x) (inlineR_file x).
Definition set_inlineR_docPr {G : Type} (v : option nonvis) (x : inlineR G) : inlineR G :=
  mk_inlineR (inlineR_distT x) (inlineR_distB x) (inlineR_distL x) (inlineR_distR x) (inlineR_extent x) (inlineR_effect x) v (inlineR_frame x) (inlineR_graphic x) (inlineR_file x).
Definition set_inlineR_frame {G : Type} (v : option glocks) (x : inlineR G) : inlineR G :=
  mk_inlineR (inlineR_distT x) (inlineR_distB x) (inlineR_distL x) (inlineR_distR x) (inlineR_extent x) (inlineR_effect x) (inlineR_docPr x) v (inlineR_graphic x) (inlineR_file x).
Definition set_inlineR_graphic {G : Type} (v : option G) (x : inlineR G) : inlineR G :=
  mk_inlineR (inlineR_distT x) (inlineR_distB x) (inlineR_distL x) (inlineR_distR x) (inlineR_extent x) (inlineR_effect x) (inlineR_docPr x) (inlineR_frame x) v (inlineR_file x).
Definition set_inlineR_file {G : Type} (v : option nat) (x : inlineR G) : inlineR G :=
  mk_inlineR (inlineR_distT x) (inlineR_distB x) (inlineR_distL x) (inlineR_distR x) (inlineR_extent x) (inlineR_effect x) (inlineR_docPr x) (inlineR_frame x) (inlineR_graphic x) v.
Definition inlineR0 {G : Type} : inlineR G := mk_inlineR i0 i0 i0 i0 None None None None None None.

(** structdrawing.go:1442-1446 WPPositionH, 1485-1489 WPPositionV *)
Record wpos := mk_wpos {
  wpos_rel : string;
  wpos_off : i64
}.
Definition set_wpos_rel  (v : string) (x : wpos) : wpos :=
  mk_wpos v (wpos_off x).
Definition set_wpos_off  (v : i64) (x : wpos) : wpos :=
  mk_wpos (wpos_rel x) v.
Definition wpos0  : wpos := mk_wpos "" i0.

(** structdrawing.go:1174-1199 WPAnchor *)
Record anchorR (G : Type) := mk_anchorR {
  anchorR_distT : i64;
  anchorR_distB : i64;
  anchorR_distL : i64;
  anchorR_distR : i64;
  anchorR_simplePos : i64;
  anchorR_relHeight : i64;
  anchorR_behindDoc : i64;
  anchorR_locked : i64;
  anchorR_layoutInCell : i64;
  anchorR_allowOverlap : i64;
  anchorR_simpleXY : option xy;
  anchorR_posH : option wpos;
  anchorR_posV : option wpos;
  anchorR_extent : option xy;
  anchorR_effect : option eff;
  anchorR_wrapNone : bool;
  anchorR_wrapSquare : option string;
  anchorR_docPr : option nonvis;
  anchorR_frame : option glocks;
  anchorR_graphic : option G;
  anchorR_file : option nat
}.
Arguments mk_anchorR {G}.
Arguments anchorR_distT {G}.
Arguments anchorR_distB {G}.
Arguments anchorR_distL {G}.
Arguments anchorR_distR {G}.
Arguments anchorR_simplePos {G}.
Arguments anchorR_relHeight {G}.
Arguments anchorR_behindDoc {G}.
Arguments anchorR_locked {G}.
Arguments anchorR_layoutInCell {G}.
Arguments anchorR_allowOverlap {G}.
Arguments anchorR_simpleXY {G}.
Arguments anchorR_posH {G}.
Arguments anchorR_posV {G}.
Arguments anchorR_extent {G}.
Arguments anchorR_effect {G}.
Arguments anchorR_wrapNone {G}.
Arguments anchorR_wrapSquare {G}.
Arguments anchorR_docPr {G}.
Arguments anchorR_frame {G}.
Arguments anchorR_graphic {G}.
Arguments anchorR_file {G}.
Definition set_anchorR_distT {G : Type} (v : i64) (x : anchorR G) : anchorR G :=
  mk_anchorR v (anchorR_distB x) (anchorR_distL x) (anchorR_distR x) (anchorR_simplePos x) (anchorR_relHeight x) (anchorR_behindDoc x) (anchorR_locked x) (anchorR_layoutInCell x) (anchorR_allowOverlap x) (anchorR_simpleXY x) (anchorR_posH x) (anchorR_posV x) (anchorR_extent x) (anchorR_effect x) (anchorR_wrapNone x) (anchorR_wrapSquare x) (anchorR_docPr x) (anchorR_frame x) (anchorR_graphic x) (anchorR_file x).
Definition set_anchorR_distB {G : Type} (v : i64) (x : anchorR G) : anchorR G :=
  mk_anchorR (anchorR_distT x) v (anchorR_distL x) (anchorR_distR x) (anchorR_simplePos x) (anchorR_relHeight x) (anchorR_behindDoc x) (anchorR_locked x) (anchorR_layoutInCell x) (anchorR_allowOverlap x) (anchorR_simpleXY x) (anchorR_posH x) (anchorR_posV x) (anchorR_extent x) (anchorR_effect x) (anchorR_wrapNone x) (anchorR_wrapSquare x) (anchorR_docPr x) (anchorR_frame x) (anchorR_graphic x) (anchorR_file x).
Definition set_anchorR_distL {G : Type} (v : i64) (x : anchorR G) : anchorR G :=
  mk_anchorR (anchorR_distT x) (anchorR_distB x) v (anchorR_distR x) (anchorR_simplePos x) (anchorR_relHeight x) (anchorR_behindDoc x) (anchorR_locked x) (anchorR_layoutInCell x) (anchorR_allowOverlap x) (anchorR_simpleXY x) (anchorR_posH x) (anchorR_posV x) (anchorR_extent x) (anchorR_effect x) (anchorR_wrapNone x) (anchorR_wrapSquare x) (anchorR_docPr x) (anchorR_frame x) (anchorR_graphic x) (anchorR_file x).
Definition set_anchorR_distR {G : Type} (v : i64) (x : anchorR G) : anchorR G :=
  mk_anchorR (anchorR_distT x) (anchorR_distB x) (anchorR_distL x) v (anchorR_simplePos x) (anchorR_relHeight x) (anchorR_behindDoc x) (anchorR_locked x) (anchorR_layoutInCell x) (anchorR_allowOverlap x) (anchorR_simpleXY x) (anchorR_posH x) (anchorR_posV x) (anchorR_extent x) (anchorR_effect x) (anchorR_wrapNone x) (anchorR_wrapSquare x) (anchorR_docPr x) (anchorR_frame x) (anchorR_graphic x) (anchorR_file x).
Definition set_anchorR_simplePos {G : Type} (v : i64) (x : anchorR G) : anchorR G :=
  mk_anchorR (anchorR_distT x) (anchorR_distB x) (anchorR_distL x) (anchorR_distR x) v (anchorR_relHeight x) (anchorR_behindDoc x) (anchorR_locked x) (anchorR_layoutInCell x) (anchorR_allowOverlap x) (anchorR_simpleXY x) (anchorR_posH x) (anchorR_posV x) (anchorR_extent x) (anchorR_effect x) (anchorR_wrapNone x) (anchorR_wrapSquare x) (anchorR_docPr x) (anchorR_frame x) (anchorR_graphic x) (anchorR_file x).
Definition set_anchorR_relHeight {G : Type} (v : i64) (x : anchorR G) : anchorR G :=
  mk_anchorR (anchorR_distT x) (anchorR_distB x) (anchorR_distL x) (anchorR_distR x) (anchorR_simplePos x) v (anchorR_behindDoc x) (anchorR_locked x) (anchorR_layoutInCell x) (anchorR_allowOverlap x) (anchorR_simpleXY x) (anchorR_posH x) (anchorR_posV x) (anchorR_extent x) (anchorR_effect x) (anchorR_wrapNone x) (anchorR_wrapSquare x) (anchorR_docPr x) (anchorR_frame x) (anchorR_graphic x) (anchorR_file x).
Definition set_anchorR_behindDoc {G : Type} (v : i64) (x : anchorR G) : anchorR G :=
  mk_anchorR (anchorR_distT x) (anchorR_distB x) (anchorR_distL x) (anchorR_distR x) (anchorR_simplePos x) (anchorR_relHeight x) v (anchorR_locked x) (anchorR_layoutInCell x) (anchorR_allowOverlap x) (anchorR_simpleXY x) (anchorR_posH x) (anchorR_posV x) (anchorR_extent x) (anchorR_effect x) (anchorR_wrapNone x) (anchorR_wrapSquare x) (anchorR_docPr x) (anchorR_frame x) (anchorR_graphic x) (anchorR_file x).
Definition set_anchorR_locked {G : Type} (v : i64) (x : anchorR G) : anchorR G :=
  mk_anchorR (anchorR_distT x) (anchorR_distB x) (anchorR_distL x) (anchorR_distR x) (anchorR_simplePos x) (anchorR_relHeight x) (anchorR_behindDoc x) v (anchorR_layoutInCell x) (anchorR_allowOverlap x) (anchorR_simpleXY x) (anchorR_posH x) (anchorR_posV x) (anchorR_extent x) (anchorR_effect x) (anchorR_wrapNone x) (anchorR_wrapSquare x) (anchorR_docPr x) (anchorR_frame x) (anchorR_graphic x) (anchorR_file x).
Definition set_anchorR_layoutInCell {G : Type} (v : i64) (x : anchorR G) : anchorR G :=
  mk_anchorR (anchorR_distT x) (anchorR_distB x) (anchorR_distL x) (anchorR_distR x) (anchorR_simplePos x) (anchorR_relHeight x) (anchorR_behindDoc x) (anchorR_locked x) v (anchorR_allowOverlap x) (anchorR_simpleXY x) (anchorR_posH x) (anchorR_posV x) (anchorR_extent x) (anchorR_effect x) (anchorR_wrapNone x) (anchorR_wrapSquare x) (anchorR_docPr x) (anchorR_frame x) (anchorR_graphic x) (anchorR_file x).
Definition set_anchorR_allowOverlap {G : Type} (v : i64) (x : anchorR G) : anchorR G :=
  mk_anchorR (anchorR_distT x) (anchorR_distB x) (anchorR_distL x) (anchorR_distR x) (anchorR_simplePos x) (anchorR_relHeight x) (anchorR_behindDoc x) (anchorR_locked x) (anchorR_layoutInCell x) v (anchorR_simpleXY x) (anchorR_posH x) (anchorR_posV x) (anchorR_extent x) (anchorR_effect x) (anchorR_wrapNone x) (anchorR_wrapSquare x) (anchorR_docPr x) (anchorR_frame x) (anchorR_graphic x) (anchorR_file x).
Definition set_anchorR_simpleXY {G : Type} (v : option xy) (x : anchorR G) : anchorR G :=
  mk_anchorR (anchorR_distT x) (anchorR_distB x) (anchorR_distL x) (anchorR_distR x) (anchorR_simplePos x) (anchorR_relHeight x) (anchorR_behindDoc x) (anchorR_locked x) (anchorR_layoutInCell x) (anchorR_allowOverlap x) v (anchorR_posH x) (anchorR_posV x) (anchorR_extent x) (anchorR_effect x) (anchorR_wrapNone x) (anchorR_wrapSquare x) (anchorR_docPr x) (anchorR_frame x) (anchorR_graphic x) (anchorR_file x).
Definition set_anchorR_posH {G : Type} (v : option wpos) (x : anchorR G) : anchorR G :=
  mk_anchorR (anchorR_distT x) (anchorR_distB x) (anchorR_distL x) (anchorR_distR x) (anchorR_simplePos x) (anchorR_relHeight x) (anchorR_behindDoc x) (anchorR_locked x) (anchorR_layoutInCell x) (anchorR_allowOverlap x) (anchorR_simpleXY x) v (anchorR_posV x) (anchorR_extent x) (anchorR_effect x) (anchorR_wrapNone x) (anchorR_wrapSquare x) (anchorR_docPr x) (anchorR_frame x) (anchorR_graphic x) (anchorR_file x).
Definition set_anchorR_posV {G : Type} (v : option wpos) (x : anchorR G) : anchorR G :=
  mk_anchorR (anchorR_distT x) (anchorR_distB x) (anchorR_distL x) (anchorR_distR x) (anchorR_simplePos x) (anchorR_relHeight x) (anchorR_behindDoc x) (anchorR_locked x) (anchorR_layoutInCell x) (anchorR_allowOverlap x) (anchorR_simpleXY x) (anchorR_posH x) v (anchorR_extent x) (anchorR_effect x) (anchorR_wrapNone x) (anchorR_wrapSquare x) (anchorR_docPr x) (anchorR_frame x) (anchorR_graphic x) (anchorR_file x).
Definition set_anchorR_extent {G : Type} (v : option xy) (x : anchorR G) : anchorR G :=
  mk_anchorR (anchorR_distT x) (anchorR_distB x) (anchorR_distL x) (anchorR_distR x) (anchorR_simplePos x) (anchorR_relHeight x) (anchorR_behindDoc x) (anchorR_locked x) (anchorR_layoutInCell x) (anchorR_allowOverlap x) (anchorR_simpleXY x) (anchorR_posH x) (anchorR_posV x) v (anchorR_effect x) (anchorR_wrapNone x) (anchorR_wrapSquare x) (anchorR_docPr x) (anchorR_frame x) (anchorR_graphic x) (anchorR_file x).
Definition set_anchorR_effect {G : Type} (v : option eff) (x : anchorR G) : anchorR G :=
  mk_anchorR (anchorR_distT x) (anchorR_distB x) (anchorR_distL x) (anchorR_distR x) (anchorR_simplePos x) (anchorR_relHeight x) (anchorR_behindDoc x) (anchorR_locked x) (anchorR_layoutInCell x) (anchorR_allowOverlap x) (anchorR_simpleXY x) (anchorR_posH x) (anchorR_posV x) (anchorR_extent x) v (anchorR_wrapNone x) (anchorR_wrapSquare x) (anchorR_docPr x) (anchorR_frame x) (anchorR_graphic x) (anchorR_file x).
Definition set_anchorR_wrapNone {G : Type} (v : bool) (x : anchorR G) : anchorR G :=
  mk_anchorR (anchorR_distT x) (anchorR_distB x) (anchorR_distL x) (anchorR_distR x) (anchorR_simplePos x) (anchorR_relHeight x) (anchorR_behindDoc x) (anchorR_locked x) (anchorR_layoutInCell x) (anchorR_allowOverlap x) (anchorR_simpleXY x) (anchorR_posH x) (anchorR_posV x) (anchorR_extent x) (anchorR_effect x) v (anchorR_wrapSquare x) (anchorR_docPr x) (anchorR_frame x) (anchorR_graphic x) (anchorR_file x).
Definition set_anchorR_wrapSquare {G : Type} (v : option string) (x : anchorR G) : anchorR G :=
  mk_anchorR (anchorR_distT x) (anchorR_distB x) (anchorR_distL x) (anchorR_distR x) (anchorR_simplePos x) (anchorR_relHeight x) (anchorR_behindDoc x) (anchorR_locked x) (anchorR_layoutInCell x) (anchorR_allowOverlap x) (anchorR_simpleXY x) (anchorR_posH x) (anchorR_posV x) (anchorR_extent x) (anchorR_effect x) (anchorR_wrapNone x) v (anchorR_docPr x) (anchorR_frame x) (anchorR_graphic x) (anchorR_file x).
Definition set_anchorR_docPr {G : Type} (v : option nonvis) (x : anchorR G) : anchorR G :=
  mk_anchorR (anchorR_distT x) (anchorR_distB x) (anchorR_distL x) (anchorR_distR x) (anchorR_simplePos x) (anchorR_relHeight x) (anchorR_behindDoc x) (anchorR_locked x) (anchorR_layoutInCell x) (anchorR_allowOverlap x) (anchorR_simpleXY x) (anchorR_posH x) (anchorR_posV x) (anchorR_extent x) (anchorR_effect x) (anchorR_wrapNone x) (anchorR_wrapSquare x) v (anchorR_frame x) (anchorR_graphic x) (anchorR_file x).
Definition set_anchorR_frame {G : Type} (v : option glocks) (x : anchorR G) : anchorR G :=
  mk_anchorR (anchorR_distT x) (anchorR_distB x) (anchorR_distL x) (anchorR_distR x) (anchorR_simplePos x) (anchorR_relHeight x) (anchorR_behindDoc x) (anchorR_locked x) (anchorR_layoutInCell x) (anchorR_allowOverlap x) (anchorR_simpleXY x) (anchorR_posH x) (anchorR_posV x) (anchorR_extent x) (anchorR_effect x) (anchorR_wrapNone x) (anchorR_wrapSquare x) (anchorR_docPr x) v (anchorR_graphic x) (anchorR_file x).
Definition set_anchorR_graphic {G : Type} (v : option G) (x : anchorR G) : anchorR G :=
  mk_anchorR (anchorR_distT x) (anchorR_distB x) (anchorR_distL x) (anchorR_distR x) (anchorR_simplePos x) (anchorR_relHeight x) (anchorR_behindDoc x) (anchorR_locked x) (anchorR_layoutInCell x) (anchorR_allowOverlap x) (anchorR_simpleXY x) (anchorR_posH x) (anchorR_posV x) (anchorR_extent x) (anchorR_effect x) (anchorR_wrapNone x) (anchorR_wrapSquare x) (anchorR_docPr x) (anchorR_frame x) v (anchorR_file x).
Definition set_anchorR_file {G : Type} (v : option nat) (x : anchorR G) : anchorR G :=
  mk_anchorR (anchorR_distT x) (anchorR_distB x) (anchorR_distL x) (anchorR_distR x) (anchorR_simplePos x) (anchorR_relHeight x) (anchorR_behindDoc x) (anchorR_locked x) (anchorR_layoutInCell x) (anchorR_allowOverlap x) (anchorR_simpleXY x) (anchorR_posH x) (anchorR_posV x) (anchorR_extent x) (anchorR_effect x) (anchorR_wrapNone x) (anchorR_wrapSquare x) (anchorR_docPr x) (anchorR_frame x) (anchorR_graphic x) v.
Definition anchorR0 {G : Type} : anchorR G := mk_anchorR i0 i0 i0 i0 i0 i0 i0 i0 i0 i0 None None None None None false None None None None None.

(** structtable.go:774-779 WTableBorder *)
Record border := mk_border {
  border_val : string;
  border_size : i64;
  border_space : i64;
  border_color : string
}.
Definition set_border_val  (v : string) (x : border) : border :=
  mk_border v (border_size x) (border_space x) (border_color x).
Definition set_border_size  (v : i64) (x : border) : border :=
  mk_border (border_val x) v (border_space x) (border_color x).
Definition set_border_space  (v : i64) (x : border) : border :=
  mk_border (border_val x) (border_size x) v (border_color x).
Definition set_border_color  (v : string) (x : border) : border :=
  mk_border (border_val x) (border_size x) (border_space x) v.
Definition border0  : border := mk_border "" i0 i0 "".

(** structtable.go:697-704 WTableBorders *)
Record borders := mk_borders {
  borders_top : option border;
  borders_left : option border;
  borders_bottom : option border;
  borders_right : option border;
  borders_insideH : option border;
  borders_insideV : option border
}.
Definition set_borders_top  (v : option border) (x : borders) : borders :=
  mk_borders v (borders_left x) (borders_bottom x) (borders_right x) (borders_insideH x) (borders_insideV x).
Definition set_borders_left  (v : option border) (x : borders) : borders :=
  mk_borders (borders_top x) v (borders_bottom x) (borders_right x) (borders_insideH x) (borders_insideV x).
Definition set_borders_bottom  (v : option border) (x : borders) : borders :=
  mk_borders (borders_top x) (borders_left x) v (borders_right x) (borders_insideH x) (borders_insideV x).
Definition set_borders_right  (v : option border) (x : borders) : borders :=
  mk_borders (borders_top x) (borders_left x) (borders_bottom x) v (borders_insideH x) (borders_insideV x).
Definition set_borders_insideH  (v : option border) (x : borders) : borders :=
  mk_borders (borders_top x) (borders_left x) (borders_bottom x) (borders_right x) v (borders_insideV x).
Definition set_borders_insideV  (v : option border) (x : borders) : borders :=
  mk_borders (borders_top x) (borders_left x) (borders_bottom x) (borders_right x) (borders_insideH x) v.
Definition borders0  : borders := mk_borders None None None None None None.

(** structtable.go:265-269 WTableWidth, 666-670 WTableCellWidth *)
Record wtype := mk_wtype {
  wtype_w : i64;
  wtype_type : string
}.
Definition set_wtype_w  (v : i64) (x : wtype) : wtype :=
  mk_wtype v (wtype_type x).
Definition set_wtype_type  (v : string) (x : wtype) : wtype :=
  mk_wtype (wtype_w x) v.
Definition wtype0  : wtype := mk_wtype i0 "".

(** structtable.go:188-198 WTablePositioningProperties *)
Record tblpos := mk_tblpos {
  tblpos_leftFT : i64;
  tblpos_rightFT : i64;
  tblpos_vertAnchor : string;
  tblpos_horzAnchor : string;
  tblpos_xspec : string;
  tblpos_yspec : string;
  tblpos_x : i64;
  tblpos_y : i64
}.
Definition set_tblpos_leftFT  (v : i64) (x : tblpos) : tblpos :=
  mk_tblpos v (tblpos_rightFT x) (tblpos_vertAnchor x) (tblpos_horzAnchor x) (tblpos_xspec x) (tblpos_yspec x) (tblpos_x x) (tblpos_y x).
Definition set_tblpos_rightFT  (v : i64) (x : tblpos) : tblpos :=
  mk_tblpos (tblpos_leftFT x) v (tblpos_vertAnchor x) (tblpos_horzAnchor x) (tblpos_xspec x) (tblpos_yspec x) (tblpos_x x) (tblpos_y x).
Definition set_tblpos_vertAnchor  (v : string) (x : tblpos) : tblpos :=
  mk_tblpos (tblpos_leftFT x) (tblpos_rightFT x) v (tblpos_horzAnchor x) (tblpos_xspec x) (tblpos_yspec x) (tblpos_x x) (tblpos_y x).
Definition set_tblpos_horzAnchor  (v : string) (x : tblpos) : tblpos :=
  mk_tblpos (tblpos_leftFT x) (tblpos_rightFT x) (tblpos_vertAnchor x) v (tblpos_xspec x) (tblpos_yspec x) (tblpos_x x) (tblpos_y x).
Definition set_tblpos_xspec  (v : string) (x : tblpos) : tblpos :=
  mk_tblpos (tblpos_leftFT x) (tblpos_rightFT x) (tblpos_vertAnchor x) (tblpos_horzAnchor x) v (tblpos_yspec x) (tblpos_x x) (tblpos_y x).
Definition set_tblpos_yspec  (v : string) (x : tblpos) : tblpos :=
  mk_tblpos (tblpos_leftFT x) (tblpos_rightFT x) (tblpos_vertAnchor x) (tblpos_horzAnchor x) (tblpos_xspec x) v (tblpos_x x) (tblpos_y x).
Definition set_tblpos_x  (v : i64) (x : tblpos) : tblpos :=
  mk_tblpos (tblpos_leftFT x) (tblpos_rightFT x) (tblpos_vertAnchor x) (tblpos_horzAnchor x) (tblpos_xspec x) (tblpos_yspec x) v (tblpos_y x).
Definition set_tblpos_y  (v : i64) (x : tblpos) : tblpos :=
  mk_tblpos (tblpos_leftFT x) (tblpos_rightFT x) (tblpos_vertAnchor x) (tblpos_horzAnchor x) (tblpos_xspec x) (tblpos_yspec x) (tblpos_x x) v.
Definition tblpos0  : tblpos := mk_tblpos i0 i0 "" "" "" "" i0 i0.

(** structtable.go:295-304 WTableLook *)
Record look := mk_look {
  look_val : string;
  look_firstRow : i64;
  look_lastRow : i64;
  look_firstCol : i64;
  look_lastCol : i64;
  look_noHBand : i64;
  look_noVBand : i64
}.
Definition set_look_val  (v : string) (x : look) : look :=
  mk_look v (look_firstRow x) (look_lastRow x) (look_firstCol x) (look_lastCol x) (look_noHBand x) (look_noVBand x).
Definition set_look_firstRow  (v : i64) (x : look) : look :=
  mk_look (look_val x) v (look_lastRow x) (look_firstCol x) (look_lastCol x) (look_noHBand x) (look_noVBand x).
Definition set_look_lastRow  (v : i64) (x : look) : look :=
  mk_look (look_val x) (look_firstRow x) v (look_firstCol x) (look_lastCol x) (look_noHBand x) (look_noVBand x).
Definition set_look_firstCol  (v : i64) (x : look) : look :=
  mk_look (look_val x) (look_firstRow x) (look_lastRow x) v (look_lastCol x) (look_noHBand x) (look_noVBand x).
Definition set_look_lastCol  (v : i64) (x : look) : look :=
  mk_look (look_val x) (look_firstRow x) (look_lastRow x) (look_firstCol x) v (look_noHBand x) (look_noVBand x).
Definition set_look_noHBand  (v : i64) (x : look) : look :=
  mk_look (look_val x) (look_firstRow x) (look_lastRow x) (look_firstCol x) (look_lastCol x) v (look_noVBand x).
Definition set_look_noVBand  (v : i64) (x : look) : look :=
  mk_look (look_val x) (look_firstRow x) (look_lastRow x) (look_firstCol x) (look_lastCol x) (look_noHBand x) v.
Definition look0  : look := mk_look "" i0 i0 i0 i0 i0 i0.

(** structtable.go:108-116 WTableProperties *)
Record tblpr := mk_tblpr {
  tblpr_pos : option tblpos;
  tblpr_style : option string;
  tblpr_width : option wtype;
  tblpr_jc : option string;
  tblpr_borders : option borders;
  tblpr_look : option look
}.
Definition set_tblpr_pos  (v : option tblpos) (x : tblpr) : tblpr :=
  mk_tblpr v (tblpr_style x) (tblpr_width x) (tblpr_jc x) (tblpr_borders x) (tblpr_look x).
Definition set_tblpr_style  (v : option string) (x : tblpr) : tblpr :=
  mk_tblpr (tblpr_pos x) v (tblpr_width x) (tblpr_jc x) (tblpr_borders x) (tblpr_look x).
Definition set_tblpr_width  (v : option wtype) (x : tblpr) : tblpr :=
  mk_tblpr (tblpr_pos x) (tblpr_style x) v (tblpr_jc x) (tblpr_borders x) (tblpr_look x).
Definition set_tblpr_jc  (v : option string) (x : tblpr) : tblpr :=
  mk_tblpr (tblpr_pos x) (tblpr_style x) (tblpr_width x) v (tblpr_borders x) (tblpr_look x).
Definition set_tblpr_borders  (v : option borders) (x : tblpr) : tblpr :=
  mk_tblpr (tblpr_pos x) (tblpr_style x) (tblpr_width x) (tblpr_jc x) v (tblpr_look x).
Definition set_tblpr_look  (v : option look) (x : tblpr) : tblpr :=
  mk_tblpr (tblpr_pos x) (tblpr_style x) (tblpr_width x) (tblpr_jc x) (tblpr_borders x) v.
Definition tblpr0  : tblpr := mk_tblpr None None None None None None.

(** structtable.go:528-532 WTableRowHeight *)
Record trheight := mk_trheight {
  trheight_rule : string;
  trheight_val : i64
}.
Definition set_trheight_rule  (v : string) (x : trheight) : trheight :=
  mk_trheight v (trheight_val x).
Definition set_trheight_val  (v : i64) (x : trheight) : trheight :=
  mk_trheight (trheight_rule x) v.
Definition trheight0  : trheight := mk_trheight "" i0.

(** structtable.go:466-470 WTableRowProperties *)
Record trpr := mk_trpr {
  trpr_height : option trheight;
  trpr_jc : option string
}.
Definition set_trpr_height  (v : option trheight) (x : trpr) : trpr :=
  mk_trpr v (trpr_jc x).
Definition set_trpr_jc  (v : option string) (x : trpr) : trpr :=
  mk_trpr (trpr_height x) v.
Definition trpr0  : trpr := mk_trpr None None.

(** structtable.go:584-592 WTableCellProperties *)
Record tcpr := mk_tcpr {
  tcpr_width : option wtype;
  tcpr_vMerge : option string;
  tcpr_span : option i64;
  tcpr_borders : option borders;
  tcpr_shade : option shade;
  tcpr_vAlign : option string
}.
Definition set_tcpr_width  (v : option wtype) (x : tcpr) : tcpr :=
  mk_tcpr v (tcpr_vMerge x) (tcpr_span x) (tcpr_borders x) (tcpr_shade x) (tcpr_vAlign x).
Definition set_tcpr_vMerge  (v : option string) (x : tcpr) : tcpr :=
  mk_tcpr (tcpr_width x) v (tcpr_span x) (tcpr_borders x) (tcpr_shade x) (tcpr_vAlign x).
Definition set_tcpr_span  (v : option i64) (x : tcpr) : tcpr :=
  mk_tcpr (tcpr_width x) (tcpr_vMerge x) v (tcpr_borders x) (tcpr_shade x) (tcpr_vAlign x).
Definition set_tcpr_borders  (v : option borders) (x : tcpr) : tcpr :=
  mk_tcpr (tcpr_width x) (tcpr_vMerge x) (tcpr_span x) v (tcpr_shade x) (tcpr_vAlign x).
Definition set_tcpr_shade  (v : option shade) (x : tcpr) : tcpr :=
  mk_tcpr (tcpr_width x) (tcpr_vMerge x) (tcpr_span x) (tcpr_borders x) v (tcpr_vAlign x).
Definition set_tcpr_vAlign  (v : option string) (x : tcpr) : tcpr :=
  mk_tcpr (tcpr_width x) (tcpr_vMerge x) (tcpr_span x) (tcpr_borders x) (tcpr_shade x) v.
Definition tcpr0  : tcpr := mk_tcpr None None None None None None.

(** structsect.go:37-40 PgSz *)
Record pgsz := mk_pgsz {
  pgsz_w : i64;
  pgsz_h : i64
}.
Definition set_pgsz_w  (v : i64) (x : pgsz) : pgsz :=
  mk_pgsz v (pgsz_h x).
Definition set_pgsz_h  (v : i64) (x : pgsz) : pgsz :=
  mk_pgsz (pgsz_w x) v.
Definition pgsz0  : pgsz := mk_pgsz i0 i0.

(** structsect.go:43-51 PgMar *)
Record pgmar := mk_pgmar {
  pgmar_top : i64;
  pgmar_left : i64;
  pgmar_bottom : i64;
  pgmar_right : i64;
  pgmar_header : i64;
  pgmar_footer : i64;
  pgmar_gutter : i64
}.
Definition set_pgmar_top  (v : i64) (x : pgmar) : pgmar :=
  mk_pgmar v (pgmar_left x) (pgmar_bottom x) (pgmar_right x) (pgmar_header x) (pgmar_footer x) (pgmar_gutter x).
Definition set_pgmar_left  (v : i64) (x : pgmar) : pgmar :=
  mk_pgmar (pgmar_top x) v (pgmar_bottom x) (pgmar_right x) (pgmar_header x) (pgmar_footer x) (pgmar_gutter x).
Definition set_pgmar_bottom  (v : i64) (x : pgmar) : pgmar :=
  mk_pgmar (pgmar_top x) (pgmar_left x) v (pgmar_right x) (pgmar_header x) (pgmar_footer x) (pgmar_gutter x).
Definition set_pgmar_right  (v : i64) (x : pgmar) : pgmar :=
  mk_pgmar (pgmar_top x) (pgmar_left x) (pgmar_bottom x) v (pgmar_header x) (pgmar_footer x) (pgmar_gutter x).
Definition set_pgmar_header  (v : i64) (x : pgmar) : pgmar :=
  mk_pgmar (pgmar_top x) (pgmar_left x) (pgmar_bottom x) (pgmar_right x) v (pgmar_footer x) (pgmar_gutter x).
Definition set_pgmar_footer  (v : i64) (x : pgmar) : pgmar :=
  mk_pgmar (pgmar_top x) (pgmar_left x) (pgmar_bottom x) (pgmar_right x) (pgmar_header x) v (pgmar_gutter x).
Definition set_pgmar_gutter  (v : i64) (x : pgmar) : pgmar :=
  mk_pgmar (pgmar_top x) (pgmar_left x) (pgmar_bottom x) (pgmar_right x) (pgmar_header x) (pgmar_footer x) v.
Definition pgmar0  : pgmar := mk_pgmar i0 i0 i0 i0 i0 i0 i0.

(** structsect.go:59-62 DocGrid *)
Record docgrid := mk_docgrid {
  docgrid_type : string;
  docgrid_pitch : i64
}.
Definition set_docgrid_type  (v : string) (x : docgrid) : docgrid :=
  mk_docgrid v (docgrid_pitch x).
Definition set_docgrid_pitch  (v : i64) (x : docgrid) : docgrid :=
  mk_docgrid (docgrid_type x) v.
Definition docgrid0  : docgrid := mk_docgrid "" i0.

(** structsect.go:28-34 SectPr; cols = Cols.Space (54-56) *)
Record sect := mk_sect {
  sect_pgSz : option pgsz;
  sect_pgMar : option pgmar;
  sect_cols : option i64;
  sect_grid : option docgrid
}.
Definition set_sect_pgSz  (v : option pgsz) (x : sect) : sect :=
  mk_sect v (sect_pgMar x) (sect_cols x) (sect_grid x).
Definition set_sect_pgMar  (v : option pgmar) (x : sect) : sect :=
  mk_sect (sect_pgSz x) v (sect_cols x) (sect_grid x).
Definition set_sect_cols  (v : option i64) (x : sect) : sect :=
  mk_sect (sect_pgSz x) (sect_pgMar x) v (sect_grid x).
Definition set_sect_grid  (v : option docgrid) (x : sect) : sect :=
  mk_sect (sect_pgSz x) (sect_pgMar x) (sect_cols x) v.
Definition sect0  : sect := mk_sect None None None None.


(** The recursive element types. The interface{} slices of the Go structs are
    restricted to the element kinds the package itself puts into them. *)
Inductive para :=
| Para (r : paraR pchild)
(** Paragraph.Children: Run, Hyperlink (structlink.go:30-34), RunProperties *)
with pchild :=
| PRun (r : runR rchild)
| PLink (id : string) (r : runR rchild)
| PRPr (r : rpr)
(** Run.Children: Text, Tab, BarterRabbet (structtext.go:92-95), Drawing
    (structdrawing.go:46-52; its file field is only read while decoding) *)
with rchild :=
| RText (t : text)
| RTab (t : tab)
| RBr (type : string)
| RDraw (i : option (inlineR (graphicR (gdataR shape canvas group))))
        (a : option (anchorR (graphicR (gdataR shape canvas group))))
with shape := Shape (s : shapeR para)
with canvas := Canvas (c : canvasR citem)
(** WordprocessingCanvas.Items *)
with citem := CShape (s : shape) | CPic (p : pic) | CGroup (g : group)
with group := Group (g : groupR gelem)
(** Elems of WordprocessingGroup and WPGGroupShape *)
with gelem := GPic (p : pic) | GShape (s : shape) | GCanvas (c : canvas) | GGrp (g : gshapeR gelem).

Definition run := runR rchild.
Definition gdata := gdataR shape canvas group.
Definition graphic := graphicR gdata.
Definition inline := inlineR graphic.
Definition anchor := anchorR graphic.
Definition gshape := gshapeR gelem.

Definition para_r (p : para) : paraR pchild := match p with Para r => r end.
Definition para_ppr (p : para) := paraR_ppr (para_r p).
Definition para_children (p : para) := paraR_children (para_r p).
Definition para_file (p : para) := paraR_file (para_r p).
Definition mk_para (pp : option ppr) (c : list pchild) (f : option nat) : para := Para (mk_paraR pp c f).
Definition set_para_children (c : list pchild) (p : para) : para := mk_para (para_ppr p) c (para_file p).
Definition set_para_ppr (q : option ppr) (p : para) : para := mk_para q (para_children p) (para_file p).

(** structtable.go:535-541 WTableCell *)
Record cell := mk_cell {
  cell_props : option tcpr;
  cell_paras : list para;
  cell_file : option nat
}.
Definition set_cell_props  (v : option tcpr) (x : cell) : cell :=
  mk_cell v (cell_paras x) (cell_file x).
Definition set_cell_paras  (v : list para) (x : cell) : cell :=
  mk_cell (cell_props x) v (cell_file x).
Definition set_cell_file  (v : option nat) (x : cell) : cell :=
  mk_cell (cell_props x) (cell_paras x) v.
Definition cell0  : cell := mk_cell None [] None.

(** structtable.go:402-411 WTableRow; file is only read while decoding *)
Record row := mk_row {
  row_props : option trpr;
  row_cells : list cell
}.
Definition set_row_props  (v : option trpr) (x : row) : row :=
  mk_row v (row_cells x).
Definition set_row_cells  (v : list cell) (x : row) : row :=
  mk_row (row_props x) v.
Definition row0  : row := mk_row None [].

(** structtable.go:30-37 Table; grid columns may be nil pointers (337-340, 375-378); file is only read while decoding *)
Record table := mk_table {
  table_props : option tblpr;
  table_grid : option (list (option i64));
  table_rows : list row
}.
Definition set_table_props  (v : option tblpr) (x : table) : table :=
  mk_table v (table_grid x) (table_rows x).
Definition set_table_grid  (v : option (list (option i64))) (x : table) : table :=
  mk_table (table_props x) v (table_rows x).
Definition set_table_rows  (v : list row) (x : table) : table :=
  mk_table (table_props x) (table_grid x) v.
Definition table0  : table := mk_table None None [].


(** Body.Items (structdoc.go:58-62): paragraphs, tables, section properties. *)
Inductive item :=
| IPara (p : para)
| ITable (t : table)
| ISect (s : sect).
