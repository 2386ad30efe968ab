(** The UnmarshalXML methods of the package. *)
From Coq Require Import String Ascii List Bool Arith NArith ZArith.
From Verif Require Import GoStr Num Lib Types XmlTok.
Import ListNotations.
Local Open Scope string_scope.
Local Open Scope list_scope.

(** ** building blocks *)

(** switch on a name *)
Fixpoint switch {A} (cs : list (string * A)) (dflt : A) (l : string) : A :=
  match cs with
  | [] => dflt
  | (k, x) :: cs' => if String.eqb l k then x else switch cs' dflt l
  end.

(** what is done on a start element: state, attributes, following tokens *)
Definition hnd (X : Type) := X -> list attr -> list token -> out X.
(** what is done on an attribute value *)
Definition ahnd (X : Type) := X -> string -> X * status.

(** a switch over attribute names; other attributes are ignored *)
Definition aswitch {X} (cs : list (string * ahnd X)) : X -> string -> string -> X * status :=
  fun s l v => switch cs (fun s _ => (s, SOk)) l s v.
(** a switch over element names; other elements are skipped *)
Definition eswitch {X} (cs : list (string * hnd X)) : X -> string -> list attr -> list token -> out X :=
  fun s l a ts => switch cs (fun s _ ts => skipping s ts) l s a ts.

(** x.F = attr.Value (for instance structdrawing.go:1088) *)
Definition av {X} (set : string -> X -> X) : ahnd X := fun s v => (set v s, SOk).
(** x.F, err = GetInt(attr.Value); if err != nil { return err } (for instance
    structdrawing.go:974-984) *)
Definition ai `{GoLib} {X} (set : i64 -> X -> X) : ahnd X :=
  fun s v => let '(n, st) := st_of (get_int v) in (set n s, st).
(** v, err := GetInt(attr.Value); if err != nil { return err }; x.F = v
    (structdrawing.go:416-420) *)
Definition ain `{GoLib} {X} (set : i64 -> X -> X) : ahnd X :=
  fun s v => match get_int v with GVal n => (set n s, SOk) | g => (s, snd (st_of g)) end.
(** x.F, _ = GetInt(attr.Value) (structshape.go:629-662) *)
Definition aig `{GoLib} {X} (set : i64 -> X -> X) : ahnd X :=
  fun s v => (set (fst (st_of (get_int v))) s, SOk).
(** x.F, err = strconv.Atoi(attr.Value); if err != nil { return err } (for
    instance structsect.go:121-125) *)
Definition aatoi {X} (set : i64 -> X -> X) : ahnd X :=
  fun s v => match parse_int v with
             | Some n => (set n s, SOk)
             | None => (set (atoi_errval v) s, SAbort XInt)
             end.
(** x.F = int(attr.Value[0] - '0'), for a value that is not empty; the
    subtraction is on bytes (structtable.go:316-326) *)
Definition adig {X} (set : i64 -> X -> X) : ahnd X :=
  fun s v => match v with
             | String c _ => (set (i64_of (Z.of_N ((N_of_ascii c + 208) mod 256))) s, SOk)
             | "" => (s, SOk)
             end.
(** if attr.Value == "" { continue } (for instance structeffects.go:344) *)
Definition ane {X} (h : ahnd X) : ahnd X := fun s v => if String.eqb v "" then (s, SOk) else h s v.

(** the element is not descended into: its content is read by the same loop
    (for instance structpara.go:83-84) *)
Definition flat {X} (g : list attr -> X -> X) : hnd X := fun s a ts => (g a s, SOk, ts).
(** x.F = &T{Val: getAtt(tt.Attr, "val")} (for instance structpara.go:84) *)
Definition fval {X} (set : option string -> X -> X) : hnd X := flat (fun a => set (Some (get_att a "val"))).
(** x.F = &struct{}{} (for instance structdrawing.go:1106) *)
Definition fset {X} (set : bool -> X -> X) : hnd X := flat (fun _ => set true).
(** v := getAtt(tt.Attr, name); if v == "" { continue }; value, err = GetInt(v);
    if err != nil { return err }; x.F = &value (for instance
    structpara.go:94-104) *)
Definition fnum `{GoLib} {X} (name : string) (set : option i64 -> X -> X) : hnd X :=
  fun s a ts =>
    let v := get_att a name in
    if String.eqb v "" then (s, SOk, ts) else
    match get_int v with GVal n => (set (Some n) s, SOk, ts) | g => (s, snd (st_of g), ts) end.
(** attribute loop on a struct that is assigned before it (for instance
    structdrawing.go:998-1008) *)
Definition fattrs {X Y} (f : Y -> string -> string -> Y * status) (get : X -> Y) (set : Y -> X -> X) : hnd X :=
  fun s a ts => let '(y, st) := attrs f (get s) a in (set y s, st, ts).
(** attribute loop on a local variable that is assigned after it (for instance
    structdrawing.go:1020-1032) *)
Definition fattrs_after {X Y} (f : Y -> string -> string -> Y * status) (y0 : Y) (set : Y -> X -> X) : hnd X :=
  fun s a ts => match attrs f y0 a with (y, SOk) => (set y s, SOk, ts) | (_, st) => (s, st, ts) end.
(** ... followed by d.Skip() (for instance structdrawing.go:1105-1110) *)
Definition then_skip {X} (h : hnd X) : hnd X :=
  fun s a ts => match h s a ts with
                | (s', SOk, ts') => skipping s' ts'
                | r => r
                end.
(** DecodeElement into a fresh value, assigned to the field (for instance
    structpara.go:62-67) *)
Definition child {X A} (u : list attr -> list token -> out A) (set : A -> X -> X) : hnd X :=
  fun s a ts => decode (u a) set s ts.
Definition childo {X A} (u : list attr -> list token -> out A) (set : option A -> X -> X) : hnd X :=
  child u (fun x => set (Some x)).
(** DecodeElement into an existing field (for instance structdrawing.go:920-955) *)
Definition childin {X A} (u : A -> list attr -> list token -> out A) (get : X -> A) (set : A -> X -> X) : hnd X :=
  fun s a ts => decode (u (get s) a) set s ts.

Definition leafd {X} (cs : list (string * ahnd X)) (s : X) : list attr -> list token -> out X :=
  leaf (aswitch cs) s.
Definition loopd {X} (cs : list (string * hnd X)) (s : X) : list attr -> list token -> out X :=
  fun _ ts => loop (eswitch cs) s ts.
Definition nested {X} (ac : list (string * ahnd X)) (cs : list (string * hnd X)) (s : X) : list attr -> list token -> out X :=
  attrs_loop (aswitch ac) (eswitch cs) s.

Section Decoders.
Context `{GoLib}.

(** ** properties *)

(** structrun.go:331-348 *)
Definition u_rfonts := leafd
  [("ascii", av set_rfonts_ascii); ("eastAsia", av set_rfonts_eastAsia);
   ("hAnsi", av set_rfonts_hAnsi); ("hint", av set_rfonts_hint)] rfonts0.

(** structeffects.go:292-325 *)
Definition u_spacing := leafd
  [("val", ai set_spacing_val); ("beforeLines", ai set_spacing_beforeLines); ("before", ai set_spacing_before);
   ("line", ai set_spacing_line); ("lineRule", av set_spacing_lineRule)] spacing0.

(** structeffects.go:339-398 *)
Definition u_ind := leafd
  [("leftChars", ane (ai set_ind_leftChars)); ("left", ane (ai set_ind_left));
   ("firstLineChars", ane (ai set_ind_firstLineChars)); ("firstLine", ane (ai set_ind_firstLine));
   ("hangingChars", ane (ai set_ind_hangingChars)); ("hanging", ane (ai set_ind_hanging))] ind0.

(** structeffects.go:129-150 *)
Definition u_shade := leafd
  [("val", av set_shade_val); ("color", av set_shade_color); ("fill", av set_shade_fill);
   ("themeFill", av set_shade_themeFill); ("themeFillTint", av set_shade_themeFillTint)] shade0.

(** structrun.go:222-320 *)
Definition u_rpr := loopd
  [("rFonts", childo u_rfonts set_rpr_fonts); ("b", fset set_rpr_bold); ("iCs", fset set_rpr_ics);
   ("i", fset set_rpr_italic); ("u", fval set_rpr_underline); ("highlight", fval set_rpr_highlight);
   ("color", fval set_rpr_color); ("sz", fval set_rpr_size); ("spacing", childo u_spacing set_rpr_spacing);
   ("szCs", fval set_rpr_sizeCs); ("rStyle", fval set_rpr_runStyle); ("pStyle", fval set_rpr_style);
   ("shd", childo u_shade set_rpr_shade); ("kern", fnum "val" set_rpr_kern);
   ("vertAlign", fval set_rpr_vertAlign); ("strike", fval set_rpr_strike)] rpr0.

(** structtext.go:69-89 *)
Definition u_tab := leafd [("val", av set_tab_val); ("pos", ane (ai set_tab_pos))] tab0.

(** structtext.go:36-60; other elements are not skipped *)
Definition u_tabs : list attr -> list token -> out (list tab) :=
  fun _ ts => loop (fun s l a ts => switch [("tab", child u_tab (fun x s => s ++ [x]))] (flat (fun _ s => s)) l s a ts) [] ts.

(** structpara.go:50-168 *)
Definition u_ppr := loopd
  [("tabs", childo u_tabs set_ppr_tabs); ("spacing", childo u_spacing set_ppr_spacing); ("ind", childo u_ind set_ppr_ind);
   ("jc", fval set_ppr_jc); ("shd", childo u_shade set_ppr_shade); ("kern", fnum "val" set_ppr_kern);
   ("rPr", childo u_rpr set_ppr_rpr); ("pStyle", fval set_ppr_style); ("textAlignment", fval set_ppr_textAlignment);
   ("adjustRightInd", fnum "val" set_ppr_adjustRightInd); ("snapToGrid", fnum "val" set_ppr_snapToGrid);
   ("kinsoku", fnum "val" set_ppr_kinsoku); ("overflowPunct", fnum "val" set_ppr_overflowPunct)] ppr0.

(** structtext.go:119-144: every character data token replaces the text *)
Fixpoint text_loop (s : text) (ts : list token) : out text :=
  match ts with
  | [] => (s, SAbort XSyntax, [])
  | TErr :: _ => (s, SAbort XSyntax, ts)
  | TEof :: _ => (s, SOk, ts)
  | TChar c :: ts' => text_loop (set_text_text c s) ts'
  | _ :: ts' => text_loop s ts'
  end.
Definition u_text : list attr -> list token -> out text :=
  fun a ts => text_loop (fst (attrs (aswitch [("space", av set_text_space)]) text0 a)) ts.

(** structtext.go:97-108 *)
Definition u_br : list attr -> list token -> out string :=
  fun a ts => let '(st, ts') := next_tok ts in (get_att a "type", st, ts').

(** ** pictures and shapes *)

Definition a_cxcy : list (string * ahnd xy) := [("cx", ai set_xy_x); ("cy", ai set_xy_y)].
Definition a_xy : list (string * ahnd xy) := [("x", ai set_xy_x); ("y", ai set_xy_y)].
Definition a_ltrb : list (string * ahnd eff) :=
  [("l", ai set_eff_l); ("t", ai set_eff_t); ("r", ai set_eff_r); ("b", ai set_eff_b)].

(** structdrawing.go:353-370 *)
Definition u_extent := leafd a_cxcy xy0.
(** structdrawing.go:382-402 *)
Definition u_effect := leafd a_ltrb eff0.
(** structdrawing.go:412-431 *)
Definition u_docpr := leafd [("id", ain set_nonvis_id); ("name", av set_nonvis_name)] nonvis0.
(** structeffects.go:261-278 *)
Definition u_nonvis := leafd [("id", ai set_nonvis_id); ("name", av set_nonvis_name)] nonvis0.

(** structdrawing.go:440-472: NoChangeAspect is assigned even if GetInt fails *)
Definition u_frame := loopd
  [("graphicFrameLocks", fun s a ts =>
      let s1 := set_glocks_xmla (get_att a "a") s in
      let v := get_att a "noChangeAspect" in
      if String.eqb v "" then (s1, SOk, ts) else
      let '(n, st) := st_of (get_int v) in (set_glocks_noChange n s1, st, ts))] glocks0.

(** structdrawing.go:719-754 *)
Definition u_cnvpicpr (s : option i64) := loopd [("picLocks", fnum "noChangeAspect" (fun v _ => v))] s.

(** structdrawing.go:673-710: ID is assigned even if GetInt fails, Name is not *)
Definition u_nvpic := loopd
  [("cNvPr", fun s a ts =>
      let v := get_att a "id" in
      if String.eqb v "" then (s, SOk, ts) else
      let '(n, st) := st_of (get_int v) in
      match st with
      | SOk => (set_nvpic_nv (mk_nonvis n (get_att a "name")) s, SOk, ts)
      | _ => (set_nvpic_nv (set_nonvis_id n (nvpic_nv s)) s, st, ts)
      end);
   ("cNvPicPr", childin u_cnvpicpr nvpic_locks set_nvpic_locks)] nvpic0.

(** structdrawing.go:813-856 *)
Definition u_ablip (s : ablip) := nested
  [("embed", av set_ablip_embed); ("cstate", av set_ablip_cstate)]
  [("alphaModFix", fnum "amt" set_ablip_alpha)] s.

(** structdrawing.go:871-904 *)
Definition u_stretch (s : bool) := loopd [("fillRect", then_skip (fset (fun b _ => b)))] s.

(** structdrawing.go:770-802 *)
Definition u_picblip := loopd
  [("blip", childin u_ablip picblip_blip set_picblip_blip);
   ("stretch", childin u_stretch picblip_stretch set_picblip_stretch)] picblip0.

(** structdrawing.go:970-1059 *)
Definition u_xfrm (s : xfrm) := nested
  [("rot", ai set_xfrm_rot); ("flipH", ai set_xfrm_flipH); ("flipV", ai set_xfrm_flipV)]
  [("off", fattrs (aswitch a_xy) xfrm_off set_xfrm_off);
   ("ext", fattrs (aswitch a_cxcy) xfrm_ext set_xfrm_ext);
   ("chOff", fattrs_after (aswitch a_xy) xy0 (fun x => set_xfrm_chOff (Some x)));
   ("chExt", fattrs_after (aswitch a_cxcy) xy0 (fun x => set_xfrm_chExt (Some x)))] s.

(** structdrawing.go:1084-1121 *)
Definition u_geom := nested [("prst", av set_geom_prst)] [("avLst", then_skip (fset set_geom_avLst))] geom0.

(** structdrawing.go:920-954 *)
Definition u_picsp := loopd
  [("xfrm", childin u_xfrm picsp_xfrm set_picsp_xfrm); ("prstGeom", childo u_geom set_picsp_geom)] picsp0.

(** structdrawing.go:620-663 *)
Definition u_pic := loopd
  [("nvPicPr", childo u_nvpic set_pic_nvpic); ("blipFill", childo u_picblip set_pic_blip);
   ("spPr", childo u_picsp set_pic_sp)] pic0.

(** structdrawing.go:575-582: value.XMLPIC = getAtt(tt.Attr, "pic") after decoding *)
Definition u_picx : list attr -> list token -> out pic :=
  fun a ts => let '(x, st, ts') := u_pic a ts in (set_pic_xmlpic (get_att a "pic") x, st, ts').

(** structshape.go:421-455 *)
Definition u_solid := loopd
  [("srgbClr", then_skip (flat (fun a (_ : option string) => Some (get_att a "val"))))] None.

(** structshape.go:484-500, 511-527 *)
Definition u_lend := leafd [("type", av set_lend_type); ("w", av set_lend_w); ("len", av set_lend_len)] lend0.

(** structshape.go:343-412 *)
Definition u_aline := nested
  [("w", ai set_aline_w); ("cap", av set_aline_cap); ("cmpd", av set_aline_cmpd); ("algn", av set_aline_algn)]
  [("noFill", fset set_aline_noFill); ("solidFill", childo u_solid set_aline_solid); ("prstDash", fval set_aline_dash);
   ("miter", flat (fun a => set_aline_miter (Some (get_att a "lim")))); ("round", fset set_aline_round);
   ("headEnd", childo u_lend set_aline_head); ("tailEnd", childo u_lend set_aline_tail)] aline0.

(** structshape.go:298-323 *)
Definition u_tile := leafd
  [("tx", ai set_tile_tx); ("ty", ai set_tile_ty); ("sx", ai set_tile_sx); ("sy", ai set_tile_sy);
   ("flip", av set_tile_flip); ("algn", av set_tile_algn)] tile0.

(** structshape.go:224-279 *)
Definition u_blipfill := nested
  [("dpi", ai set_blipfill_dpi); ("rotWithShape", ai set_blipfill_rot)]
  [("blip", childo (u_ablip ablip0) set_blipfill_blip); ("srcRect", fset set_blipfill_srcRect);
   ("tile", childo u_tile set_blipfill_tile)] blipfill0.

(** structeffects.go:192-252: of prstGeom only the attribute is read *)
Definition u_sppr := nested
  [("bwMode", av set_sppr_bwMode)]
  [("xfrm", childin u_xfrm sppr_xfrm set_sppr_xfrm);
   ("prstGeom", flat (fun a s => set_sppr_geom (set_geom_prst (get_att a "prst") (sppr_geom s)) s));
   ("solidFill", childo u_solid set_sppr_solid); ("blipFill", childo u_blipfill set_sppr_blip);
   ("noFill", fset set_sppr_noFill); ("ln", childo u_aline set_sppr_line)] sppr0.

(** structshape.go:111-135 *)
Definition u_cnvcn := loopd [("cxnSpLocks", fset (fun b _ => b))] false.
(** structshape.go:195-210 *)
Definition u_splocks := leafd [("noChangeArrowheads", ai (fun v _ => v))] i0.
(** structshape.go:146-186 *)
Definition u_cnvsp := nested [("txBox", ai set_cnvsp_txBox)] [("spLocks", childo u_splocks set_cnvsp_locks)] cnvsp0.

(** structshape.go:629-679 *)
Definition u_bodypr := nested
  [("rot", aig set_bodypr_rot); ("vert", av set_bodypr_vert); ("wrap", av set_bodypr_wrap);
   ("lIns", aig set_bodypr_lIns); ("tIns", aig set_bodypr_tIns); ("rIns", aig set_bodypr_rIns);
   ("bIns", aig set_bodypr_bIns); ("anchor", av set_bodypr_anchor);
   ("anchorCtr", aig set_bodypr_anchorCtr); ("upright", aig set_bodypr_upright)]
  [("noAutofit", fset set_bodypr_noAutofit)] bodypr0.

(** structcanvas.go:108-132 *)
Definition u_bg := loopd [("noFill", fset (fun b _ => b))] false.
(** structcanvas.go:141-169 *)
Definition u_whole := loopd [("ln", childo u_aline (fun v _ => v))] None.
(** structgroup.go:116-144 *)
Definition u_gcnv := loopd [("grpSpLocks", then_skip (fset (fun b _ => b)))] false.

(** Decoding into an int64 (encoding/xml default rule): the character data,
    trimmed with strings.TrimSpace; an empty text is 0. *)
Definition is_space_nl (c : ascii) : bool := (is_space c || Ascii.eqb c "010")%bool.
Definition ltrim (s : string) : string := drop_spaces is_space_nl s.
Fixpoint rtrim (s : string) : string :=
  if String.eqb (ltrim s) "" then "" else
  match s with
  | "" => ""
  | String c s' => String c (rtrim s')
  end.
Definition xml_int (v0 : i64) (ts : list token) : out i64 :=
  let '(s, st, ts') := str ts in
  match st with
  | SOk => if String.eqb s "" then (i0, SOk, ts') else
           match parse_int (rtrim (ltrim s)) with
           | Some n => (n, SOk, ts')
           | None => (v0, SAbort XInt, ts')
           end
  | _ => (v0, st, ts')
  end.

(** structdrawing.go:1449-1481, 1492-1524 *)
Definition u_wpos : list attr -> list token -> out wpos :=
  fun a ts => loop (eswitch [("posOffset", fun s _ ts =>
      let '(n, st, ts') := xml_int (wpos_off s) ts in
      match st with SOk => (set_wpos_off n s, SOk, ts') | _ => (s, st, ts') end)])
    (mk_wpos (get_att a "relativeFrom") i0) ts.

(** ** recursive elements *)

(** The decoders of the three element kinds through which the nesting is
    unbounded. The parameter [f] is the document the decoded elements belong
    to. *)
Record decs := mk_decs {
  d_para : option nat -> list attr -> list token -> out para;
  d_canvas : option nat -> list attr -> list token -> out canvas;
  d_group : option nat -> list attr -> list token -> out group
}.

Definition push {A B} (c : A -> B) (x : A) (l : list B) : list B := l ++ [c x].

Section Knot.
Variable D : decs.
Variable f : option nat.

(** structshape.go:579-609 *)
Definition u_txcontent := loopd [("p", child (d_para D f) (push (fun x => x)))] [].
(** structshape.go:538-568 *)
Definition u_txbx := loopd [("txbxContent", childo u_txcontent (fun v _ => v))] None.

(** structshape.go:43-102 *)
Definition u_shapeR := loopd
  [("cNvPr", childo u_nonvis set_shapeR_cnvPr); ("cNvCnPr", childo u_cnvcn set_shapeR_cnvCn);
   ("cNvSpPr", childo u_cnvsp set_shapeR_cnvSp); ("spPr", childo u_sppr set_shapeR_sp);
   ("txbx", childo u_txbx set_shapeR_textBox); ("bodyPr", childo u_bodypr set_shapeR_body)] shapeR0.
Definition u_shape : list attr -> list token -> out shape :=
  fun a ts => let '(x, st, ts') := u_shapeR a ts in (Shape x, st, ts').

(** structcanvas.go:41-99 *)
Definition u_canvasR := loopd
  [("bg", childo u_bg set_canvasR_bg); ("whole", childo u_whole set_canvasR_whole);
   ("wsp", child u_shape (fun x s => set_canvasR_items (push CShape x (canvasR_items s)) s));
   ("pic", child u_picx (fun x s => set_canvasR_items (push CPic x (canvasR_items s)) s));
   ("wgp", child (d_group D f) (fun x s => set_canvasR_items (push CGroup x (canvasR_items s)) s))] canvasR0.

(** structgroup.go:163-229 *)
Definition u_gshape := loopd
  [("cNvPr", childo u_nonvis set_gshapeR_cnvPr); ("cNvGrpSpPr", childo u_gcnv set_gshapeR_cnv);
   ("grpSpPr", childo u_sppr set_gshapeR_sp);
   ("pic", child u_pic (fun x s => set_gshapeR_elems (push GPic x (gshapeR_elems s)) s));
   ("wsp", child u_shape (fun x s => set_gshapeR_elems (push GShape x (gshapeR_elems s)) s));
   ("wpc", child (d_canvas D f) (fun x s => set_gshapeR_elems (push GCanvas x (gshapeR_elems s)) s))] gshapeR0.

(** structgroup.go:40-107 *)
Definition u_groupR := loopd
  [("cNvGrpSpPr", childo u_gcnv set_groupR_cnv); ("grpSpPr", childo u_sppr set_groupR_sp);
   ("pic", child u_pic (fun x s => set_groupR_elems (push GPic x (groupR_elems s)) s));
   ("wsp", child u_shape (fun x s => set_groupR_elems (push GShape x (groupR_elems s)) s));
   ("wpc", child (d_canvas D f) (fun x s => set_groupR_elems (push GCanvas x (groupR_elems s)) s));
   ("grpSp", child u_gshape (fun x s => set_groupR_elems (push GGrp x (groupR_elems s)) s))] groupR0.

(** structdrawing.go:546-608 *)
Definition u_gdata : list attr -> list token -> out gdata := nested
  [("uri", av set_gdataR_uri)]
  [("pic", childo u_picx set_gdataR_pic); ("wsp", childo u_shape set_gdataR_shape);
   ("wpc", childo (d_canvas D f) set_gdataR_canvas); ("wgp", childo (d_group D f) set_gdataR_group)] gdataR0.

(** structdrawing.go:491-530: value.URI = getAtt(tt.Attr, "uri") after decoding *)
Definition u_graphic : list attr -> list token -> out graphic := nested
  [("a", av set_graphicR_xmla)]
  [("graphicData", fun s a ts =>
      child u_gdata (fun x => set_graphicR_data (Some (set_gdataR_uri (get_att a "uri") x))) s a ts)] graphicR0.

(** structdrawing.go:135-227 *)
Definition u_inline : list attr -> list token -> out inline := nested
  [("distT", ai set_inlineR_distT); ("distB", ai set_inlineR_distB);
   ("distL", ai set_inlineR_distL); ("distR", ai set_inlineR_distR)]
  [("extent", fattrs (aswitch a_cxcy) (fun _ => xy0) (fun x => set_inlineR_extent (Some x)));
   ("effectExtent", fattrs (aswitch a_ltrb) (fun _ => eff0) (fun x => set_inlineR_effect (Some x)));
   ("docPr", childo u_docpr set_inlineR_docPr); ("cNvGraphicFramePr", childo u_frame set_inlineR_frame);
   ("graphic", childo u_graphic set_inlineR_graphic)] (set_inlineR_file f inlineR0).

(** structdrawing.go:1201-1313 *)
Definition u_anchor : list attr -> list token -> out anchor := nested
  [("distT", ai set_anchorR_distT); ("distB", ai set_anchorR_distB);
   ("distL", ai set_anchorR_distL); ("distR", ai set_anchorR_distR);
   ("simplePos", ai set_anchorR_simplePos); ("relativeHeight", ai set_anchorR_relHeight);
   ("behindDoc", ai set_anchorR_behindDoc); ("locked", ai set_anchorR_locked);
   ("layoutInCell", ai set_anchorR_layoutInCell); ("allowOverlap", ai set_anchorR_allowOverlap)]
  [("simplePos", fattrs (aswitch a_xy) (fun _ => xy0) (fun x => set_anchorR_simpleXY (Some x)));
   ("positionH", childo u_wpos set_anchorR_posH); ("positionV", childo u_wpos set_anchorR_posV);
   ("extent", childo u_extent set_anchorR_extent); ("effectExtent", childo u_effect set_anchorR_effect);
   ("wrapNone", fset set_anchorR_wrapNone);
   ("wrapSquare", flat (fun a => set_anchorR_wrapSquare (Some (get_att a "wrapText"))));
   ("docPr", childo u_docpr set_anchorR_docPr); ("cNvGraphicFramePr", childo u_frame set_anchorR_frame);
   ("graphic", childo u_graphic set_anchorR_graphic)] (set_anchorR_file f anchorR0).

(** structdrawing.go:55-90 *)
Definition u_drawing : list attr -> list token -> out (option inline * option anchor) := loopd
  [("inline", childo u_inline (fun i s => (i, snd s))); ("anchor", childo u_anchor (fun a s => (fst s, a)))] (None, None).

(** appending a child to the run; nothing is appended when parse fails *)
Definition add_child (c : rchild) (s : run) : run := set_runR_children (runR_children s ++ [c]) s.

(** structrun.go:102-125: the cases of Run.parse that decode an
    element and return it. An error "expected ..." is kept in the named result
    and returned together with the child. *)
Definition pchildh {A} (u : list attr -> list token -> out A) (c : A -> rchild) : hnd run :=
  fun s a ts => let '(x, st, ts') := sub (u a) ts in
    match st with SOk => (add_child (c x) s, SOk, ts') | _ => (s, st, ts') end.

(** structrun.go:140-176: the loop over the content of AlternateContent. [rec]
    is r.parse. *)
Fixpoint alt_loop (n : nat) (rec : run -> string -> list attr -> list token -> out run) (s : run) (ts : list token) : out run :=
  match n with
  | O => (s, SFuel, ts)
  | S n' =>
      let skip_on ts' := match skip ts' with
                         | (SOk, ts'') => alt_loop n' rec s ts''
                         | (e, ts'') => (s, e, ts'')
                         end in
      match ts with
      | [] => (s, SAbort XSyntax, [])
      | TErr :: _ => (s, SAbort XSyntax, ts)
      | TEof :: _ => (s, SOk, ts)
      | TStart q a :: ts' =>
          let v := get_att a "Requires" in
          if (String.eqb (snd q) "Choice" && (String.eqb v "wps" || String.eqb v "wpc" || String.eqb v "wpg"))%bool
          then match ts' with
               | [] => (s, SAbort XSyntax, [])
               | TErr :: _ => (s, SAbort XSyntax, ts')
               | TEof :: _ => (s, SAbort XEOF, ts')
               | TStart q2 a2 :: ts'' => rec s (snd q2) a2 ts''
               | _ :: ts'' => (s, SOk, ts'')
               end
          else skip_on ts'
      | TEnd q :: ts' => if String.eqb (snd q) "AlternateContent" then (s, SOk, ts') else skip_on ts'
      | _ :: ts' => skip_on ts'
      end
  end.

(** structrun.go:84-181 parse, together with the append in 74-76 *)
Fixpoint run_parse (n : nat) (s : run) (l : string) (a : list attr) (ts : list token) : out run :=
  match n with
  | O => (s, SFuel, ts)
  | S n' =>
      eswitch
        [("rPr", childo u_rpr set_runR_rpr);
         ("instrText", fun s _ ts => let '(x, st, ts') := str ts in
            match st with SOk | SExp => (set_runR_instr x s, SOk, ts') | _ => (s, st, ts') end);
         ("t", pchildh u_text RText);
         ("drawing", pchildh u_drawing (fun p => RDraw (fst p) (snd p)));
         ("tab", flat (fun _ => add_child (RTab tab0)));
         ("br", pchildh u_br RBr);
         ("AlternateContent", fun s _ ts => alt_loop (S (size ts)) (run_parse n') s ts)] s l a ts
  end.

(** structrun.go:48-82 *)
Definition u_run (s : run) : list attr -> list token -> out run :=
  attrs_loop (aswitch [("space", av set_runR_space)]) (fun s l a ts => run_parse (S (size ts)) s l a ts) s.

End Knot.

Definition run0 : run := runR0.

(** structlink.go:37-62: the run is decoded with its zero file field *)
Definition u_link (D : decs) : list attr -> list token -> out run :=
  loopd [("r", childin (u_run D None) (fun s => s) (fun x _ => x))] run0.

(** structpara.go:230-307 *)
Definition u_paraR (D : decs) (f : option nat) : list attr -> list token -> out para :=
  fun _ ts =>
    let '(s, st, ts') := loop (eswitch
      [("hyperlink", fun s a ts =>
          let anchor := get_att a "anchor" in
          let id := if String.eqb anchor "" then get_att a "id" else anchor in
          child (u_link D) (fun x s => (fst s, snd s ++ [PLink id x])) s a ts);
       ("r", child (u_run D f run0) (fun x s => (fst s, snd s ++ [PRun x])));
       ("rPr", child u_rpr (fun x s => (fst s, snd s ++ [PRPr x])));
       ("pPr", child u_ppr (fun x s => (Some x, snd s)))]) (None, []) ts in
    match st with
    | SOk => (mk_para (fst s) (snd s) f, SOk, ts')
    | _ => (mk_para (fst s) [] f, st, ts')
    end.

(** Nesting depth of paragraphs, canvases and groups is bounded by [n]. *)
Fixpoint tie (n : nat) : decs :=
  match n with
  | O => mk_decs (fun f _ ts => (mk_para None [] f, SFuel, ts))
                 (fun _ _ ts => (Canvas canvasR0, SFuel, ts))
                 (fun _ _ ts => (Group groupR0, SFuel, ts))
  | S n' =>
      let D := tie n' in
      mk_decs (u_paraR D)
              (fun f a ts => let '(x, st, ts') := u_canvasR D f a ts in (Canvas x, st, ts'))
              (fun f a ts => let '(x, st, ts') := u_groupR D f a ts in (Group x, st, ts'))
  end.

Definition u_para (f : option nat) : list attr -> list token -> out para :=
  fun a ts => d_para (tie (S (size ts))) f a ts.

(** ** tables *)

(** structtable.go:782-812 *)
Definition u_border := leafd
  [("val", av set_border_val); ("sz", ane (ain set_border_size)); ("space", ane (ain set_border_space));
   ("color", av set_border_color)] border0.
(** structtable.go:707-771 *)
Definition u_borders := loopd
  [("top", childo u_border set_borders_top); ("left", childo u_border set_borders_left);
   ("bottom", childo u_border set_borders_bottom); ("right", childo u_border set_borders_right);
   ("insideH", childo u_border set_borders_insideH); ("insideV", childo u_border set_borders_insideV)] borders0.
(** structtable.go:201-238 *)
Definition u_tblpos := leafd
  [("leftFromText", ai set_tblpos_leftFT); ("rightFromText", ai set_tblpos_rightFT);
   ("vertAnchor", av set_tblpos_vertAnchor); ("horzAnchor", av set_tblpos_horzAnchor);
   ("tblpXSpec", av set_tblpos_xspec); ("tblpYSpec", av set_tblpos_yspec);
   ("tblpX", ai set_tblpos_x); ("tblpY", ai set_tblpos_y)] tblpos0.
(** structtable.go:247-262 *)
Definition u_tblstyle := leafd [("val", ane (av (fun v (_ : string) => v)))] "".
(** structtable.go:272-292 *)
Definition u_tblw := leafd [("w", ane (ai set_wtype_w)); ("type", ane (av set_wtype_type))] wtype0.
(** structtable.go:307-334 *)
Definition u_look := leafd
  [("val", ane (av set_look_val)); ("firstRow", adig set_look_firstRow); ("lastRow", adig set_look_lastRow);
   ("firstColumn", adig set_look_firstCol); ("lastColumn", adig set_look_lastCol);
   ("noHBand", adig set_look_noHBand); ("noVBand", adig set_look_noVBand)] look0.
(** structtable.go:119-183 *)
Definition u_tblpr := loopd
  [("tblpPr", childo u_tblpos set_tblpr_pos); ("tblStyle", childo u_tblstyle set_tblpr_style);
   ("tblW", childo u_tblw set_tblpr_width); ("jc", then_skip (fval set_tblpr_jc));
   ("tblLook", childo u_look set_tblpr_look); ("tblBorders", childo u_borders set_tblpr_borders)] tblpr0.
(** structtable.go:381-399 *)
Definition u_gridcol := leafd [("w", ane (ai (fun v (_ : i64) => v)))] i0.
(** structtable.go:343-372 *)
Definition u_grid := loopd [("gridCol", child u_gridcol (push Some))] [].
(** structtable.go:473-525; the attribute loop fills a local value *)
Definition u_trpr := loopd
  [("trHeight", then_skip (fattrs_after (aswitch [("val", ai set_trheight_val); ("hRule", av set_trheight_rule)])
       trheight0 (fun x => set_trpr_height (Some x))));
   ("jc", then_skip (fval set_trpr_jc))] trpr0.
(** structtable.go:595-656: tcW and gridSpan are allocated before their value
    is looked at, and the number is assigned even if GetInt fails *)
Definition u_tcpr := loopd
  [("tcW", fun s a ts =>
      let v := get_att a "w" in
      if String.eqb v "" then (set_tcpr_width (Some wtype0) s, SOk, ts) else
      let '(n, st) := st_of (get_int v) in
      match st with
      | SOk => (set_tcpr_width (Some (mk_wtype n (get_att a "type"))) s, SOk, ts)
      | _ => (set_tcpr_width (Some (mk_wtype n "")) s, st, ts)
      end);
   ("vMerge", fval set_tcpr_vMerge);
   ("gridSpan", fun s a ts =>
      let v := get_att a "val" in
      if String.eqb v "" then (set_tcpr_span (Some i0) s, SOk, ts) else
      let '(n, st) := st_of (get_int v) in (set_tcpr_span (Some n) s, st, ts));
   ("vAlign", fval set_tcpr_vAlign); ("tcBorders", childo u_borders set_tcpr_borders);
   ("shd", childo u_shade set_tcpr_shade)] tcpr0.

Section Tables.
Variable f : option nat.
(** structtable.go:544-581 *)
Definition u_cell := loopd
  [("p", child (u_para f) (fun x s => set_cell_paras (cell_paras s ++ [x]) s)); ("tcPr", childo u_tcpr set_cell_props)]
  (set_cell_file f cell0).
(** structtable.go:414-463 *)
Definition u_row := loopd
  [("trPr", childo u_trpr set_row_props); ("tc", child u_cell (fun x s => set_row_cells (row_cells s ++ [x]) s))] row0.
(** structtable.go:64-105 *)
Definition u_table := loopd
  [("tr", child u_row (fun x s => set_table_rows (table_rows s ++ [x]) s)); ("tblPr", childo u_tblpr set_table_props);
   ("tblGrid", childo u_grid set_table_grid)] table0.
End Tables.

(** ** sections and document *)

(** structsect.go:116-138 *)
Definition u_pgsz := leafd [("w", aatoi set_pgsz_w); ("h", aatoi set_pgsz_h)] pgsz0.
(** structsect.go:141-188 *)
Definition u_pgmar := leafd
  [("top", aatoi set_pgmar_top); ("left", aatoi set_pgmar_left); ("bottom", aatoi set_pgmar_bottom);
   ("right", aatoi set_pgmar_right); ("header", aatoi set_pgmar_header); ("footer", aatoi set_pgmar_footer);
   ("gutter", aatoi set_pgmar_gutter)] pgmar0.
(** structsect.go:191-208 *)
Definition u_cols := leafd [("space", aatoi (fun v (_ : i64) => v))] i0.
(** structsect.go:211-230 *)
Definition u_docgrid := leafd [("linePitch", aatoi set_docgrid_pitch); ("type", av set_docgrid_type)] docgrid0.
(** structsect.go:65-113 *)
Definition u_sect := loopd
  [("pgSz", childo u_pgsz set_sect_pgSz); ("pgMar", childo u_pgmar set_sect_pgMar);
   ("cols", childo u_cols set_sect_cols); ("docGrid", childo u_docgrid set_sect_grid)] sect0.

(** structdoc.go:65-109 *)
Definition u_body (f : option nat) (s : list item) := loopd
  [("p", child (u_para f) (push IPara)); ("tbl", child (u_table f) (push ITable)); ("sectPr", child u_sect (push ISect))] s.
(** structdoc.go:177-202; a second body element adds to the first *)
Definition u_document (f : option nat) := loopd
  [("body", childin (u_body f) (fun s => s) (fun x _ => x))] [].

(** unpack.go:77-102: the tokens of word/document.xml, decoded into the document
    number [f] *)
Definition parse_document (f : option nat) (ts : list token) : list item * status :=
  root (u_document f) [] (check [] ts).

End Decoders.
