(** The functions that build and change documents (api*.go, theme.go). *)
From Coq Require Import String Ascii List Bool Arith NArith ZArith.
From Coq Require Import Floats.SpecFloat.
From Verif Require Import GoStr Num Lib Types Docx.
Import ListNotations.
Local Open Scope list_scope.
Local Open Scope string_scope.

(** the separators in apitext.go:26-50 *)
Definition TAB : ascii := "009"%char.
Definition NL : ascii := "010"%char.

(** p.Children = append(p.Children, c): apitext.go, apidrawing.go, apishape.go, apilink.go *)
Definition add_child (c : pchild) (p : para) : para := set_para_children (para_children p ++ [c])%list p.
(** a run with empty, present properties *)
Definition api_run (c : list rchild) : run := mk_runR "" (Some rpr0) "" c.

(** apitext.go:26-38 Paragraph.AddTab *)
Definition add_tab (p : para) : para := add_child (PRun (api_run [RTab tab0])) p.

(** apitext.go:50-59: the pieces of one line. [first] is tabIndex = 0. *)
Fixpoint line_children (first : bool) (l : list string) : list rchild :=
  match l with
  | [] => []
  | k :: l' =>
      ((if first then [] else [RTab tab0]) ++
       (if String.eqb k "" then [] else [RText (mk_text "" k)]) ++ line_children false l')%list
  end.
(** apitext.go:46-60: the lines *)
Fixpoint text_children (first : bool) (l : list string) : list rchild :=
  match l with
  | [] => []
  | s :: l' =>
      ((if first then [] else [RBr ""]) ++ line_children true (split TAB s) ++ text_children false l')%list
  end.
(** apitext.go:41-67 Paragraph.AddText *)
Definition add_text (t : string) (p : para) : para :=
  if String.eqb t (String TAB "") then add_tab p
  else add_child (PRun (api_run (text_children true (split NL t)))) p.

(** apipara.go:60-71 AddPageBreaks *)
Definition add_page_breaks (p : para) : para := add_child (PRun (api_run [RBr "page"])) p.

(** apilink.go:29-46 AddLink *)
Definition add_link (t link : string) (w : world) (p : para) : res (world * para) :=
  bind (on_file w (para_file p) (add_link_relation link)) (fun '(id, w') =>
  Ok (w', add_child (PLink id (mk_runR "" (Some (set_rpr_runStyle (Some HYPERLINK_STYLE) rpr0)) t [])) p)).

(** structdrawing.go:36 *)
Definition A4_EMU_MAX_WIDTH : Z := 5274310.

(** Go's int64 multiplication and division; the divisor is not zero *)
Definition imul (a b : i64) : i64 := i64_of (iv a * iv b).
Definition iquot (a b : i64) : i64 := i64_of (Z.quot (iv a) (iv b)).

(** float64(a) and the constant 1.2 (the nearest float64) *)
Definition f64 (a : i64) : spec_float := binary_normalize 53 1024 (iv a) 0 false.
Definition f64_1_2 : spec_float := S754_finite false 5404319552844595 (-52).
(** apidrawing.go:43 float64(w)/float64(h) > 1.2 *)
Definition wide (w h : i64) : bool :=
  match SFcompare (SFdiv 53 1024 (f64 w) (f64 h)) f64_1_2 with Some Gt => true | _ => false end.

(** apidrawing.go:42-49, 145-152: the extent of a new picture *)
Definition pic_size (w h : i64) : res (i64 * i64) :=
  if i64_eqb w i0 then Panic
  else
    let q := iquot (imul (i64_of A4_EMU_MAX_WIDTH) h) w in
    if wide w h then Ok (i64_of A4_EMU_MAX_WIDTH, q)
    else Ok (iquot (i64_of A4_EMU_MAX_WIDTH) (i64_of 2), iquot q (i64_of 2)).

(** apidrawing.go:38-41: docID, IncreaseID("图片") and addImage *)
Definition new_image (format data : string) (g : reg) : (i64 * i64 * string) * reg :=
  let '(idn, g1) := inc_docid g in
  let '(id, g2) := increase_id TUPIAN g1 in
  let '(r, g3) := add_image format data g2 in
  ((idn, int_of_u id, r), g3).

(** apidrawing.go:70-101, 182-213 *)
Definition pic_graphic (id : i64) (name rid : string) (w h : i64) : graphic :=
  mk_graphicR XMLNS_DRAWINGML_MAIN (Some (mk_gdataR XMLNS_PICTURE
    (Some (mk_pic XMLNS_DRAWINGML_PICTURE
       (Some (mk_nvpic (mk_nonvis id name) None))
       (Some (mk_picblip (mk_ablip rid "print" None) false))
       (Some (mk_picsp (set_xfrm_ext (mk_xy w h) xfrm0) (Some (mk_geom "rect" false))))))
    None None None)).
Definition pic_inline (idn id : i64) (name rid : string) (w h : i64) : inline :=
  mk_inlineR i0 i0 i0 i0 (Some (mk_xy w h)) (Some eff0) (Some (mk_nonvis idn name))
    (Some (mk_glocks XMLNS_DRAWINGML_MAIN (i64_of 1))) (Some (pic_graphic id name rid w h)) None.
Definition pic_anchor (idn id : i64) (name rid : string) (w h : i64) : anchor :=
  mk_anchorR i0 i0 i0 i0 i0 i0 i0 i0 (i64_of 1) (i64_of 1) (Some xy0)
    (Some (mk_wpos "column" i0)) (Some (mk_wpos "paragraph" i0))
    (Some (mk_xy w h)) (Some eff0) true None (Some (mk_nonvis idn name))
    (Some (mk_glocks XMLNS_DRAWINGML_MAIN (i64_of 1))) (Some (pic_graphic id name rid w h)) None.

(** the name of a picture: "图片 " + ids (apidrawing.go:62, 79, 174, 191) *)
Definition pic_title (id : i64) : string := TUPIAN ++ " " ++ itoa (iv id).

(** apidrawing.go:33-112 AddInlineDrawing, 136-224 AddAnchorDrawing; [anch]
    chooses. The drawing gets no file pointer. The panic of a zero width comes
    after the changes of the document, which are then lost in this model. *)
Definition add_drawing `{GoLib} (anch : bool) (data : string) (w : world) (p : para) : res (world * para) :=
  match lib_imgsize data with
  | None => Err "image: unknown format"
  | Some (sw, sh, format) =>
      bind (on_file w (para_file p) (new_image format data)) (fun '((idn, id, r), w') =>
      bind (pic_size sw sh) (fun '(ew, eh) =>
      let d := if anch then RDraw None (Some (pic_anchor idn id (pic_title id) r ew eh))
               else RDraw (Some (pic_inline idn id (pic_title id) r ew eh)) None in
      Ok (w', add_child (PRun (api_run [d])) p)))
  end.

(** The same call with the document and the paragraph it leaves behind in
    every case: apidrawing.go:34-37 returns before anything is changed, 43-49
    can panic (zero width) after 38-41 changed the document. *)
Definition drawing_call `{GoLib} (anch : bool) (data : string) (w : world) (p : para) : world * para * res unit :=
  match lib_imgsize data with
  | None => (w, p, Err "image: unknown format")
  | Some (sw, sh, format) =>
      match on_file w (para_file p) (new_image format data) with
      | Err e => (w, p, Err e)
      | Panic => (w, p, Panic)
      | Ok ((idn, id, r), w') =>
          match pic_size sw sh with
          | Err e => (w', p, Err e)
          | Panic => (w', p, Panic)
          | Ok (ew, eh) =>
              (w', add_child (PRun (api_run [if anch then RDraw None (Some (pic_anchor idn id (pic_title id) r ew eh))
                                             else RDraw (Some (pic_inline idn id (pic_title id) r ew eh)) None])) p, Ok tt)
          end
      end
  end.

(** apidrawing.go:115-121, 227-233 the From forms: [rd] is os.ReadFile of the name *)
Definition add_drawing_from `{GoLib} (anch : bool) (rd : res string) (w : world) (p : para) : res (world * para) :=
  bind rd (fun data => add_drawing anch data w p).

(** apidrawing.go:129-132, 241-244 *)
Definition graphic_size (w h : i64) (g : graphic) : graphic :=
  match graphicR_data g with
  | None => g
  | Some d =>
      match gdataR_pic d with
      | None => g
      | Some pc =>
          match pic_sp pc with
          | None => g
          | Some s =>
              let s' := set_picsp_xfrm (set_xfrm_ext (mk_xy w h) (picsp_xfrm s)) s in
              set_graphicR_data (Some (set_gdataR_pic (Some (set_pic_sp (Some s') pc)) d)) g
          end
      end
  end.
(** apidrawing.go:124-133 WPInline.Size *)
Definition inline_size (w h : i64) (x : inline) : inline :=
  set_inlineR_graphic (option_map (graphic_size w h) (inlineR_graphic x))
    (set_inlineR_extent (option_map (fun _ => mk_xy w h) (inlineR_extent x)) x).
(** apidrawing.go:236-245 WPAnchor.Size *)
Definition anchor_size (w h : i64) (x : anchor) : anchor :=
  set_anchorR_graphic (option_map (graphic_size w h) (anchorR_graphic x))
    (set_anchorR_extent (option_map (fun _ => mk_xy w h) (anchorR_extent x)) x).

(** apishape.go:30-31, 87-88 *)
Definition new_shape_ids (name : string) (g : reg) : (i64 * string) * reg :=
  let '(idn, g1) := inc_docid g in
  let '(id, g2) := increase_id name g1 in
  ((idn, itoa_u id), g2).
(** apishape.go:46-72, 115-141 *)
Definition shape_graphic (w h : i64) (bw prst : string) (ln : option aline) : graphic :=
  mk_graphicR XMLNS_DRAWINGML_MAIN (Some (mk_gdataR XMLNS_WPS None
    (Some (Shape (mk_shapeR None (Some true) None
       (Some (mk_sppr bw (set_xfrm_ext (mk_xy w h) xfrm0) (mk_geom prst false) None None true ln))
       None (Some bodypr0))))
    None None)).
(** apishape.go:29-83 AddInlineShape, 86-152 AddAnchorShape *)
Definition add_shape (anch : bool) (sw sh : i64) (name bw prst : string) (ln : option aline) (w : world) (p : para) : res (world * para) :=
  bind (on_file w (para_file p) (new_shape_ids name)) (fun '((idn, ids), w') =>
  let dp := mk_nonvis idn (name ++ " " ++ ids) in
  let gr := shape_graphic sw sh bw prst ln in
  let fr := mk_glocks XMLNS_DRAWINGML_MAIN i0 in
  let d :=
    if anch then
      RDraw None (Some (mk_anchorR i0 i0 i0 i0 i0 i0 i0 i0 (i64_of 1) (i64_of 1) (Some xy0)
        (Some (mk_wpos "column" i0)) (Some (mk_wpos "paragraph" i0))
        (Some (mk_xy sw sh)) (Some eff0) true None (Some dp) (Some fr) (Some gr) None))
    else
      RDraw (Some (mk_inlineR i0 i0 i0 i0 (Some (mk_xy sw sh)) (Some eff0) (Some dp) (Some fr) (Some gr) None)) None in
  Ok (w', add_child (PRun (api_run [d])) p)).

(** apipara.go:51-57, 74-80, 83-100, 103-117, 120-129: properties made if missing *)
Definition the_ppr (p : para) : ppr := match para_ppr p with Some q => q | None => ppr0 end.
Definition the_rpr (q : ppr) : rpr := match ppr_rpr q with Some r => r | None => rpr0 end.
Definition para_justification (v : string) (p : para) : para :=
  set_para_ppr (Some (set_ppr_jc (Some v) (the_ppr p))) p.
Definition para_style (v : string) (p : para) : para :=
  set_para_ppr (Some (set_ppr_style (Some v) (the_ppr p))) p.
Definition para_numpr (numID ilvl : string) (p : para) : para :=
  let q := the_ppr p in
  set_para_ppr (Some (set_ppr_num (Some (mk_numpr (Some numID) (Some ilvl))) (set_ppr_rpr (Some (the_rpr q)) q))) p.
Definition para_numfont (ascii eastAsia hansi hint : string) (p : para) : para :=
  let q := the_ppr p in
  set_para_ppr (Some (set_ppr_rpr (Some (set_rpr_fonts (Some (mk_rfonts ascii eastAsia hansi hint)) (the_rpr q))) q)) p.
Definition para_numsize (v : string) (p : para) : para :=
  let q := the_ppr p in
  set_para_ppr (Some (set_ppr_rpr (Some (set_rpr_size (Some v) (the_rpr q))) q)) p.

(** apirun.go:24-111, 119-127: the setters of a run write through the pointer
    RunProperties, nil panics *)
Definition on_rpr (f : rpr -> rpr) (r : run) : res run :=
  match runR_rpr r with
  | None => Panic
  | Some q => Ok (set_runR_rpr (Some (f q)) r)
  end.
Definition run_color (v : string) := on_rpr (set_rpr_color (Some v)).
Definition run_size (v : string) := on_rpr (set_rpr_size (Some v)).
Definition run_sizecs (v : string) := on_rpr (set_rpr_sizeCs (Some v)).
Definition run_shade (v color fill : string) := on_rpr (set_rpr_shade (Some (mk_shade v color fill "" ""))).
Definition run_spacing (line : i64) := on_rpr (set_rpr_spacing (Some (set_spacing_line line spacing0))).
Definition run_bold := on_rpr (set_rpr_bold true).
Definition run_italic := on_rpr (set_rpr_italic true).
Definition run_underline (v : string) := on_rpr (set_rpr_underline (Some v)).
Definition run_highlight (v : string) := on_rpr (set_rpr_highlight (Some v)).
Definition run_strike (b : bool) := on_rpr (set_rpr_strike (Some (if b then "true" else "false"))).
Definition run_font (ascii eastAsia hansi hint : string) := on_rpr (set_rpr_fonts (Some (mk_rfonts ascii eastAsia hansi hint))).
(** apirun.go:113-116 Run.AddTab *)
Definition run_addtab (r : run) : run := set_runR_children (runR_children r ++ [RTab tab0])%list r.

(** apipara.go:24-31 Docx.AddParagraph; [i] is the document itself *)
Definition add_item (x : item) (d : docx) : docx := set_d_items (d_items d ++ [x])%list d.
Definition add_paragraph (i : nat) (d : docx) : docx := add_item (IPara (mk_para None [] (Some i))) d.
(** apipara.go:34-41 WTableCell.AddParagraph *)
Definition cell_add_paragraph (c : cell) : cell :=
  set_cell_paras (cell_paras c ++ [mk_para None [] (cell_file c)])%list c.

(** theme.go:41-50, 53-62 *)
Definition with_page (w h : Z) (d : docx) : docx :=
  add_item (ISect (mk_sect (Some (mk_pgsz (i64_of w) (i64_of h))) None None None)) d.
Definition with_a3 := with_page 16838 23811.
Definition with_a4 := with_page 11906 16838.
(** theme.go:28-33 *)
Definition use_template (t : tmpl) (d : docx) : docx := set_d_tmpl t d.

(** apitable.go:205-222 *)
Record colors := mk_colors { c_top : string; c_left : string; c_bottom : string; c_right : string; c_insideH : string; c_insideV : string }.
Definition BLACK := "#000000".
Definition apply_default (c : colors) : colors :=
  let f s := if String.eqb s "" then BLACK else s in
  mk_colors (f (c_top c)) (f (c_left c)) (f (c_bottom c)) (f (c_right c)) (f (c_insideH c)) (f (c_insideV c)).
(** apitable.go:53-56, 119-122: the colours used, and the caller's struct afterwards *)
Definition use_colors (c : option colors) : colors * option colors :=
  match c with
  | None => (apply_default (mk_colors "" "" "" "" "" ""), None)
  | Some c => (apply_default c, Some (apply_default c))
  end.
(** apitable.go:58-76, 124-142 *)
Definition table_properties (width : i64) (c : colors) : tblpr :=
  let b col := Some (mk_border "single" (i64_of 4) i0 col) in
  mk_tblpr None None
    (Some (if Z.ltb 0 (iv width) then mk_wtype width "" else mk_wtype i0 "auto")) None
    (Some (mk_borders (b (c_top c)) (b (c_left c)) (b (c_bottom c)) (b (c_right c)) (b (c_insideH c)) (b (c_insideV c))))
    (Some (mk_look "0000" i0 i0 i0 i0 i0 i0)).

(** apitable.go:36-51; i is the document *)
Definition auto_cell (i : nat) : cell := mk_cell (Some (set_tcpr_width (Some (mk_wtype i0 "auto")) tcpr0)) [] (Some i).
(** apitable.go:30-84 AddTable. make panics for a negative length; the memory
    limit of make is not modelled. A negative column count panics only when a
    row is made. *)
Definition add_table (i : nat) (r c width : i64) (col : option colors) (d : docx) : res (docx * option colors) :=
  if Z.ltb (iv r) 0 then Panic
  else if (Z.ltb (iv c) 0 && Z.ltb 0 (iv r))%bool then Panic
  else
    let '(cs, col') := use_colors col in
    let rows := repeat (mk_row (Some trpr0) (repeat (auto_cell i) (Z.to_nat (iv c)))) (Z.to_nat (iv r)) in
    Ok (add_item (ITable (mk_table (Some (table_properties width cs)) (Some []) rows)) d, col').

(** apitable.go:89-158 AddTableTwips *)
Definition twips_cell (i : nat) (w : i64) : cell :=
  mk_cell (Some (set_tcpr_width (Some (mk_wtype w "dxa")) tcpr0)) [] (Some i).
Definition twips_row (i : nat) (cw : list i64) (h : i64) : row :=
  mk_row (Some (if Z.ltb 0 (iv h) then set_trpr_height (Some (mk_trheight "" h)) trpr0 else trpr0))
    (map (twips_cell i) cw).
Definition add_table_twips (i : nat) (rh cw : list i64) (width : i64) (col : option colors) (d : docx) : docx * option colors :=
  let '(cs, col') := use_colors col in
  (add_item (ITable (mk_table (Some (table_properties width cs))
     (Some (map (fun w => if Z.ltb 0 (iv w) then Some w else None) cw))
     (map (twips_row i cw) rh))) d, col').

(** apitable.go:168-175 *)
Definition table_justification (v : string) (t : table) : res table :=
  match table_props t with
  | None => Panic
  | Some q => Ok (set_table_props (Some (set_tblpr_jc (Some v) q)) t)
  end.
(** apitable.go:185-192 *)
Definition row_justification (v : string) (r : row) : res row :=
  match row_props r with
  | None => Panic
  | Some q => Ok (set_row_props (Some (set_trpr_jc (Some v) q)) r)
  end.
(** apitable.go:195-202 *)
Definition cell_shade (v color fill : string) (c : cell) : res cell :=
  match cell_props c with
  | None => Panic
  | Some q => Ok (set_cell_props (Some (set_tcpr_shade (Some (mk_shade v color fill "" "")) q)) c)
  end.
