(** Specification: the XML that belongs to a sequence of calls. A document is
    described by plain data ([paper]), the calls change the description, and
    [document_text] and [relations_text] spell the two parts of the file out. *)
From Coq Require Import String Ascii List Bool Arith NArith ZArith.
From Verif Require Import GoStr Num Lib Types Docx Api History SpecSize.
Import ListNotations.
Local Open Scope list_scope.
Local Open Scope string_scope.

(** ** what a document is *)
(** a picture, with its number among the pictures and the number of its
    relationship, or a shape *)
Inductive figure := Photo (k : i64) (ref : N) | Figure (bw prst : string) (w h : i64) (ln : option aline).
(** drawings stand in the line or are anchored; they have a number, a title and a size *)
Inductive piece := Words (s : string) | Tabulator | NewLine | NewPage
| Drawn (anch : bool) (n : i64) (title : string) (w h : i64) (x : figure).
(** the formatting of a run; [None] and [false] mean that nothing was said *)
Record format := mk_format {
  f_font : option (string * string * string * string);
  f_bold : bool; f_italic : bool;
  f_highlight : option string; f_color : option string; f_size : option string; f_sizecs : option string;
  f_spacing : option i64; f_shade : option (string * string * string);
  f_underline : option string; f_strike : option bool
}.
Definition plain : format := mk_format None false false None None None None None None None None.
(** runs, and links with the number of their relationship and the text shown *)
Inductive kid := Run (f : format) (l : list piece) | Link (n : N) (t : string) (f : format) (l : list piece).
(** [s_mark]: font and size of the number, [Some] after NumPr, NumFont or NumSize *)
Record sheet := mk_sheet {
  s_num : option (string * string); s_jc : option string; s_style : option string;
  s_mark : option (option (string * string * string * string) * option string);
  s_kids : list kid
}.
Definition blank : sheet := mk_sheet None None None None [].
Record box := mk_box { b_width : i64; b_type : string; b_shade : option (string * string * string); b_sheets : list sheet }.
Record line := mk_line { l_height : option i64; l_jc : option string; l_boxes : list box }.
Record grid := mk_grid { g_width : i64; g_type : string; g_jc : option string;
  g_top : string; g_left : string; g_bottom : string; g_right : string; g_insideH : string; g_insideV : string;
  g_columns : list i64; g_lines : list line }.
Inductive block := BSheet (s : sheet) | BGrid (g : grid) | BPage (w h : Z).
(** what relationships were made for *)
Inductive ref := ToLink (t : string) | ToImage (format data : string).
(** the blocks, the links and pictures in the order of the calls, and the names
    of all drawings so far *)
Record paper := mk_paper { p_blocks : list block; p_refs : list ref; p_names : list string }.
Definition empty_paper : paper := mk_paper [] [] [].

(** ** what the calls do *)
(** text is divided at tabs and ends of line *)
Fixpoint pieces (t : string) : list piece :=
  match t with
  | EmptyString => []
  | String c t' =>
      if Ascii.eqb c "010" then NewLine :: pieces t'
      else if Ascii.eqb c "009" then Tabulator :: pieces t'
      else match pieces t' with
           | Words s :: l => Words (String c s) :: l
           | l => Words (String c "") :: l
           end
  end.

(** changing the n-th element of a list *)
Fixpoint change {A} (n : nat) (f : A -> option A) (l : list A) : option (list A) :=
  match l, n with
  | [], _ => None
  | x :: l', O => match f x with Some y => Some (y :: l') | None => None end
  | x :: l', S n' => match change n' f l' with Some l'' => Some (x :: l'') | None => None end
  end.

Definition change_format (o : rop) (f : format) : option format :=
  let 'mk_format fo b i hi co si sc sp sh u st := f in
  match o with
  | RFont a e h t => Some (mk_format (Some (a, e, h, t)) b i hi co si sc sp sh u st)
  | RBold => Some (mk_format fo true i hi co si sc sp sh u st)
  | RItalic => Some (mk_format fo b true hi co si sc sp sh u st)
  | RHighlight v => Some (mk_format fo b i (Some v) co si sc sp sh u st)
  | RColor v => Some (mk_format fo b i hi (Some v) si sc sp sh u st)
  | RSize v => Some (mk_format fo b i hi co (Some v) sc sp sh u st)
  | RSizeCs v => Some (mk_format fo b i hi co si (Some v) sp sh u st)
  | RSpacing n => Some (mk_format fo b i hi co si sc (Some n) sh u st)
  | RShade v c l => Some (mk_format fo b i hi co si sc sp (Some (v, c, l)) u st)
  | RUnderline v => Some (mk_format fo b i hi co si sc sp sh (Some v) st)
  | RStrike v => Some (mk_format fo b i hi co si sc sp sh u (Some v))
  | _ => None
  end.
Definition resize (anch : bool) (w h : i64) (x : piece) : option piece :=
  match x with Drawn a n t _ _ g => if Bool.eqb a anch then Some (Drawn a n t w h g) else None | _ => None end.
(** the kinds of content by the names KeepElements is given *)
Definition piece_kind (x : piece) : string :=
  match x with Words _ => "*docx.Text" | Tabulator => "*docx.Tab" | NewLine | NewPage => "*docx.BarterRabbet" | Drawn _ _ _ _ _ _ => "*docx.Drawing" end.
Definition kid_kind (k : kid) : string := match k with Run _ _ => "*docx.Run" | Link _ _ _ _ => "*docx.Hyperlink" end.
Definition block_kind (b : block) : string := match b with BSheet _ => "*docx.Paragraph" | BGrid _ => "*docx.Table" | BPage _ _ => "*docx.SectPr" end.
Definition named {A} (kind : A -> string) (names : list string) (l : list A) : list A :=
  filter (fun x => if in_dec string_dec (kind x) names then true else false) l.
Definition change_kid (o : rop) (k : kid) : option kid :=
  match o, k with
  | RKeep names, Run f l => Some (Run f (named piece_kind names l))
  | RKeep names, Link n t f l => Some (Link n t f (named piece_kind names l))
  | RDrawSize i a w h, Run f l => option_map (Run f) (change i (resize a w h) l)
  | RDrawSize i a w h, Link n t f l => option_map (Link n t f) (change i (resize a w h) l)
  | RAddTab, Run f l => Some (Run f (l ++ [Tabulator])%list)
  | RAddTab, Link n t f l => Some (Link n t f (l ++ [Tabulator])%list)
  | _, Run f l => option_map (fun f' => Run f' l) (change_format o f)
  | _, Link n t f l => option_map (fun f' => Link n t f' l) (change_format o f)
  end.
Definition with_kids (k : list kid) (s : sheet) : sheet :=
  mk_sheet (s_num s) (s_jc s) (s_style s) (s_mark s) k.
(** the shapes that the drop functions remove; pictures stay *)
Definition dropped (name : string) (x : piece) : bool :=
  match x with
  | Drawn _ _ _ _ _ (Figure _ _ _ _ _) => if in_dec string_dec name ["Shape"; "ShapeAndCanvas"; "ShapeAndCanvasAndGroup"; "NilPicture"] then true else false
  | _ => false
  end.
Definition drop_kid (name : string) (k : kid) : kid :=
  match k with Run f l => Run f (filter (fun x => negb (dropped name x)) l) | Link _ _ _ _ => k end.
Definition drop_sheet (name : string) (s : sheet) : sheet := with_kids (map (drop_kid name) (s_kids s)) s.
Definition mark_of (s : sheet) := match s_mark s with Some m => m | None => (None, None) end.
Definition add_kid (k : kid) (s : sheet) : option sheet := Some (with_kids (s_kids s ++ [k])%list s).
(** numbers count from 1: of relationships after the three of every document,
    of drawings, and of drawings of one name *)
Definition next_ref (p : paper) : N := (4 + N.of_nat (length (p_refs p)))%N.
Definition next_number (p : paper) : i64 := i64_of (Z.of_nat (S (length (p_names p)))).
Definition next_of (name : string) (p : paper) : Z := Z.of_nat (S (count_occ string_dec (p_names p) name)).
Definition PICTURE : string := "图片".
(** a call on a paragraph of the document [p]. A picture is fitted to the page;
    a file that is not a picture changes nothing. *)
Definition change_sheet `{GoLib} (p : paper) (o : pop) (s : sheet) : option sheet :=
  match o with
  | ODrawing anch data =>
      match lib_imgsize data with
      | None => Some s
      | Some (w, h, _) =>
          if (Z.ltb 0 (iv w) && Z.ltb (iv w) (2 ^ 40) && Z.leb 0 (iv h) && Z.ltb (iv h) (2 ^ 40))%bool then
            let (w', h') := fitted (iv w) (iv h) in
            add_kid (Run plain [Drawn anch (next_number p) (PICTURE ++ " " ++ itoa (next_of PICTURE p)) (i64_of w') (i64_of h')
              (Photo (i64_of (next_of PICTURE p)) (next_ref p))]) s
          else None
      end
  | OShape anch w h name bw prst ln =>
      add_kid (Run plain [Drawn anch (next_number p) (name ++ " " ++ itoa (next_of name p)) w h (Figure bw prst w h ln)]) s
  | OText t => add_kid (Run plain (pieces t)) s
  | OTab => add_kid (Run plain [Tabulator]) s
  | OBreak => add_kid (Run plain [NewPage]) s
  | OLink t _ => add_kid (Link (next_ref p) t plain []) s
  | ORun k r => option_map (fun l => with_kids l s) (change k (change_kid r) (s_kids s))
  | OJc v => Some (mk_sheet (s_num s) (Some v) (s_style s) (s_mark s) (s_kids s))
  | OStyle v => Some (mk_sheet (s_num s) (s_jc s) (Some v) (s_mark s) (s_kids s))
  | ONum i l => Some (mk_sheet (Some (i, l)) (s_jc s) (s_style s) (Some (mark_of s)) (s_kids s))
  | ONumFont a e h t => Some (mk_sheet (s_num s) (s_jc s) (s_style s) (Some (Some (a, e, h, t), snd (mark_of s))) (s_kids s))
  | ONumSize v => Some (mk_sheet (s_num s) (s_jc s) (s_style s) (Some (fst (mark_of s), Some v)) (s_kids s))
  | OKeepP names => Some (with_kids (named kid_kind names (s_kids s)) s)
  | ODropP name => Some (drop_sheet name s)
  end.

Definition change_grid (i : nat) (f : grid -> option grid) : list block -> option (list block) :=
  change i (fun b => match b with BGrid g => option_map BGrid (f g) | _ => None end).
Definition with_lines (l : list line) (g : grid) : grid :=
  mk_grid (g_width g) (g_type g) (g_jc g) (g_top g) (g_left g) (g_bottom g) (g_right g) (g_insideH g) (g_insideV g) (g_columns g) l.
Definition with_jc (v : string) (g : grid) : grid :=
  mk_grid (g_width g) (g_type g) (Some v) (g_top g) (g_left g) (g_bottom g) (g_right g) (g_insideH g) (g_insideV g) (g_columns g) (g_lines g).
Definition change_line (i r : nat) (f : line -> option line) : list block -> option (list block) :=
  change_grid i (fun g => option_map (fun l => with_lines l g) (change r f (g_lines g))).
Definition change_box (i r c : nat) (f : box -> option box) : list block -> option (list block) :=
  change_line i r (fun x => option_map (fun l => mk_line (l_height x) (l_jc x) l) (change c f (l_boxes x))).
Definition change_at (a : addr) (f : sheet -> option sheet) : list block -> option (list block) :=
  match a with
  | ABody i => change i (fun b => match b with BSheet s => option_map BSheet (f s) | _ => None end)
  | ACell i r c k => change_box i r c (fun x => option_map (fun l => mk_box (b_width x) (b_type x) (b_shade x) l) (change k f (b_sheets x)))
  end.

Definition drop_block (name : string) (b : block) : block :=
  match b with
  | BSheet s => BSheet (drop_sheet name s)
  | BGrid g => BGrid (with_lines (map (fun x => mk_line (l_height x) (l_jc x)
                 (map (fun y => mk_box (b_width y) (b_type y) (b_shade y) (map (drop_sheet name) (b_sheets y))) (l_boxes x))) (g_lines g)) g)
  | BPage _ _ => b
  end.

(** the six colours of a table, black where none is given *)
Definition new_grid (width : i64) (col : option colors) (columns : list i64) (l : list line) : grid :=
  let c f := match col with Some x => if String.eqb (f x) "" then "#000000" else f x | None => "#000000" end in
  mk_grid (if Z.ltb 0 (iv width) then width else i0) (if Z.ltb 0 (iv width) then "" else "auto") None
    (c c_top) (c c_left) (c c_bottom) (c c_right) (c c_insideH) (c c_insideV) columns l.

(** what a call adds to the relationships and to the names *)
Definition new_refs `{GoLib} (o : pop) : list ref :=
  match o with
  | OLink _ t => [ToLink t]
  | ODrawing _ data => match lib_imgsize data with Some (_, _, f) => [ToImage f data] | None => [] end
  | _ => []
  end.
Definition new_names `{GoLib} (o : pop) : list string :=
  match o with
  | ODrawing _ data => match lib_imgsize data with Some _ => [PICTURE] | None => [] end
  | OShape _ _ _ name _ _ _ => [name]
  | _ => []
  end.

(** one call on the document; [None]: it is not one of those described here, or
    it names something that is not there *)
Definition write_call `{GoLib} (o : op) (p : paper) : option paper :=
  let b := p_blocks p in let set b' := mk_paper b' (p_refs p) (p_names p) in
  let at_blocks x := match x with Some b' => Some (set b') | None => None end in
  match o with
  | OAddPara 0 => Some (set (b ++ [BSheet blank])%list)
  | OCellPara 0 i r c => at_blocks (change_box i r c (fun x => Some (mk_box (b_width x) (b_type x) (b_shade x) (b_sheets x ++ [blank])%list)) b)
  | OTable 0 r c width col =>
      if (Z.ltb (iv r) 0 || Z.ltb (iv c) 0)%bool then None
      else Some (set (b ++ [BGrid (new_grid width col [] (repeat (mk_line None None (repeat (mk_box i0 "auto" None []) (Z.to_nat (iv c)))) (Z.to_nat (iv r))))])%list)
  | OTwips 0 rh cw width col =>
      Some (set (b ++ [BGrid (new_grid width col (filter (fun x => Z.ltb 0 (iv x)) cw)
        (map (fun h => mk_line (if Z.ltb 0 (iv h) then Some h else None) None (map (fun x => mk_box x "dxa" None []) cw)) rh))])%list)
  | OTableJc 0 i v => at_blocks (change_grid i (fun g => Some (with_jc v g)) b)
  | ORowJc 0 i r v => at_blocks (change_line i r (fun x => Some (mk_line (l_height x) (Some v) (l_boxes x))) b)
  | OCellShade 0 i r c v co fi => at_blocks (change_box i r c (fun x => Some (mk_box (b_width x) (b_type x) (Some (v, co, fi)) (b_sheets x))) b)
  | OPage 0 a3 => Some (set (b ++ [if a3 then BPage 16838 23811 else BPage 11906 16838])%list)
  | OTemplate 0 _ => Some p
  | OKeep 0 names => Some (set (named block_kind names b))
  | ODropAll 0 name => Some (set (map (drop_block name) b))
  | OPara 0 a q =>
      match change_at a (change_sheet p q) b with
      | Some b' => Some (mk_paper b' (p_refs p ++ new_refs q)%list (p_names p ++ new_names q)%list)
      | None => None
      end
  | _ => None
  end.
Fixpoint write_calls `{GoLib} (l : list op) (p : paper) : option paper :=
  match l with
  | [] => Some p
  | o :: l' => match write_call o p with Some p' => write_calls l' p' | None => None end
  end.

(** the template in use after some calls *)
Definition template (o : op) (t : tmpl) : tmpl := match o with OTemplate _ x => x | _ => t end.
Fixpoint templates (l : list op) (t : tmpl) : tmpl := match l with [] => t | o :: l' => templates l' (template o t) end.

(** ** how it is spelled; [c] is what becomes of a string that XML cannot represent *)
Section Text.
Variable c : string -> string.

Definition Q : string := String "034" "".
(** characters that would be markup, and control characters, as references *)
Fixpoint quoted (s : string) : string :=
  match s with
  | EmptyString => ""
  | String a s' =>
      (if Ascii.eqb a "034" then "&#34;" else if Ascii.eqb a "'" then "&#39;" else if Ascii.eqb a "&" then "&amp;"
       else if Ascii.eqb a "<" then "&lt;" else if Ascii.eqb a ">" then "&gt;"
       else if Ascii.eqb a "009" then "&#x9;" else if Ascii.eqb a "010" then "&#xA;" else if Ascii.eqb a "013" then "&#xD;"
       else String a "") ++ quoted s'
  end.
Definition attribute (n v : string) : string := " " ++ n ++ "=" ++ Q ++ quoted (c v) ++ Q.
(** left out when empty or zero *)
Definition attribute' (n v : string) : string := if String.eqb v "" then "" else attribute n v.
Definition number (n : string) (z : Z) : string := " " ++ n ++ "=" ++ Q ++ itoa z ++ Q.
Definition number' (n : string) (z : Z) : string := if Z.eqb z 0 then "" else number n z.
Definition element (n attrs content : string) : string := "<" ++ n ++ attrs ++ ">" ++ content ++ "</" ++ n ++ ">".
Definition maybe {A} (f : A -> string) (o : option A) : string := match o with Some x => f x | None => "" end.
Definition value (n v : string) : string := element n (attribute "w:val" v) "".
Definition value' (n v : string) : string := element n (attribute' "w:val" v) "".
Definition each {A} (f : A -> string) (l : list A) : string := sconcat (map f l).

Definition font_text (x : string * string * string * string) : string :=
  let '(a, e, h, t) := x in
  element "w:rFonts" (attribute' "w:ascii" a ++ attribute' "w:eastAsia" e ++ attribute' "w:hAnsi" h ++ attribute' "w:hint" t) "".
Definition shade_text (x : string * string * string) : string :=
  let '(v, co, f) := x in element "w:shd" (attribute' "w:val" v ++ attribute' "w:color" co ++ attribute' "w:fill" f) "".
Definition format_text (link : bool) (f : format) : string :=
  element "w:rPr" ""
    (maybe font_text (f_font f) ++ (if f_bold f then element "w:b" "" "" else "") ++ (if f_italic f then element "w:i" "" "" else "") ++
     maybe (value' "w:highlight") (f_highlight f) ++ maybe (value "w:color") (f_color f) ++ maybe (value "w:sz") (f_size f) ++
     maybe (value "w:szCs") (f_sizecs f) ++ maybe (fun z => element "w:spacing" (number' "w:line" (iv z)) "") (f_spacing f) ++
     (if link then value "w:rStyle" "a3" else "") ++ maybe shade_text (f_shade f) ++ maybe (value' "w:u") (f_underline f) ++
     maybe (fun b : bool => value "w:strike" (if b then "true" else "false")) (f_strike f)).
Definition size_text (n : string) (w h : i64) : string := element n (number "cx" (iv w) ++ number "cy" (iv h)) "".
Definition place_text (w h : i64) (prst : string) : string :=
  element "a:xfrm" "" (element "a:off" (number "x" 0 ++ number "y" 0) "" ++ size_text "a:ext" w h) ++
  element "a:prstGeom" (attribute "prst" prst) "".
Definition end_text (n : string) (x : lend) : string :=
  element n (attribute' "type" (lend_type x) ++ attribute' "w" (lend_w x) ++ attribute' "len" (lend_len x)) "".
Definition stroke_text (x : aline) : string :=
  element "a:ln" (number' "w" (iv (aline_w x)) ++ attribute' "cap" (aline_cap x) ++ attribute' "cmpd" (aline_cmpd x) ++ attribute' "algn" (aline_algn x))
    ((if aline_noFill x then element "a:noFill" "" "" else "") ++
     maybe (fun o => element "a:solidFill" "" (maybe (fun v => element "a:srgbClr" (attribute "val" v) "") o)) (aline_solid x) ++
     maybe (fun v => element "a:prstDash" (attribute "val" v) "") (aline_dash x) ++ maybe (fun v => element "a:miter" (attribute "lim" v) "") (aline_miter x) ++
     (if aline_round x then element "a:round" "" "" else "") ++ maybe (end_text "a:headEnd") (aline_head x) ++ maybe (end_text "a:tailEnd") (aline_tail x)).
Definition DRAWINGML : string := "http://schemas.openxmlformats.org/drawingml/2006/main".
Definition photo_text (k : i64) (title : string) (ref : N) (w h : i64) : string :=
  element "pic:pic" (attribute "xmlns:pic" "http://schemas.openxmlformats.org/drawingml/2006/picture")
    (element "pic:nvPicPr" "" (element "pic:cNvPr" (number "id" (iv k) ++ attribute "name" title) "" ++ element "pic:cNvPicPr" "" "") ++
     element "pic:blipFill" "" (element "a:blip" (attribute "r:embed" ("rId" ++ utoa ref) ++ attribute "cstate" "print") "" ++ element "a:stretch" "" "") ++
     element "pic:spPr" "" (place_text w h "rect")).
Definition figure_text (bw prst : string) (w h : i64) (ln : option aline) : string :=
  element "wps:wsp" ""
    (element "wps:cNvCnPr" "" (element "a:cxnSpLocks" "" "") ++
     element "wps:spPr" (attribute "bwMode" bw) (place_text w h prst ++ element "a:noFill" "" "" ++ maybe stroke_text ln) ++
     element "wps:bodyPr" (number "rot" 0 ++ number "lIns" 0 ++ number "tIns" 0 ++ number "rIns" 0 ++ number "bIns" 0 ++
       number "anchorCtr" 0 ++ number "upright" 0) "").
(** the frame, the same for both kinds of drawings and for both kinds of places *)
Definition drawn_text (anch : bool) (n : i64) (title : string) (w h : i64) (x : figure) : string :=
  let dist := number "distT" 0 ++ number "distB" 0 ++ number "distL" 0 ++ number "distR" 0 in
  let size := size_text "wp:extent" w h ++ element "wp:effectExtent" (number "l" 0 ++ number "t" 0 ++ number "r" 0 ++ number "b" 0) "" in
  let rest :=
    element "wp:docPr" (number "id" (iv n) ++ attribute' "name" title) "" ++
    element "wp:cNvGraphicFramePr" ""
      (element "a:graphicFrameLocks" (attribute "xmlns:a" DRAWINGML ++ match x with Photo _ _ => number "noChangeAspect" 1 | _ => "" end) "") ++
    element "a:graphic" (attribute "xmlns:a" DRAWINGML)
      (match x with
       | Photo k ref => element "a:graphicData" (attribute "uri" "http://schemas.openxmlformats.org/drawingml/2006/picture") (photo_text k title ref w h)
       | Figure bw prst w' h' ln => element "a:graphicData" (attribute "uri" "http://schemas.microsoft.com/office/word/2010/wordprocessingShape") (figure_text bw prst w' h' ln)
       end) in
  element "w:drawing" ""
    (if anch then
       element "wp:anchor"
         (dist ++ number "simplePos" 0 ++ number "relativeHeight" 0 ++ number "behindDoc" 0 ++ number "locked" 0 ++ number "layoutInCell" 1 ++ number "allowOverlap" 1)
         (element "wp:simplePos" (number "x" 0 ++ number "y" 0) "" ++
          element "wp:positionH" (attribute "relativeFrom" "column") (element "wp:posOffset" "" "0") ++
          element "wp:positionV" (attribute "relativeFrom" "paragraph") (element "wp:posOffset" "" "0") ++
          size ++ element "wp:wrapNone" "" "" ++ rest)
     else element "wp:inline" dist (size ++ rest)).
Definition piece_text (x : piece) : string :=
  match x with
  | Words s => element "w:t" "" (quoted (c s))
  | Tabulator => element "w:tab" "" ""
  | NewLine => element "w:br" "" ""
  | NewPage => element "w:br" (attribute "w:type" "page") ""
  | Drawn anch n title w h g => drawn_text anch n title w h g
  end.
Definition kid_text (k : kid) : string :=
  match k with
  | Run f l => element "w:r" "" (format_text false f ++ each piece_text l)
  | Link n t f l =>
      element "w:hyperlink" (attribute "r:id" ("rId" ++ utoa n))
        (element "w:r" "" (format_text true f ++ (if String.eqb t "" then "" else element "w:instrText" "" (quoted (c t))) ++ each piece_text l))
  end.
Definition sheet_text (s : sheet) : string :=
  element "w:p" ""
    ((match s_num s, s_jc s, s_style s, s_mark s with
      | None, None, None, None => ""
      | _, _, _, _ =>
          element "w:pPr" ""
            (maybe (fun x => element "w:numPr" "" (value "w:numId" (fst x) ++ value "w:ilvl" (snd x))) (s_num s) ++
             maybe (value "w:jc") (s_jc s) ++ maybe (value "w:pStyle") (s_style s) ++
             maybe (fun m => element "w:rPr" "" (maybe font_text (fst m) ++ maybe (value "w:sz") (snd m))) (s_mark s))
      end) ++ each kid_text (s_kids s)).
Definition width_text (n : string) (w : i64) (t : string) : string := element n (number "w:w" (iv w) ++ attribute "w:type" t) "".
Definition box_text (x : box) : string :=
  element "w:tc" "" (element "w:tcPr" "" (width_text "w:tcW" (b_width x) (b_type x) ++ maybe shade_text (b_shade x)) ++ each sheet_text (b_sheets x)).
Definition line_text (x : line) : string :=
  element "w:tr" "" (element "w:trPr" "" (maybe (fun h => element "w:trHeight" (number "w:val" (iv h)) "") (l_height x) ++ maybe (value "w:jc") (l_jc x)) ++ each box_text (l_boxes x)).
Definition border_text (n col : string) : string :=
  element n (attribute "w:val" "single" ++ number "w:sz" 4 ++ attribute' "w:color" col) "".
Definition grid_text (g : grid) : string :=
  element "w:tbl" ""
    (element "w:tblPr" ""
       (width_text "w:tblW" (g_width g) (g_type g) ++ maybe (value "w:jc") (g_jc g) ++
        element "w:tblBorders" "" (border_text "w:top" (g_top g) ++ border_text "w:left" (g_left g) ++ border_text "w:bottom" (g_bottom g) ++
          border_text "w:right" (g_right g) ++ border_text "w:insideH" (g_insideH g) ++ border_text "w:insideV" (g_insideV g)) ++
        element "w:tblLook" (attribute "w:val" "0000" ++ number "w:firstRow" 0 ++ number "w:lastRow" 0 ++ number "w:firstColumn" 0 ++
          number "w:lastColumn" 0 ++ number "w:noHBand" 0 ++ number "w:noVBand" 0) "") ++
     element "w:tblGrid" "" (each (fun z => element "w:gridCol" (number "w:w" (iv z)) "") (g_columns g)) ++
     each line_text (g_lines g)).
Definition block_text (b : block) : string :=
  match b with
  | BSheet s => sheet_text s
  | BGrid g => grid_text g
  | BPage w h => element "w:sectPr" "" (element "w:pgSz" (number "w:w" w ++ number "w:h" h) "")
  end.

Definition HEADER : string := "<?xml version=" ++ Q ++ "1.0" ++ Q ++ " encoding=" ++ Q ++ "UTF-8" ++ Q ++ "?>" ++ String "010" "".
Definition document_text (p : paper) : string :=
  HEADER ++
  element "w:document"
    (attribute "xmlns:w" "http://schemas.openxmlformats.org/wordprocessingml/2006/main" ++
     attribute "xmlns:r" "http://schemas.openxmlformats.org/officeDocument/2006/relationships" ++
     attribute "xmlns:wp" "http://schemas.openxmlformats.org/drawingml/2006/wordprocessingDrawing" ++
     attribute "xmlns:wps" "http://schemas.microsoft.com/office/word/2010/wordprocessingShape" ++
     attribute "xmlns:wpc" "http://schemas.microsoft.com/office/word/2010/wordprocessingCanvas" ++
     attribute "xmlns:wpg" "http://schemas.microsoft.com/office/word/2010/wordprocessingGroup")
    (element "w:body" "" (each block_text (p_blocks p))).

Definition relation (n : N) (ty target more : string) : string :=
  element "Relationship" (attribute "Id" ("rId" ++ utoa n) ++
    attribute "Type" ("http://schemas.openxmlformats.org/officeDocument/2006/relationships/" ++ ty) ++ attribute "Target" target ++ more) "".
(** the links and pictures get the numbers from 4 on; [k] pictures before *)
Definition image_name (k : N) (format : string) : string := "image" ++ utoa k ++ "." ++ format.
Fixpoint ref_relations (n k : N) (l : list ref) : string :=
  match l with
  | [] => ""
  | ToLink t :: l' => relation n "hyperlink" t (attribute "TargetMode" "External") ++ ref_relations (n + 1) k l'
  | ToImage f _ :: l' => relation n "image" ("media/" ++ image_name (k + 1) f) "" ++ ref_relations (n + 1) (k + 1) l'
  end.
Definition relations_text (p : paper) : string :=
  HEADER ++
  element "Relationships" (attribute "xmlns" "http://schemas.openxmlformats.org/package/2006/relationships")
    (relation 1 "styles" "styles.xml" "" ++ relation 2 "theme" "theme/theme1.xml" "" ++ relation 3 "fontTable" "fontTable.xml" "" ++
     ref_relations 4 0 (p_refs p)).
End Text.

(** the pictures in the file *)
Fixpoint image_parts (k : N) (l : list ref) : list (string * option string) :=
  match l with
  | [] => []
  | ToLink _ :: l' => image_parts k l'
  | ToImage f data :: l' => ("word/media/" ++ image_name (k + 1) f, Some data) :: image_parts (k + 1) l'
  end.
(** names that a ZIP archive can give to a file *)
Definition file_names (l : list (string * option string)) : Prop :=
  forall x, In x l -> (N.of_nat (String.length (fst x)) <= 65535)%N /\ forall s, fst x <> s ++ "/".
