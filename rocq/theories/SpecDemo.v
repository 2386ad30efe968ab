(** What cmd/main prints about the document that it makes itself. *)
From Coq Require Import String Ascii List ZArith.
From Verif Require Import Num Lib Types Docx SpecApi SpecSize.
Import ListNotations.
Local Open Scope string_scope.

Definition newline := String "010"%char "".
Definition tabulator := String "009"%char "".
(** lines with line ends between them *)
Definition text_lines (l : list string) : string := String.concat newline l.
(** a picture in a text: its kind, its number and the hash of its data *)
Definition picture_text (kind number hash : string) : string := "![" ++ kind ++ " 图片 " ++ number ++ "](" ++ hash ++ ")".

(** a table in a text *)
Definition row_text (l : list string) : string := "|" ++ String.concat "" (map (fun c => " " ++ c ++ " |") l).
Definition table_text (t : list (list string)) : string := text_lines (("| " ++ String.concat "" (map (fun _ => " :----: |") (hd [] t)))%string :: map row_text t).
(** RRGGBB: a row for each red, 28 apart; the greens and blues of the columns are
    multiples of 85 *)
Definition colors : list (list string) :=
  [["1C0055"; "1C00AA"; "1C55FF"; "1C5555"; "1C55AA"; "1CAAFF"; "1CAA55"; "1CAAAA"; "1CFFFF"];
   ["380055"; "3800AA"; "3855FF"; "385555"; "3855AA"; "38AAFF"; "38AA55"; "38AAAA"; "38FFFF"];
   ["540055"; "5400AA"; "5455FF"; "545555"; "5455AA"; "54AAFF"; "54AA55"; "54AAAA"; "54FFFF"];
   ["700055"; "7000AA"; "7055FF"; "705555"; "7055AA"; "70AAFF"; "70AA55"; "70AAAA"; "70FFFF"];
   ["8C0055"; "8C00AA"; "8C55FF"; "8C5555"; "8C55AA"; "8CAAFF"; "8CAA55"; "8CAAAA"; "8CFFFF"];
   ["A80055"; "A800AA"; "A855FF"; "A85555"; "A855AA"; "A8AAFF"; "A8AA55"; "A8AAAA"; "A8FFFF"];
   ["C40055"; "C400AA"; "C455FF"; "C45555"; "C455AA"; "C4AAFF"; "C4AA55"; "C4AAAA"; "C4FFFF"];
   ["E00055"; "E000AA"; "E055FF"; "E05555"; "E055AA"; "E0AAFF"; "E0AA55"; "E0AAAA"; "E0FFFF"];
   ["FC0055"; "FC00AA"; "FC55FF"; "FC5555"; "FC55AA"; "FCAAFF"; "FCAA55"; "FCAAAA"; "FCFFFF"]].
Definition pairs : list (list string) := [["(0, 0)"; "(0, 1)"]; ["(1, 0)"; "(1, 1)"]; ["(2, 0)"; "(2, 1)"]].
(** the paragraphs and tables of the demo document; [j], [w] and [p] are the
    hashes of its three pictures *)
Definition demo_texts (j w p : string) (shapes : bool) : list string :=
  [picture_text "anchim" "1" j ++ String.concat tabulator ["test"; "size"; "color"; "shade"; "bold"; "italic"; "underline"; "highlight"; "font"; ""];
   "test all font attrs";
   "[google](http://google.com)";
   "一行2个 inline";
   picture_text "inlnim" "2" j ++ tabulator ++ tabulator ++ picture_text "inlnim" "3" w;
   newline;
   "一行1个 横向 inline";
   picture_text "inlnim" "4" p;
   "";
   table_text colors;
   "";
   table_text pairs;
   "测试 AutoShape w:ln" ++ (if shapes then "![anchsp AutoShape 1](straightConnector1)![inlnsp AutoShape 2](straightConnector1)" else "")].

(** ** the look of it *)
Definition opt {A} (f : A -> string) (o : option A) : list string := match o with Some v => [f v] | None => [] end.
Definition run_look (r : run) : list (string * list string) :=
  match flat_map (fun c => match c with RText t => [text_text t] | _ => [] end) (runR_children r), runR_rpr r with
  | t :: l, Some q =>
      [(String.concat "" (t :: l),
        opt (fun v => ("size " ++ v)%string) (rpr_size q) ++ opt (fun v => ("color " ++ v)%string) (rpr_color q) ++ opt (fun v => ("fill " ++ shade_fill v)%string) (rpr_shade q) ++
        (if rpr_bold q then ["bold"] else []) ++ (if rpr_italic q then ["italic"] else []) ++ opt (fun v => ("underline " ++ v)%string) (rpr_underline q) ++
        opt (fun v => ("highlight " ++ v)%string) (rpr_highlight q) ++ opt (fun v => ("font " ++ rfonts_ascii v ++ " " ++ rfonts_hint v)%string) (rpr_fonts q))%list]
  | _, _ => []
  end.
Definition para_looks (p : para) : list (string * list string) := flat_map (fun c => match c with PRun r => run_look r | _ => [] end) (para_children p).
Definition aligned (p : para) : option string := match para_ppr p with Some q => ppr_jc q | None => None end.
Definition looks (l : list item) : list (option string * list (string * list string)) :=
  flat_map (fun x => match x with IPara p => [(aligned p, para_looks p)] | _ => [] end) l.
(** for a cell: its fill, its vertical alignment, its paragraphs; for a row: its
    alignment, its height, its cells; for a table: its alignment, its columns, its rows *)
Definition cell_looks := (option string * option string * list (option string * list (string * list string)))%type.
Definition row_looks := (option string * option Z * list cell_looks)%type.
Definition cell_look (c : cell) : cell_looks :=
  (match cell_props c with Some q => option_map shade_fill (tcpr_shade q) | None => None end,
   match cell_props c with Some q => tcpr_vAlign q | None => None end,
   map (fun p => (aligned p, para_looks p)) (cell_paras c)).
Definition row_look (r : row) : row_looks :=
  (match row_props r with Some q => trpr_jc q | None => None end,
   match row_props r with Some q => option_map (fun h => iv (trheight_val h)) (trpr_height q) | None => None end,
   map cell_look (row_cells r)).
Definition tables (l : list item) : list (option string * list Z * list row_looks) :=
  flat_map (fun x => match x with
    | ITable t => [(match table_props t with Some q => tblpr_jc q | None => None end,
                    flat_map (fun g => match g with Some w => [iv w] | None => [] end) (match table_grid t with Some g => g | None => [] end),
                    map row_look (table_rows t))]
    | _ => [] end) l.
(** the drawings *)
Definition drawings (l : list item) : list rchild :=
  flat_map (fun x => match x with
    | IPara p => flat_map (fun c => match c with PRun r => filter (fun k => match k with RDraw _ _ => true | _ => false end) (runR_children r) | _ => [] end) (para_children p)
    | _ => [] end) l.
(** behind the text, how far from the left, how opaque *)
Definition placed (c : rchild) : option (Z * Z * option Z) :=
  match c with
  | RDraw None (Some a) =>
      match anchorR_posH a, graphic_pic (anchorR_graphic a) with
      | Some h, Some p => match pic_blip p with Some b => Some (iv (anchorR_behindDoc a), iv (wpos_off h), option_map iv (ablip_alpha (picblip_blip b))) | None => None end
      | _, _ => None
      end
  | _ => None
  end.
Definition demo_looks : list (option string * list (string * list string)) :=
  [(Some "distribute", [("test", []); ("size", ["size 44"]); ("color", ["color 808080"]); ("shade", ["fill E7E6E6"]); ("bold", ["bold"]); ("italic", ["italic"]);
                        ("underline", ["underline double"]); ("highlight", ["highlight yellow"]); ("font", ["font Consolas cs"])]);
   (Some "end", [("test all font attrs", ["size 44"; "color ff0000"; "fill E7E6E6"; "bold"; "italic"; "underline wave"; "highlight yellow"; "font Consolas cs"])]);
   (None, []);
   (Some "center", [("一行2个 inline", ["size 44"])]);
   (Some "center", []);
   (None, []);
   (Some "center", [("一行1个 横向 inline", ["size 44"])]);
   (None, []); (None, []); (None, []);
   (Some "center", [("测试 AutoShape w:ln", ["size 44"])])].
Definition demo_tables : list (option string * list Z * list row_looks) :=
  [(None, [], map (fun l => (None, None, map (fun c => (Some c, None, [(None, [(c, ["size 18"])])])) l)) colors);
   (Some "center", [2333; 2333]%Z,
    [(Some "center", Some 2333%Z, [(Some "E7E6E6", Some "center", [(Some "center", [("(0, 0)", [])])]); (None, Some "center", [(Some "center", [("(0, 1)", [])])])]);
     (Some "center", Some 2333%Z, [(None, Some "center", [(Some "center", [("(1, 0)", [])])]); (None, Some "center", [(Some "center", [("(1, 1)", [])])])]);
     (Some "center", Some 2333%Z, [(None, Some "center", [(Some "center", [("(2, 0)", [])])]); (None, Some "center", [(Some "center", [("(2, 1)", [])])])])])].
(** for a shape: how wide its line is, its color, whether it has round joins and both ends *)
Definition outline (c : rchild) : list (Z * option (option string) * bool * bool * bool) :=
  let g := match c with RDraw (Some x) None => inlineR_graphic x | RDraw None (Some x) => anchorR_graphic x | _ => None end in
  match g with
  | Some y => match graphicR_data y with
              | Some z => match gdataR_shape z with
                          | Some (Shape s) => match shapeR_sp s with
                                              | Some q => match sppr_line q with
                                                          | Some n => [(iv (aline_w n), aline_solid n, aline_round n, match aline_head n with Some _ => true | None => false end, match aline_tail n with Some _ => true | None => false end)]
                                                          | None => []
                                                          end
                                              | None => []
                                              end
                          | None => []
                          end
              | None => []
              end
  | None => []
  end.
Definition demo_outlines : list (Z * option (option string) * bool * bool * bool) := repeat (9525%Z, Some (Some "000000"), true, true, true) 2.
Definition quarter (s : Z * Z) : Z * Z := (fst s / 4, snd s / 4)%Z.
Definition four_fifths (s : Z * Z) : Z * Z := (fst s * 4 / 5, snd s * 4 / 5)%Z.
(** a file that holds a picture with a width *)
Definition picture_in {L : GoLib} (rd : string -> res string) (f fmt data : string) (w h : i64) : Prop :=
  rd f = Ok data /\ lib_imgsize data = Some (w, h, fmt) /\ iv w <> 0%Z.
