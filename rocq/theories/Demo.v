(** The document that cmd/main/main.go makes when it is run without -a
    (lines 46-169). *)
From Coq Require Import String Ascii List Bool Arith NArith ZArith.
From Verif Require Import GoStr Num Lib Types Docx Api Keep Copy Text Pack Theme History Cmd.
Import ListNotations.
Local Open Scope list_scope.
Local Open Scope string_scope.

(** What the program does to the document: a call of the package, or one of the
    things it does to fields. Items of the body are named by their place, the
    children of a paragraph likewise; [r.Children[0]] is always meant. *)
Inductive step :=
| Do (o : op)
| Pic (i : nat) (anch : bool) (file : string)
| Scale (i k : nat) (anch : bool) (num den : Z)
| Behind (i k : nat)
| Middle (i r c : nat).

(** Size(Extent.CX*num/den, Extent.CY*num/den): main.go:56, 91, 97 (int64, no
    multiplication in line 56) *)
Definition scaled (num den : Z) (v : i64) : i64 := iquot (imul v (i64_of num)) (i64_of den).
Definition scale_child (anch : bool) (num den : Z) (c : rchild) : res rchild :=
  match match c, anch with
        | RDraw (Some x) _, false => inlineR_extent x
        | RDraw _ (Some x), true => anchorR_extent x
        | _, _ => None
        end with
  | None => Panic
  | Some e => child_size anch (scaled num den (xy_x e)) (scaled num den (xy_y e)) c
  end.
(** main.go:57-59: BehindDoc, PosOffset and AlphaModFix are assigned; any nil on the way panics *)
Definition behind_child (c : rchild) : res rchild :=
  match c with
  | RDraw i (Some a) =>
      match anchorR_posH a, anchorR_extent a, anchorR_graphic a with
      | Some h, Some e, Some g =>
          match graphicR_data g with
          | Some d =>
              match gdataR_pic d with
              | Some p =>
                  match pic_blip p with
                  | Some b =>
                      let b' := set_picblip_blip (set_ablip_alpha (Some (i64_of 50000)) (picblip_blip b)) b in
                      let g' := set_graphicR_data (Some (set_gdataR_pic (Some (set_pic_blip (Some b') p)) d)) g in
                      Ok (RDraw i (Some (set_anchorR_graphic (Some g') (set_anchorR_posH (Some (set_wpos_off (xy_x e) h)) (set_anchorR_behindDoc (i64_of 1) a)))))
                  | None => Panic
                  end
              | None => Panic
              end
          | None => Panic
          end
      | _, _, _ => Panic
      end
  | _ => Panic
  end.
(** the first child of the run that is the k-th child of the i-th item, of the
    first document *)
Definition on_child (i k : nat) (f : rchild -> res rchild) (w : world) : res world :=
  on_doc w 0 (fun x =>
    match get_para (d_items x) (ABody i) with
    | None => Panic
    | Some p =>
        match nth_error (para_children p) k with
        | Some (PRun r) =>
            match runR_children r with
            | c :: l => bind (f c) (fun c' => Ok (set_d_items (put_para (d_items x) (ABody i) (set_para_children (set_nth (para_children p) k (PRun (set_runR_children (c' :: l) r))) p)) x))
            | [] => Panic
            end
        | _ => Panic
        end
    end).
(** main.go:129: c.TableCellProperties.VAlign = &docx.WVerticalAlignment{Val: "center"} *)
Definition middle_cell (c : cell) : res cell :=
  match cell_props c with
  | None => Panic
  | Some q => Ok (set_cell_props (Some (set_tcpr_vAlign (Some "center") q)) c)
  end.
Definition on_cell (i r c : nat) (f : cell -> res cell) (w : world) : res world :=
  on_doc w 0 (fun x =>
    match get_cell (d_items x) i r c with
    | None => Panic
    | Some v => bind (f v) (fun v' => Ok (set_d_items (put_cell (d_items x) i r c v') x))
    end).

(** fmt %02X, for numbers below 256 *)
Definition hex_digit (n : nat) : ascii := nth n (list_ascii_of_string "0123456789ABCDEF") "?"%char.
Definition hex2 (n : nat) : string := String (hex_digit (n / 16)) (String (hex_digit (n mod 16)) "").
(** main.go:114-118 *)
Definition color_at (x y : nat) : string := hex2 ((x + 1) * 28) ++ hex2 (((y + 1) / 3) * 85) ++ hex2 ((y mod 3 + 1) * 85).
(** main.go:130 *)
Definition pair_at (x y : nat) : string := "(" ++ itoa (Z.of_nat x) ++ ", " ++ itoa (Z.of_nat y) ++ ")".
(** main.go:138-144, 147-153 *)
Definition demo_line : aline := mk_aline (i64_of 9525) "" "" "" false (Some (Some "000000")) None None true (Some lend0) (Some lend0).

Definition JPG := "testdata/fumiama.JPG".
Definition WEBP := "testdata/fumiama2x.webp".
Definition PNG := "testdata/fumiamayoko.png".

(** AddText and setters of the run it makes, which is the k-th child of the i-th item *)
Definition styled (i k : nat) (t : string) (l : list rop) : list step :=
  (Do (OPara 0 (ABody i) (OText t)) :: map (fun o => Do (OPara 0 (ABody i) (ORun k o))) l)%list.
Definition centered (i : nat) (v : string) : list step := [Do (OAddPara 0); Do (OPara 0 (ABody i) (OJc v))].

Section Steps.
Variable x : assets.
(** main.go:49-59 *)
Definition demo_picture : list step :=
  ([Do ONew; Do (OTemplate 0 (default_theme x)); Do (OPage 0 false)] ++ centered 1 "distribute" ++ [Pic 1 true JPG; Scale 1 0 true 1 4; Behind 1 0])%list.
(** main.go:61-69 *)
Definition demo_styles : list step :=
  (styled 1 1 "test" [RAddTab] ++ styled 1 2 "size" [RSize "44"; RAddTab] ++ styled 1 3 "color" [RColor "808080"; RAddTab] ++
   styled 1 4 "shade" [RShade "clear" "auto" "E7E6E6"; RAddTab] ++ styled 1 5 "bold" [RBold; RAddTab] ++ styled 1 6 "italic" [RItalic; RAddTab] ++
   styled 1 7 "underline" [RUnderline "double"; RAddTab] ++ styled 1 8 "highlight" [RHighlight "yellow"; RAddTab] ++ styled 1 9 "font" [RFont "Consolas" "" "" "cs"; RAddTab])%list.
(** main.go:71-84 *)
Definition demo_text : list step :=
  (centered 2 "end" ++ styled 2 0 "test all font attrs" [RSize "44"; RColor "ff0000"; RFont "Consolas" "" "" "cs"; RShade "clear" "auto" "E7E6E6"; RBold; RItalic; RUnderline "wave"; RHighlight "yellow"] ++
   [Do (OAddPara 0); Do (OPara 0 (ABody 3) (OLink "google" "http://google.com"))] ++ centered 4 "center" ++ styled 4 0 "一行2个 inline" [RSize "44"])%list.
(** main.go:86-108 *)
Definition demo_pictures : list step :=
  (centered 5 "center" ++ [Pic 5 false JPG; Scale 5 0 false 4 5; Do (OPara 0 (ABody 5) OTab); Do (OPara 0 (ABody 5) (ORun 1 RAddTab)); Pic 5 false WEBP; Scale 5 2 false 4 5] ++
   [Do (OAddPara 0); Do (OPara 0 (ABody 6) OBreak)] ++ centered 7 "center" ++ styled 7 0 "一行1个 横向 inline" [RSize "44"] ++ [Do (OAddPara 0); Pic 8 false PNG])%list.
(** main.go:110-121 *)
Definition demo_table : list step :=
  ([Do (OAddPara 0); Do (OTable 0 (i64_of 9) (i64_of 9) i0 None)] ++
   flat_map (fun r => flat_map (fun c => [Do (OCellShade 0 10 r c "clear" "auto" (color_at r c)); Do (OCellPara 0 10 r c); Do (OPara 0 (ACell 10 r c 0) (OText (color_at r c)));
                                          Do (OPara 0 (ACell 10 r c 0) (ORun 0 (RSize "18")))]) (seq 0 9)) (seq 0 9))%list.
(** main.go:123-133 *)
Definition demo_twips : list step :=
  ([Do (OAddPara 0); Do (OTwips 0 [i64_of 2333; i64_of 2333; i64_of 2333] [i64_of 2333; i64_of 2333] i0 None); Do (OTableJc 0 12 "center")] ++
   flat_map (fun r => Do (ORowJc 0 12 r "center") ::
     flat_map (fun c => [Middle 12 r c; Do (OCellPara 0 12 r c); Do (OPara 0 (ACell 12 r c 0) (OJc "center")); Do (OPara 0 (ACell 12 r c 0) (OText (pair_at r c)))]) (seq 0 2)) (seq 0 3) ++
   [Do (OCellShade 0 12 0 0 "clear" "auto" "E7E6E6")])%list.
(** main.go:135-154 *)
Definition demo_shapes : list step :=
  (centered 13 "center" ++ styled 13 0 "测试 AutoShape w:ln" [RSize "44"] ++
   [Do (OPara 0 (ABody 13) (OShape true (i64_of 808355) (i64_of 238760) "AutoShape" "auto" "straightConnector1" (Some demo_line)));
    Do (OPara 0 (ABody 13) (OShape false (i64_of 808355) (i64_of 238760) "AutoShape" "auto" "straightConnector1" (Some demo_line)))])%list.
Definition demo_steps : list step := (demo_picture ++ demo_styles ++ demo_text ++ demo_pictures ++ demo_table ++ demo_twips ++ demo_shapes)%list.
End Steps.

Section Demo.
Context `{GoLib}.
Variable x : assets.
Variable sys : system.
Variable fl : flags.
(** os.ReadFile *)
Variable rd : string -> res string.
(** the entries found in the file that WriteTo has filled with the document; that
    the file can be opened again, and is found as it was written, is taken for granted *)
Variable entries : docx -> archive.

Definition exec_step (s : step) (w : world) : res world :=
  match s with
  | Do o => exec o w
  | Pic i anch f => bind (rd f) (fun data => exec (OPara 0 (ABody i) (ODrawing anch data)) w)
  | Scale i k anch num den => on_child i k (scale_child anch num den) w
  | Behind i k => on_child i k behind_child w
  | Middle i r c => on_cell i r c middle_cell w
  end.
(** every error is made a panic *)
Fixpoint run_steps (l : list step) (w : world) : res world :=
  match l with
  | [] => Ok w
  | s :: l' => bind (exec_step s w) (run_steps l')
  end.

(** main.go:45-169 and then the rest *)
Definition demo : prog unit :=
  seqp (emit (EPrint ("Preparing new document to write at " ++ fl_loc fl))) (fun _ =>
  seqp (lift (run_steps (demo_steps x) [])) (fun w =>
  match w with
  | d :: _ =>
      seqp (save sys (fl_loc fl) d) (fun _ =>
      seqp (emit (EPrint ("Document writen. " ++ String NL "Now trying to read it"))) (fun _ =>
      tool x sys fl (entries d)))
  | [] => stop
  end)).
End Demo.
