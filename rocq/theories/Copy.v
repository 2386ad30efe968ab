(** Copying between documents (structdoc.go:206-371, structdrawing.go copymedia). *)
From Coq Require Import String Ascii List Bool Arith NArith ZArith.
From Verif Require Import GoStr Num Lib Types Docx Api.
Import ListNotations.
Local Open Scope list_scope.
Local Open Scope string_scope.

Section Copy.
(** the destination *)
Variable to : nat.

(** structdrawing.go:293, 1383: strings.LastIndex(tgt, ".")+1 onwards *)
Definition target_format (tgt : string) : string := after_last "." tgt.

(** structdrawing.go:305-327 (and 1392-1414): the picture and its data in the copy *)
Definition copied_pic (id : i64) (rid : string) (b : picblip) (n : nvpic) (p : pic) : pic :=
  mk_pic (pic_xmlpic p)
    (Some (mk_nvpic (mk_nonvis id (pic_title id)) (nvpic_locks n)))
    (Some (mk_picblip (mk_ablip rid (ablip_cstate (picblip_blip b)) None) (picblip_stretch b)))
    (pic_sp p).

(** structdrawing.go:287-342 and 1374-1432. [f] is the file pointer of the
    drawing. The result is: nothing (nil), the same drawing, or a new one given
    by its docPr and its graphic. *)
Inductive copied := CNil | CSame | CNew (dp : nonvis) (g : graphic).
Definition copy_graphic (f : option nat) (og : option graphic) (w : world) : res (world * copied) :=
  match og with
  | None => Panic
  | Some g =>
  match graphicR_data g with
  | None => Panic
  | Some d =>
  match gdataR_pic d with
  | Some p =>
      match pic_blip p with
      | None => Ok (w, CNil)
      | Some b =>
          bind (file_reg w f) (fun src =>
          match refer_target src (ablip_embed (picblip_blip b)) with
          | Panic => Panic
          | Err _ => Ok (w, CNil)
          | Ok tgt =>
              bind (on_file w (Some to) inc_docid) (fun '(idn, w1) =>
              bind (on_file w1 (Some to) (increase_id TUPIAN)) (fun '(idu, w2) =>
              match drop 6 tgt with
              | None => Panic
              | Some name =>
                  bind (file_reg w2 f) (fun src2 =>
                  bind (media_of src2 name) (fun m =>
                  match m with
                  | None => Ok (w2, CNil)
                  | Some (_, data) =>
                      bind (on_file w2 (Some to) (add_image (target_format tgt) data)) (fun '(rid, w3) =>
                      match pic_nvpic p with
                      | None => Panic
                      | Some n =>
                          let id := int_of_u idu in
                          let p' := copied_pic id rid b n p in
                          Ok (w3, CNew (mk_nonvis idn (pic_title id))
                                    (set_graphicR_data (Some (set_gdataR_pic (Some p') d)) g))
                      end)
                  end))
              end))
          end)
      end
  | None =>
      match gdataR_shape d, gdataR_canvas d with
      | None, None => Ok (w, CNil)
      | _, _ => Ok (w, CSame)
      end
  end end end.

(** structdrawing.go:92-107 Drawing.copymedia, for a child of a run;
    structdoc.go:294-306 *)
Definition copy_rchild (c : rchild) (w : world) : res (world * rchild) :=
  match c with
  | RDraw (Some x) _ =>
      bind (copy_graphic (inlineR_file x) (inlineR_graphic x) w) (fun '(w', r) =>
      Ok (w', RDraw match r with
                    | CNil => None
                    | CSame => Some x
                    | CNew dp g => Some (set_inlineR_docPr (Some dp) (set_inlineR_graphic (Some g) (set_inlineR_file (Some to) x)))
                    end None))
  | RDraw None (Some x) =>
      bind (copy_graphic (anchorR_file x) (anchorR_graphic x) w) (fun '(w', r) =>
      Ok (w', RDraw None match r with
                    | CNil => None
                    | CSame => Some x
                    | CNew dp g => Some (set_anchorR_docPr (Some dp) (set_anchorR_graphic (Some g) (set_anchorR_file (Some to) x)))
                    end))
  | RDraw None None => Ok (w, RDraw None None)
  | c => Ok (w, c)
  end.

(** the loops over children, rows, cells and paragraphs in structdoc.go:294-355 *)
Fixpoint copy_list {A B} (f : A -> world -> res (world * B)) (l : list A) (w : world) : res (world * list B) :=
  match l with
  | [] => Ok (w, [])
  | x :: l' =>
      bind (f x w) (fun '(w1, y) =>
      bind (copy_list f l' w1) (fun '(w2, l2) => Ok (w2, y :: l2)))
  end.

(** structdoc.go:294-306 Run.copymedia *)
Definition copy_run (r : run) (w : world) : res (world * run) :=
  bind (copy_list copy_rchild (runR_children r) w) (fun '(w', c) => Ok (w', set_runR_children c r)).

(** structdoc.go:312-330; [f] is the file of the paragraph. An unresolved
    hyperlink is left out. *)
Definition copy_pchild (f : option nat) (c : pchild) (w : world) : res (world * option pchild) :=
  match c with
  | PRun r => bind (copy_run r w) (fun '(w', r') => Ok (w', Some (PRun r')))
  | PLink id r =>
      bind (file_reg w f) (fun src =>
      match refer_target src id with
      | Panic => Panic
      | Err _ => Ok (w, None)
      | Ok tgt =>
          bind (on_file w (Some to) (add_link_relation tgt)) (fun '(rid, w1) =>
          bind (copy_run r w1) (fun '(w2, r') => Ok (w2, Some (PLink rid r'))))
      end)
  | PRPr r => Ok (w, Some (PRPr r))
  end.

Fixpoint somes {A} (l : list (option A)) : list A :=
  match l with [] => [] | Some x :: l' => x :: somes l' | None :: l' => somes l' end.

(** structdoc.go:308-332 Paragraph.copymedia *)
Definition copy_para (p : para) (w : world) : res (world * para) :=
  bind (copy_list (copy_pchild (para_file p)) (para_children p) w) (fun '(w', c) =>
  Ok (w', mk_para (para_ppr p) (somes c) (Some to))).

(** structdoc.go:334-355 Table.copymedia *)
Definition copy_cell (c : cell) (w : world) : res (world * cell) :=
  bind (copy_list copy_para (cell_paras c) w) (fun '(w', l) => Ok (w', mk_cell (cell_props c) l (Some to))).
Definition copy_row (r : row) (w : world) : res (world * row) :=
  bind (copy_list copy_cell (row_cells r) w) (fun '(w', l) => Ok (w', mk_row (row_props r) l)).
Definition copy_table (t : table) (w : world) : res (world * table) :=
  bind (copy_list copy_row (table_rows t) w) (fun '(w', l) => Ok (w', mk_table (table_props t) (table_grid t) l)).

(** structdoc.go:360-369: a section is shared *)
Definition copy_item (x : item) (w : world) : res (world * item) :=
  match x with
  | IPara p => bind (copy_para p w) (fun '(w', p') => Ok (w', IPara p'))
  | ITable t => bind (copy_table t w) (fun '(w', t') => Ok (w', ITable t'))
  | ISect s => Ok (w, ISect s)
  end.

(** appending to the body of the destination: structdoc.go:268-284, 359-370 *)
Definition push_item (x : item) (w : world) : res world :=
  match nth_error w to with
  | None => Panic
  | Some d => Ok (set_nth w to (add_item x d))
  end.
Definition copy_push (x : item) (w : world) : res world :=
  bind (copy_item x w) (fun '(w', y) => push_item y w').

(** structdoc.go:358-371 AppendFile *)
Fixpoint append_items (l : list item) (w : world) : res world :=
  match l with
  | [] => Ok w
  | x :: l' => bind (copy_push x w) (fun w' => append_items l' w')
  end.
End Copy.

(** structdoc.go:358-371 AppendFile *)
Definition append_file (to from : nat) (w : world) : res world :=
  match nth_error w from with
  | None => Panic
  | Some d => append_items to (d_items d) w
  end.

(** structdoc.go:222-264: a new part. It becomes the last document of the world. *)
Definition new_part (t : tmpl) (w : world) : world := (w ++ [mk_docx [] empty_reg t true])%list.

(** structdoc.go:266-282. [cur] is the part being filled, [fresh] says whether it
    is still empty. When the separator matches on a non-empty part the Go code
    starts again with a new part and the same item; the separator is called a
    second time there, which makes no difference for a rule that always gives
    the same answer on the same paragraph. *)
Fixpoint split_items (t : tmpl) (sep : para -> res bool) (l : list item) (cur : nat) (fresh : bool) (w : world) : res world :=
  match l with
  | [] => Ok w
  | x :: l' =>
      let next cur w := bind (copy_push cur x w) (fun w' => split_items t sep l' cur false w') in
      match x with
      | IPara p =>
          bind (sep p) (fun b =>
          if (b && negb fresh)%bool then next (length w) (new_part t w) else next cur w)
      | _ => next cur w
      end
  end.

(** structdoc.go:218-292 SplitByParagraph: the new world; the parts are the
    documents added to it *)
Definition split_by_paragraph (i : nat) (sep : para -> res bool) (w : world) : res world :=
  match nth_error w i with
  | None => Panic
  | Some d =>
      match d_items d with
      | [] => Ok w
      | l => split_items (d_tmpl d) sep l (length w) true (new_part (d_tmpl d) w)
      end
  end.
