(** String methods (structpara.go, structdrawing.go, structtable.go). *)
From Coq Require Import String Ascii List Bool Arith NArith ZArith.
From Verif Require Import GoStr Num Lib Types Docx.
Import ListNotations.
Local Open Scope list_scope.
Local Open Scope string_scope.

Section Text.
Context `{GoLib}.
Variable w : world.

(** the part between parentheses: structdrawing.go:243-251, 1330-1338. [f] is
    the file pointer of the inline or anchor. *)
Definition pic_hash (f : option nat) (p : pic) : res string :=
  match pic_blip p with
  | None => Ok ""
  | Some b =>
      bind (file_reg w f) (fun g =>
      match refer_target g (ablip_embed (picblip_blip b)) with
      | Panic => Panic
      | Err e => Ok e
      | Ok tgt =>
          match drop 6 tgt with
          | None => Panic
          | Some n => bind (media_of g n) (fun m => match m with None => Panic | Some m => Ok (lib_md5 (snd m)) end)
          end
      end)
  end.

(** structdrawing.go:234-241 *)
Definition pic_name (dp : option nonvis) (p : pic) : res string :=
  match dp with
  | Some n => Ok (nonvis_name n)
  | None => match pic_nvpic p with
            | Some n => Ok (nonvis_name (nvpic_nv n))
            | None => match pic_blip p with Some b => Ok (ablip_embed (picblip_blip b)) | None => Panic end
            end
  end.

(** structdrawing.go:256-266 *)
Definition shape_name (dp : option nonvis) (s : shape) : string :=
  match s with Shape r =>
    match dp with
    | Some n => nonvis_name n
    | None => match shapeR_cnvPr r with
              | Some n => nonvis_name n
              | None => match shapeR_sp r with Some sp => geom_prst (sppr_geom sp) | None => "nil" end
              end
    end
  end.
Definition shape_prst (s : shape) : string :=
  match s with Shape r => match shapeR_sp r with Some sp => geom_prst (sppr_geom sp) | None => "" end end.

(** structdrawing.go:229-285 and 1315-1372 for a given graphic data; [k] is
    "inln" or "anch" *)
Definition gdata_string (k : string) (f : option nat) (dp : option nonvis) (d : gdata) : res string :=
  match gdataR_pic d with
  | Some p => bind (pic_name dp p) (fun n => bind (pic_hash f p) (fun h =>
                Ok ("![" ++ k ++ "im " ++ n ++ "](" ++ h ++ ")")))
  | None =>
      match gdataR_shape d with
      | Some s => Ok ("![" ++ k ++ "sp " ++ shape_name dp s ++ "](" ++ shape_prst s ++ ")")
      | None =>
          match gdataR_canvas d with
          | Some _ => Ok ("![" ++ k ++ "cv " ++ match dp with Some n => nonvis_name n | None => "nil" end ++ "]()")
          | None => Ok ("![" ++ k ++ "?](unknown)")
          end
      end
  end.

(** structdrawing.go:229-285 WPInline.String: a missing graphic panics *)
Definition inline_string (x : inline) : res string :=
  match inlineR_graphic x with
  | None => Panic
  | Some g => match graphicR_data g with
              | None => Panic
              | Some d => gdata_string "inln" (inlineR_file x) (inlineR_docPr x) d
              end
  end.

(** structdrawing.go:1316-1372 WPAnchor.String *)
Definition anchor_string (x : anchor) : res string :=
  match anchorR_graphic x with
  | None => Ok "![anch?](unknown)"
  | Some g => match graphicR_data g with
              | None => Ok "![anch?](unknown)"
              | Some d => gdata_string "anch" (anchorR_file x) (anchorR_docPr x) d
              end
  end.

(** structpara.go:204-220: a child of a run *)
Definition rchild_string (c : rchild) : res string :=
  match c with
  | RText t => Ok (text_text t)
  | RTab _ => Ok (String "009" "")
  | RBr _ => Ok (String "010" "")
  | RDraw (Some i) _ => inline_string i
  | RDraw None (Some a) => anchor_string a
  | RDraw None None => Ok ""
  end.

(** concatenation, the first panic wins *)
Fixpoint rconcat {A} (f : A -> res string) (l : list A) : res string :=
  match l with
  | [] => Ok ""
  | x :: l' => bind (f x) (fun s => bind (rconcat f l') (fun t => Ok (s ++ t)))
  end.

(** structpara.go:188-224; [f] is the file of the paragraph *)
Definition pchild_string (f : option nat) (c : pchild) : res string :=
  match c with
  | PRun r => rconcat rchild_string (runR_children r)
  | PLink id r =>
      bind (file_reg w f) (fun g =>
      let l := match refer_target g id with Ok t => t | _ => id end in
      Ok ("[" ++ runR_instr r ++ "](" ++ l ++ ")"))
  | PRPr _ => Ok ""
  end.

(** structpara.go:185-227 Paragraph.String *)
Definition para_string (p : para) : res string := rconcat (pchild_string (para_file p)) (para_children p).

(** structtable.go:51-57 *)
Definition cell_string (c : cell) : res string :=
  match cell_paras c with
  | p :: _ => match para_children p with
              | [] => Ok "        |"
              | _ => bind (para_string p) (fun s => Ok (" " ++ s ++ " |"))
              end
  | [] => Ok "        |"
  end.
Fixpoint srepeat (n : nat) (s : string) : string :=
  match n with O => "" | S n' => s ++ srepeat n' s end.
(** structtable.go:39-61 Table.String *)
Definition table_string (t : table) : res string :=
  match table_rows t with
  | [] => Ok ""
  | r0 :: _ =>
      match row_cells r0 with
      | [] => Ok ""
      | _ =>
          bind (rconcat (fun r => bind (rconcat cell_string (row_cells r)) (fun s => Ok (String "010" ("|" ++ s)))) (table_rows t)) (fun b =>
          Ok ("| " ++ srepeat (length (row_cells r0)) " :----: |" ++ b))
      end
  end.
End Text.
