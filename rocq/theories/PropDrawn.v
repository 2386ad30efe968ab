(** Properties of the shapes, canvases and groups in saved files. *)
From Coq Require Import String Ascii List Bool Arith NArith ZArith.
From Verif Require Import GoStr Num Lib Types XmlTok Marshal Docx Api Keep Lex Pack History SpecApi SpecLex SpecPack SpecDrawn DrawnFacts DrawnHist.
Import ListNotations.
Local Open Scope list_scope.
Local Open Scope string_scope.

(** C67: a saved document part has an element of a shape, canvas or group, at
    any depth, if and only if a run or hyperlink of a paragraph of the body, or of
    one of its tables, has such a drawing. *)
Theorem C67_file : forall d ar, writes d (Ok ar) -> forall s, In (DOC_NAME, Some s) ar -> (drawn_in (lex s) <-> run_drawn (d_items d) \/ link_drawn (d_items d)).
Proof. exact package_drawn. Qed.
Print Assumptions C67_file.
(** After DropDrawingOf for all three, only those in hyperlinks are left. *)
Theorem C67_exactly : forall d ar s, writes (set_d_items (drop_drawing_of "ShapeAndCanvasAndGroup" (d_items d)) d) (Ok ar) -> In (DOC_NAME, Some s) ar ->
  (drawn_in (lex s) <-> link_drawn (d_items d)).
Proof. exact dropped_drawn. Qed.
Print Assumptions C67_exactly.
(** No call puts a drawing into a hyperlink: when none came from a file, the
    file saved after such a call has no shape, canvas or group at all, whatever was
    done before. *)
Theorem C67_history : forall (L : GoLib) l i w d ar s, Forall plain_op l -> run_ops (l ++ [ODropAll i "ShapeAndCanvasAndGroup"])%list [] = Some w ->
  nth_error w i = Some d -> writes d (Ok ar) -> In (DOC_NAME, Some s) ar -> ~ drawn_in (lex s).
Proof. exact history_drawn. Qed.
Print Assumptions C67_history.

(** a library instance for the examples *)
Definition ex_lib : GoLib := {| lib_float := fun _ => None; lib_md5 := fun s => s; lib_imgsize := fun _ => None |}.
Definition ex_shape : rchild :=
  RDraw (Some (mk_inlineR i0 i0 i0 i0 None None None None (Some (shape_graphic i0 i0 "auto" "rect" None)) None)) None.
(** a shape in a run, in a table, and one in a hyperlink *)
Definition ex_doc (p : pchild) : docx := set_d_items [ITable (mk_table None None [mk_row None [mk_cell None [mk_para None [p] None] None]])] new_docx.
Definition starts (q : qname) (ts : list token) : nat := length (filter (fun t => match t with TStart q' _ => qeqb q q' | _ => false end) ts).
Definition saved (d : docx) : nat := starts ("wps", "wsp") (lex (write_xml (m_docx d))).
Definition dropped (d : docx) : docx := set_d_items (drop_drawing_of "ShapeAndCanvasAndGroup" (d_items d)) d.
Example C67_ex_run : saved (ex_doc (PRun (api_run [ex_shape]))) = 1 /\ saved (dropped (ex_doc (PRun (api_run [ex_shape])))) = 0.
Proof. split; vm_compute; reflexivity. Qed.
Example C67_ex_link : saved (ex_doc (PLink "rId1" (api_run [ex_shape]))) = 1 /\ saved (dropped (ex_doc (PLink "rId1" (api_run [ex_shape])))) = 1 /\
  link_drawn (d_items (ex_doc (PLink "rId1" (api_run [ex_shape])))).
Proof.
  split; [vm_compute; reflexivity|]. split; [vm_compute; reflexivity|]. do 4 eexists. split; [cbn; left; reflexivity|]. split; [cbn; left; reflexivity|]. split; [cbn; left; reflexivity|].
  left. do 3 eexists. repeat split. left. discriminate.
Qed.
(** a history with a shape, a text and a hyperlink: its package is written, with
    the shape and, after the call, without it *)
Definition ex_calls : list op := [ONew; OAddPara 0; OPara 0 (ABody 0) (OShape true i0 i0 "s" "auto" "rect" None); OPara 0 (ABody 0) (OText "t"); OPara 0 (ABody 0) (OLink "text" "http://x")].
Example C67_ex_history : Forall (@plain_op ex_lib) ex_calls /\
  match @run_ops ex_lib ex_calls [], @run_ops ex_lib (ex_calls ++ [ODropAll 0 "ShapeAndCanvasAndGroup"])%list [] with
  | Some [d], Some [d'] => saved d = 1 /\ saved d' = 0 /\ match pack_files d' with Ok ar => In DOC_NAME (map fst ar) | _ => False end
  | _, _ => False
  end.
Proof. split; [repeat constructor|]. vm_compute. split; [reflexivity|]. split; [reflexivity|]. repeat (first [left; reflexivity|right]). Qed.
