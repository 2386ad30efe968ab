(** Specification for copies whose XML is that of the source, byte for byte. *)
From Coq Require Import String Ascii List Bool Arith NArith.
From Verif Require Import GoStr Num Lib Types Docx Pack History SpecApi.
Import ListNotations.
Local Open Scope list_scope.
Local Open Scope string_scope.

(** a graphic with a shape or a canvas and no picture *)
Definition figure (og : option graphic) : Prop :=
  exists g d, og = Some g /\ graphicR_data g = Some d /\ gdataR_pic d = None /\ (gdataR_shape d <> None \/ gdataR_canvas d <> None).
(** a drawing that holds no more than one figure *)
Definition steady_child (c : rchild) : Prop :=
  match c with
  | RDraw (Some x) a => figure (inlineR_graphic x) /\ a = None
  | RDraw None (Some x) => figure (anchorR_graphic x)
  | _ => True
  end.
(** no hyperlink, and no drawings but these *)
Definition steady_para (p : para) : Prop :=
  forall c, In c (para_children p) ->
    match c with PRun r => Forall steady_child (runR_children r) | PLink _ _ => False | PRPr _ => True end.
Definition steady (l : list item) : Prop := Forall steady_para (body_paras l).

(** the text between the tags of the body, in the text of a main part; [start] is
    the XML declaration and the start tag of the document *)
Definition opens (start b s : string) : Prop :=
  s = start ++ "<w:body>" ++ b ++ "</w:body></w:document>" /\ count "<" start = 2.

(** calls that bring in no hyperlink and no other drawings *)
Definition steady_call `{GoLib} (o : op) : Prop :=
  match o with
  | OLoad l _ => steady l
  | OParse a => forall n d, unpack n a = Ok d -> steady (d_items d)
  | OPara _ _ (OLink _ _) | OPara _ _ (ODrawing _ _) => False
  | _ => True
  end.
