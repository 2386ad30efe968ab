(** What Paragraph.String shows, drawings included: specification. *)
From Coq Require Import String Ascii List Bool Arith NArith ZArith.
From Verif Require Import GoStr Num Lib Types Docx SpecApi SpecBreak.
Import ListNotations.
Local Open Scope list_scope.
Local Open Scope string_scope.

(** the name shown for a picture: the name of the drawing, else that of the
    picture, else the id of the relationship *)
Inductive pic_called : option nonvis -> pic -> string -> Prop :=
| pc_doc : forall n p, pic_called (Some n) p (nonvis_name n)
| pc_pic : forall n p, pic_nvpic p = Some n -> pic_called None p (nonvis_name (nvpic_nv n))
| pc_blip : forall b p, pic_nvpic p = None -> pic_blip p = Some b -> pic_called None p (ablip_embed (picblip_blip b)).

(** what stands in parentheses: the MD5 of the media file the relationship
    leads to; the text of the error if there is no such relationship *)
Inductive pic_sum `{GoLib} (w : world) (f : option nat) : pic -> string -> Prop :=
| ps_none : forall p, pic_blip p = None -> pic_sum w f p ""
| ps_unknown : forall p b x, pic_blip p = Some b -> owner w f = Some x ->
    (forall tgt, ~ points_to x (ablip_embed (picblip_blip b)) tgt) -> pic_sum w f p "ref id not found"
| ps_media : forall p b x pre name m, pic_blip p = Some b -> owner w f = Some x ->
    points_to x (ablip_embed (picblip_blip b)) (pre ++ name) -> String.length pre = 6 ->
    last_media (media (d_reg x)) name m -> pic_sum w f p (lib_md5 (snd m)).

(** the name and the kind shown for a shape *)
Definition shape_kind (s : shape) : string :=
  match s with Shape r => match shapeR_sp r with Some sp => geom_prst (sppr_geom sp) | None => "" end end.
Inductive shape_called : option nonvis -> shape -> string -> Prop :=
| sc_doc : forall n s, shape_called (Some n) s (nonvis_name n)
| sc_own : forall n r, shapeR_cnvPr r = Some n -> shape_called None (Shape r) (nonvis_name n)
| sc_kind : forall sp r, shapeR_cnvPr r = None -> shapeR_sp r = Some sp -> shape_called None (Shape r) (geom_prst (sppr_geom sp))
| sc_nil : forall r, shapeR_cnvPr r = None -> shapeR_sp r = None -> shape_called None (Shape r) "nil".

(** a drawing: a picture, or else a shape, or else a canvas, or else unknown;
    [k] is "inln" or "anch" *)
Inductive data_shown `{GoLib} (w : world) (k : string) (f : option nat) (dp : option nonvis) (d : gdata) : string -> Prop :=
| ds_pic : forall p n h, gdataR_pic d = Some p -> pic_called dp p n -> pic_sum w f p h ->
    data_shown w k f dp d ("![" ++ k ++ "im " ++ n ++ "](" ++ h ++ ")")
| ds_shape : forall s n, gdataR_pic d = None -> gdataR_shape d = Some s -> shape_called dp s n ->
    data_shown w k f dp d ("![" ++ k ++ "sp " ++ n ++ "](" ++ shape_kind s ++ ")")
| ds_canvas : forall c n, gdataR_pic d = None -> gdataR_shape d = None -> gdataR_canvas d = Some c -> dp = Some n ->
    data_shown w k f dp d ("![" ++ k ++ "cv " ++ nonvis_name n ++ "]()")
| ds_canvas_nil : forall c, gdataR_pic d = None -> gdataR_shape d = None -> gdataR_canvas d = Some c -> dp = None ->
    data_shown w k f dp d ("![" ++ k ++ "cv nil]()")
| ds_other : gdataR_pic d = None -> gdataR_shape d = None -> gdataR_canvas d = None ->
    data_shown w k f dp d ("![" ++ k ++ "?](unknown)").

Definition graphic_data (og : option graphic) : option gdata :=
  match og with Some g => graphicR_data g | None => None end.

(** a child of a run *)
Inductive child_shown `{GoLib} (w : world) : rchild -> string -> Prop :=
| cs_text : forall t, child_shown w (RText t) (text_text t)
| cs_tab : forall t, child_shown w (RTab t) (String "009" "")
| cs_break : forall b, child_shown w (RBr b) (String "010" "")
| cs_inline : forall (i : inline) a d s, graphic_data (inlineR_graphic i) = Some d ->
    data_shown w "inln" (inlineR_file i) (inlineR_docPr i) d s -> child_shown w (RDraw (Some i) a) s
| cs_anchor : forall (a : anchor) d s, graphic_data (anchorR_graphic a) = Some d ->
    data_shown w "anch" (anchorR_file a) (anchorR_docPr a) d s -> child_shown w (RDraw None (Some a)) s
| cs_anchor_empty : forall (a : anchor), graphic_data (anchorR_graphic a) = None -> child_shown w (RDraw None (Some a)) "![anch?](unknown)"
| cs_nothing : child_shown w (RDraw None None) "".

(** one after the other *)
Inductive all_shown {A} (R : A -> string -> Prop) : list A -> string -> Prop :=
| as_nil : all_shown R [] ""
| as_cons : forall x l s t, R x s -> all_shown R l t -> all_shown R (x :: l) (s ++ t).

(** runs, and links as markdown: the target, or the id if there is no such
    relationship *)
Inductive part_shown `{GoLib} (w : world) (f : option nat) : pchild -> string -> Prop :=
| pa_run : forall r s, all_shown (child_shown w) (runR_children r) s -> part_shown w f (PRun r) s
| pa_link : forall id r x tgt, owner w f = Some x -> points_to x id tgt -> part_shown w f (PLink id r) ("[" ++ runR_instr r ++ "](" ++ tgt ++ ")")
| pa_dead : forall id r x, owner w f = Some x -> (forall tgt, ~ points_to x id tgt) -> part_shown w f (PLink id r) ("[" ++ runR_instr r ++ "](" ++ id ++ ")")
| pa_rpr : forall r, part_shown w f (PRPr r) "".

Definition para_shown `{GoLib} (w : world) (p : para) (s : string) : Prop :=
  all_shown (part_shown w (para_file p)) (para_children p) s.
