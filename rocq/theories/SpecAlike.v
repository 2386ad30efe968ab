(** Specification for copies with hyperlinks and pictures: texts that differ in
    the ids only. *)
From Coq Require Import String Ascii List Bool Arith NArith.
From Verif Require Import GoStr Num Lib Types Docx SpecApi SpecBreak SpecVerb.
Import ListNotations.
Local Open Scope list_scope.
Local Open Scope string_scope.

(** the value of an attribute *)
Definition quoteless (v : string) : Prop := count """" v = 0.
(** the attributes of the names of a picture; an empty name is not written *)
Definition id_and_name (s : string) : Prop :=
  exists i n, quoteless i /\ quoteless n /\ (s = " id=""" ++ i ++ """" \/ s = " id=""" ++ i ++ """ name=""" ++ n ++ """").
(** The same text, but for the ids of hyperlinks and picture files and for the
    numbers and names of pictures *)
Inductive alike : string -> string -> Prop :=
| alike_end : alike "" ""
| alike_char c s t : alike s t -> alike (String c s) (String c t)
| alike_id m v v' s t : m = "<w:hyperlink r:id=""" \/ m = "<a:blip r:embed=""" -> quoteless v -> quoteless v' ->
    alike s t -> alike (m ++ v ++ """" ++ s) (m ++ v' ++ """" ++ t)
| alike_name m a a' s t : m = "<wp:docPr" \/ m = "<pic:cNvPr" -> id_and_name a -> id_and_name a' ->
    alike s t -> alike (m ++ a ++ ">" ++ s) (m ++ a' ++ ">" ++ t).

(** a figure, or a picture with names and without transparency, whose id leads to
    a media file *)
Definition portable_graphic (w : world) (f : option nat) (dp : option nonvis) (og : option graphic) : Prop :=
  figure og \/
  exists g d p b n x pre name, og = Some g /\ graphicR_data g = Some d /\ gdataR_pic d = Some p /\ pic_blip p = Some b /\
    pic_nvpic p = Some n /\ dp <> None /\ ablip_alpha (picblip_blip b) = None /\
    owner w f = Some x /\ points_to x (ablip_embed (picblip_blip b)) (pre ++ name) /\ String.length pre = 6 /\ stores x name.
Definition portable_child (w : world) (c : rchild) : Prop :=
  match c with
  | RDraw (Some x) a => portable_graphic w (inlineR_file x) (inlineR_docPr x) (inlineR_graphic x) /\ a = None
  | RDraw None (Some x) => portable_graphic w (anchorR_file x) (anchorR_docPr x) (anchorR_graphic x)
  | _ => True
  end.
(** paragraphs with such drawings whose hyperlinks lead somewhere *)
Definition portable_para (w : world) (p : para) : Prop :=
  forall c, In c (para_children p) ->
    match c with
    | PRun r => Forall (portable_child w) (runR_children r)
    | PLink id r => (exists x tgt, owner w (para_file p) = Some x /\ points_to x id tgt) /\ Forall (portable_child w) (runR_children r)
    | PRPr _ => True
    end.
Definition portable (w : world) (l : list item) : Prop := Forall (portable_para w) (body_paras l).
