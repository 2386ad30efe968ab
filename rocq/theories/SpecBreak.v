(** Vocabulary: which calls panic, on documents of any origin. *)
From Coq Require Import String Ascii List Bool Arith NArith ZArith.
From Verif Require Import GoStr Num Lib Types Docx Api History SpecApi SpecPanic.
Import ListNotations.
Local Open Scope list_scope.
Local Open Scope string_scope.

(** the document a paragraph or drawing belongs to; [None] if there is none *)
Definition owner (w : world) (f : option nat) : option docx := match f with Some i => nth_error w i | None => None end.
(** the first relationship with that id has that target *)
Definition points_to (x : docx) (id tgt : string) : Prop :=
  exists l1 r l2, rels (d_reg x) = (l1 ++ r :: l2)%list /\ rel_id r = id /\ rel_target r = tgt /\ ~ In id (map rel_id l1).
(** the document has a media file of that name *)
Definition stores (x : docx) (name : string) : Prop := In name (map fst (media (d_reg x))).

(** ** calls on runs and paragraphs *)
Definition run_breaks (o : rop) (r : run) : Prop :=
  match o with
  | RAddTab | RKeep _ => False
  | RDrawSize k anch _ _ => ~ drawing_at anch k r
  | _ => runR_rpr r = None
  end.
Definition para_breaks `{GoLib} (o : pop) (w : world) (p : para) : Prop :=
  match o with
  | OLink _ _ | OShape _ _ _ _ _ _ _ => owner w (para_file p) = None
  | ODrawing _ data => exists wd h f, lib_imgsize data = Some (wd, h, f) /\ (owner w (para_file p) = None \/ iv wd = 0%Z)
  | ORun k o => match run_at k p with None => True | Some r => run_breaks o r end
  | _ => False
  end.

(** ** copying *)
(** A drawing that cannot be copied: no graphic, or a picture with a blip that
    belongs to no document, or that leads to a target shorter than "media/", or
    to a media file while the picture has no properties. *)
Definition copy_breaks_graphic (w : world) (f : option nat) (og : option graphic) : Prop :=
  match og with
  | None => True
  | Some g =>
      match graphicR_data g with
      | None => True
      | Some d => exists p b, gdataR_pic d = Some p /\ pic_blip p = Some b /\
          (owner w f = None \/
           exists x tgt, owner w f = Some x /\ points_to x (ablip_embed (picblip_blip b)) tgt /\
             (String.length tgt < 6 \/
              (pic_nvpic p = None /\ exists pre name, tgt = pre ++ name /\ String.length pre = 6 /\ stores x name)))
      end
  end.
Definition copy_breaks_child (w : world) (c : rchild) : Prop :=
  match c with
  | RDraw (Some i) _ => copy_breaks_graphic w (inlineR_file i) (inlineR_graphic i)
  | RDraw None (Some a) => copy_breaks_graphic w (anchorR_file a) (anchorR_graphic a)
  | _ => False
  end.
Definition copy_breaks_run (w : world) (r : run) : Prop := exists c, In c (runR_children r) /\ copy_breaks_child w c.
(** of a hyperlink: it belongs to no document, or leads somewhere and has such a drawing *)
Definition copy_breaks_pchild (w : world) (f : option nat) (c : pchild) : Prop :=
  match c with
  | PRun r => copy_breaks_run w r
  | PLink id r => owner w f = None \/ (exists x tgt, owner w f = Some x /\ points_to x id tgt) /\ copy_breaks_run w r
  | PRPr _ => False
  end.
Definition copy_breaks (w : world) (p : para) : Prop := exists c, In c (para_children p) /\ copy_breaks_pchild w (para_file p) c.
Definition doc_at (w : world) (d : nat) (Q : docx -> Prop) : Prop := match nth_error w d with Some x => Q x | None => True end.

(** ** all calls *)
Definition breaks `{GoLib} (o : op) (w : world) : Prop :=
  match o with
  | ONew | OLoad _ _ | OParse _ => False
  | OPara d a o => match para_at d a w with None => True | Some p => para_breaks o w p end
  | ODetached p o => para_breaks o w p
  | OCellPara d i r c => cell_at d i r c w = None
  | OTable d r c _ _ => nth_error w d = None \/ (iv r < 0)%Z \/ (iv c < 0 < iv r)%Z
  | OTableJc d i _ => match table_at d i w with None => True | Some t => table_props t = None end
  | ORowJc d i r _ => match row_at d i r w with None => True | Some x => row_props x = None end
  | OCellShade d i r c _ _ _ => match cell_at d i r c w with None => True | Some x => cell_props x = None end
  | OAddPara d | OTwips d _ _ _ _ | OPage d _ | OTemplate d _ | OKeep d _ | ODropAll d _ => nth_error w d = None
  | OAppend d from => nth_error w d = None \/ doc_at w from (fun x => exists p, In p (body_paras (d_items x)) /\ copy_breaks w p)
  | OSplit d sep => doc_at w d (fun x =>
      (exists p, In p (body_paras (d_items x)) /\ copy_breaks w p) \/ exists p, In (IPara p) (d_items x) /\ sep p = Panic)
  end.

(** ** what copying looks at *)
Definition picture_in (og : option graphic) : Prop := exists g d, og = Some g /\ graphicR_data g = Some d /\ gdataR_pic d <> None.
(** the documents that hyperlinks and pictures of a paragraph belong to *)
Definition child_uses (P : option nat -> Prop) (c : rchild) : Prop :=
  match c with
  | RDraw (Some i) _ => picture_in (inlineR_graphic i) -> P (inlineR_file i)
  | RDraw None (Some a) => picture_in (anchorR_graphic a) -> P (anchorR_file a)
  | _ => True
  end.
Definition para_uses (P : option nat -> Prop) (p : para) : Prop :=
  P (para_file p) /\ forall c, In c (para_children p) ->
    match c with PRun r | PLink _ r => forall x, In x (runR_children r) -> child_uses P x | PRPr _ => True end.
(** Appending: nothing in the source belongs to the destination. Splitting:
    nothing belongs to a document that is not there yet, and the rule gives no
    error. *)
Definition apart (o : op) (w : world) : Prop :=
  match o with
  | OAppend d from => forall x, nth_error w from = Some x -> Forall (para_uses (fun f => f <> Some d)) (body_paras (d_items x))
  | OSplit d sep => (forall p e, sep p <> Err e) /\
      forall x, nth_error w d = Some x -> Forall (para_uses (fun f => forall i, f = Some i -> i < length w)) (body_paras (d_items x))
  | _ => True
  end.
(** calls that leave everything with its own document *)
Definition own_pieces (o : op) : Prop :=
  match o with OLoad _ _ => False | OParse a => NoDup (map fst a) | _ => True end.
Definition other_document (o : op) : Prop :=
  match o with OAppend d from => d <> from | OSplit _ sep => forall p e, sep p <> Err e | _ => True end.

(** ** String *)
Definition hash_breaks (w : world) (f : option nat) (b : picblip) : Prop :=
  owner w f = None \/
  exists x tgt, owner w f = Some x /\ points_to x (ablip_embed (picblip_blip b)) tgt /\
    (String.length tgt < 6 \/ exists pre name, tgt = pre ++ name /\ String.length pre = 6 /\ ~ stores x name).
Definition string_breaks_data (w : world) (f : option nat) (dp : option nonvis) (d : gdata) : Prop :=
  exists p, gdataR_pic d = Some p /\
    match pic_blip p with Some b => hash_breaks w f b | None => dp = None /\ pic_nvpic p = None end.
Definition string_breaks_child (w : world) (c : rchild) : Prop :=
  match c with
  | RDraw (Some i) _ =>
      match inlineR_graphic i with
      | None => True
      | Some g => match graphicR_data g with None => True | Some d => string_breaks_data w (inlineR_file i) (inlineR_docPr i) d end
      end
  | RDraw None (Some a) =>
      exists g d, anchorR_graphic a = Some g /\ graphicR_data g = Some d /\ string_breaks_data w (anchorR_file a) (anchorR_docPr a) d
  | _ => False
  end.
Definition string_breaks (w : world) (p : para) : Prop :=
  exists c, In c (para_children p) /\
    match c with
    | PRun r => exists x, In x (runR_children r) /\ string_breaks_child w x
    | PLink _ _ => owner w (para_file p) = None
    | PRPr _ => False
    end.
(** the first paragraph of some cell, in a table whose first row has cells *)
Definition table_breaks (w : world) (t : table) : Prop :=
  (exists r0 l, table_rows t = r0 :: l /\ row_cells r0 <> []) /\
  exists r c p l, In r (table_rows t) /\ In c (row_cells r) /\ cell_paras c = p :: l /\ string_breaks w p.
