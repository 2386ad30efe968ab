(** Vocabulary for the statements about calls: what each is meant to do. *)
From Coq Require Import String Ascii List Bool Arith NArith ZArith.
From Verif Require Import GoStr Num Lib Types Docx Api Keep Copy History SpecApi.
Import ListNotations.
Local Open Scope list_scope.
Local Open Scope string_scope.

(** what each formatting call of a run is to write *)
Definition run_setter (o : rop) : option (rfield * fval) :=
  match o with
  | RColor v => Some (FColor, VStr (Some v))
  | RSize v => Some (FSize, VStr (Some v))
  | RSizeCs v => Some (FSizeCs, VStr (Some v))
  | RShade v c f => Some (FShade, VShade (Some (mk_shade v c f "" "")))
  | RSpacing n => Some (FSpacing, VSpacing (Some (mk_spacing i0 i0 i0 n "")))
  | RBold => Some (FBold, VBool true)
  | RItalic => Some (FItalic, VBool true)
  | RUnderline v => Some (FUnderline, VStr (Some v))
  | RHighlight v => Some (FHighlight, VStr (Some v))
  | RStrike b => Some (FStrike, VStr (Some (if b then "true" else "false")))
  | RFont a e h t => Some (FFonts, VFonts (Some (mk_rfonts a e h t)))
  | RAddTab | RKeep _ | RDrawSize _ _ _ _ => None
  end.


(** what each formatting call of a paragraph is to write *)
Definition para_setter (o : pop) : option (pfield * pval) :=
  match o with
  | OJc v => Some (PJc, PVal (VStr (Some v)))
  | OStyle v => Some (PStyle, PVal (VStr (Some v)))
  | ONum n l => Some (PNum, PVNum (Some (mk_numpr (Some n) (Some l))))
  | ONumFont a e h t => Some (PMark FFonts, PVal (VFonts (Some (mk_rfonts a e h t))))
  | ONumSize v => Some (PMark FSize, PVal (VStr (Some v)))
  | _ => None
  end.

(** table colours: a missing one is black *)
Definition filled (s : string) : string := if String.eqb s "" then "#000000" else s.
Definition filled_colors (c : colors) : colors :=
  mk_colors (filled (c_top c)) (filled (c_left c)) (filled (c_bottom c)) (filled (c_right c)) (filled (c_insideH c)) (filled (c_insideV c)).


(** the six borders of a table *)
Definition border_of (col : string) (b : option border) : Prop :=
  exists x, b = Some x /\ border_val x = "single" /\ iv (border_size x) = 4%Z /\ border_color x = col.
Definition bordered (c : colors) (t : table) : Prop :=
  exists q b, table_props t = Some q /\ tblpr_borders q = Some b /\
    border_of (c_top c) (borders_top b) /\ border_of (c_left c) (borders_left b) /\ border_of (c_bottom c) (borders_bottom b) /\
    border_of (c_right c) (borders_right b) /\ border_of (c_insideH c) (borders_insideH b) /\ border_of (c_insideV c) (borders_insideV b).
Definition no_colors : colors := mk_colors "" "" "" "" "" "".

(** kinds of body items *)
Inductive kind := KPara | KTable | KSect.
Definition kind_of (x : item) : kind := match x with IPara _ => KPara | ITable _ => KTable | ISect _ => KSect end.
(** the calls that append an item to a document, and what it is *)
Definition appends (o : op) : option (nat * kind) :=
  match o with
  | OAddPara d => Some (d, KPara)
  | OTable d _ _ _ _ => Some (d, KTable)
  | OTwips d _ _ _ _ => Some (d, KTable)
  | OPage d _ => Some (d, KSect)
  | _ => None
  end.

(** the calls that add something to a paragraph *)
Definition adds (o : pop) : bool :=
  match o with OText _ | OTab | OBreak | OLink _ _ | ODrawing _ _ | OShape _ _ _ _ _ _ _ => true | _ => false end.

(** membership in a list of names *)
Definition listed (names : list string) (s : string) : bool := if in_dec string_dec s names then true else false.

(** which drawings each function of a paragraph is to remove *)
Definition to_drop (name : string) : option (rchild -> Prop) :=
  if String.eqb name "Shape" then Some (holds has_shape)
  else if String.eqb name "Canvas" then Some (holds has_canvas)
  else if String.eqb name "Group" then Some (holds has_group)
  else if String.eqb name "ShapeAndCanvas" then Some (holds (fun d => has_shape d \/ has_canvas d))
  else if String.eqb name "ShapeAndCanvasAndGroup" then Some (holds (fun d => has_shape d \/ has_canvas d \/ has_group d))
  else if String.eqb name "NilPicture" then Some (fun c => ~ real_picture c)
  else None.


Section Show.
Variable w : world.
(** the picture can be shown: it is attached to a document in which its id
    resolves to a stored media, or it has no blip but a name *)
Definition showable (f : option nat) (dp : option nonvis) (p : pic) : Prop :=
  match pic_blip p with
  | None => dp <> None \/ pic_nvpic p <> None
  | Some b => exists i d t n m, f = Some i /\ nth_error w i = Some d /\
      refer_target (d_reg d) (ablip_embed (picblip_blip b)) = Ok t /\ drop 6 t = Some n /\ media_of (d_reg d) n = Ok (Some m)
  end.
Definition showable_child (c : rchild) : Prop :=
  match c with
  | RDraw i a =>
      (forall x p, i = Some x -> graphic_pic (inlineR_graphic x) = Some p -> showable (inlineR_file x) (inlineR_docPr x) p) /\
      (forall x p, a = Some x -> graphic_pic (anchorR_graphic x) = Some p -> showable (anchorR_file x) (anchorR_docPr x) p)
  | _ => True
  end.

(** the target of a relationship id in document [i] *)
Definition resolve_in (i : nat) (id : string) : option string :=
  match nth_error w i with
  | Some d => match refer_target (d_reg d) id with Ok t => Some t | _ => None end
  | None => None
  end.
End Show.

Section Calls.
Variable S : Type.
Variable iter : rel -> S -> rel * S * option string.
(** the state after the calls on [l], if all succeed *)
Fixpoint all_calls (l : list rel) (s : S) : option S :=
  match l with
  | [] => Some s
  | r :: l' => match iter r s with (_, s', None) => all_calls l' s' | _ => None end
  end.
End Calls.
Arguments all_calls {S}.

(** a document as New or LoadBodyItems return it *)
Inductive made : docx -> Prop :=
| made_new : made new_docx
| made_load l ms : made (load_body_items l ms).

(** a call other than UseTemplate on document [i] *)
Definition no_template (i : nat) (o : op) : Prop := match o with OTemplate d _ => d <> i | _ => True end.
