(** What a copy made by AppendFile or SplitByParagraph has in common with its
    source. *)
From Coq Require Import String Ascii List Bool Arith NArith ZArith.
From Verif Require Import GoStr Num Lib Types Docx Api Keep Copy History SpecApi.
Import ListNotations.
Local Open Scope list_scope.
Local Open Scope string_scope.

(** a picture id resolves to bytes in a document *)
Definition picture_at (g : reg) (embed t data : string) : Prop :=
  exists n nm, refer_target g embed = Ok t /\ drop 6 t = Some n /\ media_of g n = Ok (Some (nm, data)).
Definition bytes_of (g : reg) (embed data : string) : Prop := exists t, picture_at g embed t data.
(** the kind of a file is what follows the last dot of its name *)
Definition of_kind (t x : string) : Prop := exists b, t = b ++ "." ++ x /\ count "." x = 0.

Section Same.
(** the world at the time of the call, the destination, and the registry of the
    destination at the time of looking *)
Variable w : world.
Variable to : nat.
Variable g : reg.

Definition link_in (f : option nat) (id t : string) : Prop :=
  exists i d, f = Some i /\ nth_error w i = Some d /\ refer_target (d_reg d) id = Ok t.
Definition picture_in (f : option nat) (embed t data : string) : Prop :=
  exists i d, f = Some i /\ nth_error w i = Some d /\ picture_at (d_reg d) embed t data.
Definition bytes_in (f : option nat) (embed data : string) : Prop := exists t, picture_in f embed t data.

(** the graphic [og] of a drawing with file pointer [f], and the copy of the
    drawing: nothing, or its file pointer and graphic *)
Definition same_graphic (f : option nat) (og : option graphic) (c : option (option nat * option graphic)) : Prop :=
  match graphic_pic og with
  | Some p =>
      match pic_embed p with
      | None => c = None
      | Some e => forall t data, picture_in f e t data ->
          exists og' p' e' t', c = Some (Some to, og') /\ graphic_pic og' = Some p' /\ pic_embed p' = Some e' /\
            picture_at g e' t' data /\ (forall x, of_kind t x -> of_kind t' x) /\ pic_sp p' = pic_sp p /\ pic_xmlpic p' = pic_xmlpic p
      end
  | None =>
      match og with
      | Some gr => match graphicR_data gr with
                   | Some d => c = (if match gdataR_shape d, gdataR_canvas d with None, None => true | _, _ => false end then None else Some (f, og))
                   | None => False
                   end
      | None => False
      end
  end.
(** what is neither the docPr, nor the graphic, nor the file pointer *)
Definition inline_frame (x : inline) : inline := set_inlineR_docPr None (set_inlineR_graphic None (set_inlineR_file None x)).
Definition anchor_frame (x : anchor) : anchor := set_anchorR_docPr None (set_anchorR_graphic None (set_anchorR_file None x)).
Definition same_rchild (c c' : rchild) : Prop :=
  match c with
  | RDraw (Some x) _ => exists y, c' = RDraw y None /\
      same_graphic (inlineR_file x) (inlineR_graphic x) (option_map (fun y => (inlineR_file y, inlineR_graphic y)) y) /\
      forall z, y = Some z -> inline_frame z = inline_frame x
  | RDraw None (Some x) => exists y, c' = RDraw None y /\
      same_graphic (anchorR_file x) (anchorR_graphic x) (option_map (fun y => (anchorR_file y, anchorR_graphic y)) y) /\
      forall z, y = Some z -> anchor_frame z = anchor_frame x
  | _ => c' = c
  end.
Definition same_run (r r' : run) : Prop :=
  runR_space r' = runR_space r /\ runR_rpr r' = runR_rpr r /\ runR_instr r' = runR_instr r /\
  Forall2 same_rchild (runR_children r) (runR_children r').
(** a hyperlink that does not resolve is left out *)
Inductive same_children (f : option nat) : list pchild -> list pchild -> Prop :=
| sc_nil : same_children f [] []
| sc_run r r' l l' : same_run r r' -> same_children f l l' -> same_children f (PRun r :: l) (PRun r' :: l')
| sc_rpr q l l' : same_children f l l' -> same_children f (PRPr q :: l) (PRPr q :: l')
| sc_link id r id' r' l l' : (forall t, link_in f id t -> refer_target g id' = Ok t) -> same_run r r' ->
    same_children f l l' -> same_children f (PLink id r :: l) (PLink id' r' :: l')
| sc_lost id r l l' : (forall t, ~ link_in f id t) -> same_children f l l' -> same_children f (PLink id r :: l) l'.
Definition same_para (p p' : para) : Prop :=
  para_ppr p' = para_ppr p /\ para_file p' = Some to /\ same_children (para_file p) (para_children p) (para_children p').
Definition same_cell (c c' : cell) : Prop :=
  cell_props c' = cell_props c /\ cell_file c' = Some to /\ Forall2 same_para (cell_paras c) (cell_paras c').
Definition same_row (r r' : row) : Prop :=
  row_props r' = row_props r /\ Forall2 same_cell (row_cells r) (row_cells r').
Definition same_table (t t' : table) : Prop :=
  table_props t' = table_props t /\ table_grid t' = table_grid t /\ Forall2 same_row (table_rows t) (table_rows t').
Definition same_item (x x' : item) : Prop :=
  match x, x' with
  | IPara p, IPara p' => same_para p p'
  | ITable t, ITable t' => same_table t t'
  | ISect s, ISect s' => s' = s
  | _, _ => False
  end.
End Same.

(** where SplitByParagraph cuts: [at_sep b x] says that item [x] is a paragraph
    on which the rule gives [b] *)
Definition at_sep (sep : para -> res bool) (b : bool) (x : item) : Prop := exists p, x = IPara p /\ sep p = Ok b.
(** no paragraph in it is a separator *)
Definition no_sep (sep : para -> res bool) (l : list item) : Prop := forall p, In (IPara p) l -> sep p = Ok false.
(** the pieces of a body *)
Definition pieces (sep : para -> res bool) (l : list item) (ps : list (list item)) : Prop :=
  concat ps = l /\
  (forall k s, nth_error ps k = Some s -> exists x s', s = x :: s' /\ no_sep sep s' /\ (k <> 0 -> at_sep sep true x)).

(** every hyperlink of the paragraph resolves *)
Definition links_resolve (w : world) (p : para) : Prop :=
  forall id r, In (PLink id r) (para_children p) -> exists t, link_in w (para_file p) id t.

(** histories without picture calls and without LoadBodyItems and Parse *)
Definition pop_picture (o : pop) : bool := match o with ODrawing _ _ => true | _ => false end.
Definition picture_free (o : op) : bool :=
  match o with OPara _ _ o | ODetached _ o => negb (pop_picture o) | OLoad _ _ | OParse _ => false | _ => true end.
