(** Specification: documents that differ only in elements the loader does not
    know. *)
From Coq Require Import String List Relations.
From Verif Require Import XmlTok.
Import ListNotations.
Local Open Scope string_scope.
Local Open Scope list_scope.

(** The local names of the elements that mean something to the loader, in any
    place of the document. *)
Definition known : list string :=
  [ (* structure *) "body"; "p"; "tbl"; "sectPr"; "tr"; "tc"; "r"; "hyperlink";
    (* properties of runs and paragraphs *)
    "pPr"; "rPr"; "rFonts"; "b"; "i"; "iCs"; "u"; "highlight"; "color"; "sz"; "szCs"; "spacing"; "rStyle"; "pStyle";
    "shd"; "kern"; "vertAlign"; "strike"; "tabs"; "tab"; "ind"; "jc"; "textAlignment"; "adjustRightInd"; "snapToGrid";
    "kinsoku"; "overflowPunct";
    (* content of runs *) "t"; "instrText"; "drawing"; "br"; "AlternateContent"; "Choice";
    (* tables *) "tblPr"; "tblGrid"; "gridCol"; "trPr"; "trHeight"; "tcPr"; "tcW"; "vMerge"; "gridSpan"; "vAlign";
    "tcBorders"; "tblpPr"; "tblStyle"; "tblW"; "tblLook"; "tblBorders"; "top"; "left"; "bottom"; "right"; "insideH"; "insideV";
    (* sections *) "pgSz"; "pgMar"; "cols"; "docGrid";
    (* drawings *) "inline"; "anchor"; "simplePos"; "positionH"; "positionV"; "posOffset"; "extent"; "effectExtent";
    "wrapNone"; "wrapSquare"; "docPr"; "cNvGraphicFramePr"; "graphicFrameLocks"; "graphic"; "graphicData"; "pic";
    "nvPicPr"; "cNvPr"; "cNvPicPr"; "picLocks"; "blipFill"; "blip"; "alphaModFix"; "stretch"; "fillRect"; "spPr"; "xfrm";
    "off"; "ext"; "chOff"; "chExt"; "prstGeom"; "avLst"; "solidFill"; "srgbClr"; "noFill"; "ln"; "prstDash"; "miter";
    "round"; "headEnd"; "tailEnd"; "srcRect"; "tile"; "wsp"; "cNvCnPr"; "cxnSpLocks"; "cNvSpPr"; "spLocks"; "txbx";
    "txbxContent"; "bodyPr"; "noAutofit"; "wpc"; "bg"; "whole"; "wgp"; "cNvGrpSpPr"; "grpSpLocks"; "grpSpPr"; "grpSp" ].

(** Elements that have attributes but, for the loader, no child elements:
    it reports an error for any content. *)
Definition solid : list string :=
  [ "rFonts"; "spacing"; "ind"; "shd"; "tab"; "br"; "extent"; "effectExtent"; "docPr"; "cNvPr"; "headEnd"; "tailEnd"; "tile";
    "spLocks"; "top"; "left"; "bottom"; "right"; "insideH"; "insideV"; "tblpPr"; "tblStyle"; "tblW"; "tblLook"; "gridCol";
    "pgSz"; "pgMar"; "cols"; "docGrid" ].

(** Elements all of whose content counts: the text and the tab stops. *)
Definition opaque : list string := [ "t"; "tabs" ].

(** [adds t t']: [t'] is [t] with one element of unknown name, with any
    attributes and any content, put somewhere among the children of an
    element. *)
Inductive adds : tree -> tree -> Prop :=
| adds_here : forall q a l1 l2 q' a' c',
    ~ In (snd q) solid -> ~ In (snd q) opaque -> ~ In (snd q') known ->
    adds (Elem q a (l1 ++ l2)) (Elem q a (l1 ++ Elem q' a' c' :: l2))
| adds_in : forall q a l1 l2 x x',
    ~ In (snd q) opaque -> adds x x' -> adds (Elem q a (l1 ++ x :: l2)) (Elem q a (l1 ++ x' :: l2)).

(** any number of such elements, in any places, put in or taken out *)
Definition same_but_unknown : tree -> tree -> Prop := clos_refl_sym_trans tree adds.

(** ** other things the loader does not look at *)

Definition mem (l : string) (ls : list string) : bool := existsb (String.eqb l) ls.

(** The local names of the attributes that mean something to the loader, for
    each element. Of all other elements, no attribute does. *)
Definition read_table : list (list string * list string) :=
  [ (["t"; "r"], ["space"]); (["br"], ["type"]); (["tab"], ["val"; "pos"]); (["hyperlink"], ["anchor"; "id"]); (["Choice"], ["Requires"]);
    (["u"; "highlight"; "color"; "sz"; "szCs"; "rStyle"; "pStyle"; "kern"; "vertAlign"; "strike"; "jc"; "textAlignment"; "adjustRightInd";
      "snapToGrid"; "kinsoku"; "overflowPunct"; "srgbClr"; "prstDash"; "tblStyle"; "vMerge"; "gridSpan"; "vAlign"], ["val"]);
    (["rFonts"], ["ascii"; "eastAsia"; "hAnsi"; "hint"]);
    (["spacing"], ["val"; "beforeLines"; "before"; "line"; "lineRule"]);
    (["ind"], ["leftChars"; "left"; "firstLineChars"; "firstLine"; "hangingChars"; "hanging"]);
    (["shd"], ["val"; "color"; "fill"; "themeFill"; "themeFillTint"]);
    (* tables and sections *)
    (["top"; "left"; "bottom"; "right"; "insideH"; "insideV"], ["val"; "sz"; "space"; "color"]);
    (["tblpPr"], ["leftFromText"; "rightFromText"; "vertAnchor"; "horzAnchor"; "tblpXSpec"; "tblpYSpec"; "tblpX"; "tblpY"]);
    (["tblW"; "tcW"], ["w"; "type"]); (["gridCol"], ["w"]); (["trHeight"], ["val"; "hRule"]);
    (["tblLook"], ["val"; "firstRow"; "lastRow"; "firstColumn"; "lastColumn"; "noHBand"; "noVBand"]);
    (["pgSz"], ["w"; "h"]); (["pgMar"], ["top"; "left"; "bottom"; "right"; "header"; "footer"; "gutter"]);
    (["cols"], ["space"]); (["docGrid"], ["linePitch"; "type"]);
    (* drawings *)
    (["inline"; "anchor"], ["distT"; "distB"; "distL"; "distR"]);
    (["anchor"], ["simplePos"; "relativeHeight"; "behindDoc"; "locked"; "layoutInCell"; "allowOverlap"]);
    (["extent"; "ext"; "chExt"], ["cx"; "cy"]); (["simplePos"; "off"; "chOff"], ["x"; "y"]); (["effectExtent"], ["l"; "t"; "r"; "b"]);
    (["docPr"; "cNvPr"], ["id"; "name"]); (["graphicFrameLocks"], ["a"; "noChangeAspect"]); (["picLocks"], ["noChangeAspect"]);
    (["positionH"; "positionV"], ["relativeFrom"]); (["wrapSquare"], ["wrapText"]); (["graphic"], ["a"]); (["graphicData"], ["uri"]);
    (["pic"], ["pic"]); (["blip"], ["embed"; "cstate"]); (["alphaModFix"], ["amt"]); (["xfrm"], ["rot"; "flipH"; "flipV"]);
    (["prstGeom"], ["prst"]); (["headEnd"; "tailEnd"], ["type"; "w"; "len"]); (["ln"], ["w"; "cap"; "cmpd"; "algn"]); (["miter"], ["lim"]);
    (["tile"], ["tx"; "ty"; "sx"; "sy"; "flip"; "algn"]); (["blipFill"], ["dpi"; "rotWithShape"]); (["spPr"; "grpSpPr"], ["bwMode"]);
    (["spLocks"], ["noChangeArrowheads"]); (["cNvSpPr"], ["txBox"]);
    (["bodyPr"], ["rot"; "vert"; "wrap"; "lIns"; "tIns"; "rIns"; "bIns"; "anchor"; "anchorCtr"; "upright"]) ].
Definition read_attrs (l : string) : list string := flat_map (fun g => if mem l (fst g) then snd g else []) read_table.
(** the attributes with these names, in order, without prefixes *)
Definition seen (ns : list string) (a : list attr) : list (string * string) :=
  map (fun x => (snd (fst x), snd x)) (filter (fun x => mem (snd (fst x)) ns) a).

(** [renames t t']: [t'] is [t] with other prefixes for the names of elements
    and attributes and other attributes that mean nothing. *)
Inductive renames : tree -> tree -> Prop :=
| rn_elem : forall q q' a a' c c', snd q = snd q' -> seen (read_attrs (snd q)) a = seen (read_attrs (snd q)) a' ->
    Forall2 renames c c' -> renames (Elem q a c) (Elem q' a' c')
| rn_chr : forall s, renames (Chr s) (Chr s)
| rn_cmt : renames Cmt Cmt.

(** elements whose text is read *)
Definition wordy : list string := [ "t"; "posOffset"; "instrText" ].
(** An element with which the loader gets out of step if there is anything but
    elements among its children. *)
Definition fragile : string := "AlternateContent".
Fixpoint sturdy (t : tree) : Prop :=
  match t with
  | Elem q a c => (snd q = fragile -> Forall (fun x => match x with Elem _ _ _ => True | _ => False end) c) /\
                  (fix all l := match l with [] => True | x :: l' => sturdy x /\ all l' end) c
  | _ => True
  end.
(** [spaces t t']: [t'] is [t] with a text (white space, say) or a comment or
    processing instruction put somewhere among the children of an element. *)
Inductive spaces : tree -> tree -> Prop :=
| sp_text : forall q a l1 l2 s,
    ~ In (snd q) solid -> ~ In (snd q) wordy -> snd q <> fragile ->
    spaces (Elem q a (l1 ++ l2)) (Elem q a (l1 ++ Chr s :: l2))
| sp_misc : forall q a l1 l2,
    ~ In (snd q) solid -> snd q <> fragile ->
    spaces (Elem q a (l1 ++ l2)) (Elem q a (l1 ++ Cmt :: l2))
| sp_in : forall q a l1 l2 x x',
    ~ In (snd q) opaque -> spaces x x' -> spaces (Elem q a (l1 ++ x :: l2)) (Elem q a (l1 ++ x' :: l2)).

(** any number of such changes, there and back *)
Definition same_to_loader : tree -> tree -> Prop :=
  clos_refl_sym_trans tree (fun t t' => adds t t' \/ renames t t' \/ (sturdy t /\ spaces t t')).

(** [indents t t']: [t'] is [t] laid out for reading: text (line breaks and
    white space, say) and comments are put between the elements, but not into
    elements that have text or nothing at all in them. *)
Definition an_elem (t : tree) : Prop := match t with Elem _ _ _ => True | _ => False end.
Inductive indents : tree -> tree -> Prop :=
| ind_same : forall t, indents t t
| ind_elem : forall q a c c', c <> [] -> Forall an_elem c -> indents_all c c' -> indents (Elem q a c) (Elem q a c')
with indents_all : list tree -> list tree -> Prop :=
| ial_nil : indents_all [] []
| ial_child : forall x x' l l', indents x x' -> indents_all l l' -> indents_all (x :: l) (x' :: l')
| ial_text : forall s l l', indents_all l l' -> indents_all l (Chr s :: l')
| ial_misc : forall l l', indents_all l l' -> indents_all l (Cmt :: l').

(** ** what the loader looks at *)
(** whether a child of an element named [l] counts *)
Definition counts (l : string) (x : tree) : bool :=
  (mem l solid ||
   match x with
   | Elem q _ _ => mem l opaque || mem (snd q) known
   | Chr _ => mem l wordy || String.eqb l fragile
   | Cmt => String.eqb l fragile
   end)%bool.
Fixpoint thinned (t : tree) : tree :=
  match t with
  | Elem q a c => Elem q a (filter (counts (snd q)) (if mem (snd q) opaque then c else map thinned c))
  | _ => t
  end.
Fixpoint unnamed (t : tree) : tree :=
  match t with
  | Elem q a c => Elem ("", snd q) (map (fun x => (("", fst x), snd x)) (seen (read_attrs (snd q)) a)) (map unnamed c)
  | _ => t
  end.
(** [t] without everything that does not count, and without prefixes *)
Definition trimmed (t : tree) : tree := unnamed (thinned t).

(** [puts x l t t']: [t'] is [t] with [x] put somewhere among the children of an
    element named [l]. *)
Inductive puts (x : tree) (l : string) : tree -> tree -> Prop :=
| pt_here : forall q a l1 l2, snd q = l -> puts x l (Elem q a (l1 ++ l2)) (Elem q a (l1 ++ x :: l2))
| pt_in : forall q a l1 l2 y y', puts x l y y' -> puts x l (Elem q a (l1 ++ y :: l2)) (Elem q a (l1 ++ y' :: l2)).
