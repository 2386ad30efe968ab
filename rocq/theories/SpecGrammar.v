(** Specification: the elements of a document part and of its relationships, where they stand and which
    attributes they have. The names, the prefixes and the order of children
    follow ECMA-376 (WordprocessingML, DrawingML) and the Word 2010 extensions
    for shapes, canvases and groups, restricted to what the library supports. *)
From Coq Require Import String Ascii List Bool ZArith Permutation.
From Verif Require Import GoStr Num XmlTok.
Import ListNotations.
Local Open Scope string_scope.
Local Open Scope list_scope.

(** any string, or a whole number in decimal digits *)
Inductive kind := Str | Int.
(** written in any case; written only if it is set, that is, not empty and not 0 *)
Inductive need := Always | IfSet.
Definition fits (k : kind) (n : need) (v : string) : Prop :=
  match k, n with
  | Str, Always => True
  | Str, IfSet => v <> ""
  | Int, Always => exists z, v = itoa z
  | Int, IfSet => exists z, v = itoa z /\ z <> 0%Z
  end.
(** the attributes of an element, in order *)
Definition arule : Type := qname * kind * need.
Inductive attrs_fit : list arule -> list attr -> Prop :=
| af_nil : attrs_fit [] []
| af_here : forall q k n v l a, fits k n v -> attrs_fit l a -> attrs_fit ((q, k, n) :: l) ((q, v) :: a)
| af_skip : forall q k l a, attrs_fit l a -> attrs_fit ((q, k, IfSet) :: l) a.

(** the children of an element: one after another, each slot is filled by
    elements with one of its names: exactly one, at most one, or any number *)
Inductive card := One | Opt | Many.
Definition slot : Type := list qname * card.
Inductive slots_fit : list slot -> list tree -> Prop :=
| sf_nil : slots_fit [] []
| sf_here : forall ns n q a c l k, In q ns -> n <> Many -> slots_fit l k -> slots_fit ((ns, n) :: l) (Elem q a c :: k)
| sf_more : forall ns q a c l k, In q ns -> slots_fit ((ns, Many) :: l) k -> slots_fit ((ns, Many) :: l) (Elem q a c :: k)
| sf_skip : forall ns n l k, n <> One -> slots_fit l k -> slots_fit ((ns, n) :: l) k.

(** the contents: children in the order of the slots, children in any order, or
    text, which is left out if it is empty *)
Inductive content := Seq (l : list slot) | Any (l : list slot) | Chars (k : kind).
Record rule := mk_rule { r_attrs : list arule; r_content : content }.

(** ** the elements *)
Definition q_ (p l : string) : qname := (p, l).
Definition str (p l : string) : arule := (q_ p l, Str, Always).
Definition stro (p l : string) : arule := (q_ p l, Str, IfSet).
Definition int (p l : string) : arule := (q_ p l, Int, Always).
Definition into (p l : string) : arule := (q_ p l, Int, IfSet).
Definition one (p l : string) : slot := ([q_ p l], One).
Definition opt (p l : string) : slot := ([q_ p l], Opt).
Definition many (l : list qname) : slot := (l, Many).
(** no children; one value; a number; a value if it is set *)
Definition leaf (a : list arule) : rule := mk_rule a (Seq []).
Definition node (l : list slot) : rule := mk_rule [] (Seq l).
Definition val := leaf [str "w" "val"].
Definition valo := leaf [stro "w" "val"].
Definition vali := leaf [int "w" "val"].

Definition border_rule := leaf [stro "w" "val"; into "w" "sz"; into "w" "space"; stro "w" "color"].
Definition borders_rule := node [opt "w" "top"; opt "w" "left"; opt "w" "bottom"; opt "w" "right"; opt "w" "insideH"; opt "w" "insideV"].
Definition wtype_rule := leaf [int "w" "w"; str "w" "type"].
Definition nonvis_rule := leaf [int "" "id"; str "" "name"].
Definition off_rule := leaf [int "" "x"; int "" "y"].
Definition ext_rule := leaf [int "" "cx"; int "" "cy"].
Definition sppr_rule := mk_rule [str "" "bwMode"]
  (Seq [one "a" "xfrm"; one "a" "prstGeom"; many [q_ "a" "solidFill"; q_ "a" "blipFill"; q_ "a" "noFill"]; opt "a" "ln"]).
Definition lend_rule := leaf [stro "" "type"; stro "" "w"; stro "" "len"].
Definition wpos_rule := mk_rule [str "" "relativeFrom"] (Seq [one "wp" "posOffset"]).

Definition grammar : list (qname * rule) := [
  (** documents; the namespaces are declared on the root *)
  (q_ "w" "document", mk_rule [str "xmlns" "w"; stro "xmlns" "r"; stro "xmlns" "wp"; stro "xmlns" "wps"; stro "xmlns" "wpc"; stro "xmlns" "wpg"] (Seq [one "w" "body"]));
  (q_ "w" "body", node [many [q_ "w" "p"; q_ "w" "tbl"; q_ "w" "sectPr"]]);
  (** paragraphs. The library keeps w:rPr as a child of a paragraph and w:kern
      in its properties, which the standard does not have. *)
  (q_ "w" "p", node [opt "w" "pPr"; many [q_ "w" "r"; q_ "w" "hyperlink"; q_ "w" "rPr"]]);
  (q_ "w" "hyperlink", mk_rule [str "r" "id"] (Seq [one "w" "r"]));
  (q_ "w" "pPr", node [opt "w" "pStyle"; opt "w" "numPr"; opt "w" "shd"; opt "w" "tabs"; opt "w" "kinsoku"; opt "w" "overflowPunct"; opt "w" "adjustRightInd";
     opt "w" "snapToGrid"; opt "w" "spacing"; opt "w" "ind"; opt "w" "jc"; opt "w" "textAlignment"; opt "w" "kern"; opt "w" "rPr"]);
  (q_ "w" "numPr", node [opt "w" "ilvl"; opt "w" "numId"]);
  (q_ "w" "ilvl", val); (q_ "w" "numId", val); (q_ "w" "pStyle", val); (q_ "w" "jc", val); (q_ "w" "textAlignment", val);
  (q_ "w" "kinsoku", vali); (q_ "w" "overflowPunct", vali); (q_ "w" "adjustRightInd", vali); (q_ "w" "snapToGrid", vali); (q_ "w" "kern", vali);
  (q_ "w" "tabs", node [many [q_ "w" "tab"]]);
  (q_ "w" "tab", leaf [stro "w" "val"; into "w" "pos"]);
  (q_ "w" "spacing", leaf [into "w" "val"; into "w" "beforeLines"; into "w" "before"; into "w" "line"; stro "w" "lineRule"]);
  (q_ "w" "ind", leaf [into "w" "leftChars"; into "w" "left"; into "w" "firstLineChars"; into "w" "firstLine"; into "w" "hangingChars"; into "w" "hanging"]);
  (q_ "w" "shd", leaf [stro "w" "val"; stro "w" "color"; stro "w" "fill"; stro "w" "themeFill"; stro "w" "themeFillTint"]);
  (** runs; w:pStyle in run properties is not in the standard *)
  (q_ "w" "r", mk_rule [stro "xml" "space"] (Seq [opt "w" "rPr"; opt "w" "instrText"; many [q_ "w" "t"; q_ "w" "tab"; q_ "w" "br"; q_ "w" "drawing"]]));
  (q_ "w" "rPr", mk_rule [] (Any [opt "w" "rFonts"; opt "w" "b"; opt "w" "iCs"; opt "w" "i"; opt "w" "highlight"; opt "w" "color"; opt "w" "sz"; opt "w" "szCs";
     opt "w" "spacing"; opt "w" "rStyle"; opt "w" "pStyle"; opt "w" "shd"; opt "w" "kern"; opt "w" "u"; opt "w" "vertAlign"; opt "w" "strike"]));
  (q_ "w" "rFonts", leaf [stro "w" "ascii"; stro "w" "eastAsia"; stro "w" "hAnsi"; stro "w" "hint"]);
  (q_ "w" "b", leaf []); (q_ "w" "iCs", leaf []); (q_ "w" "i", leaf []);
  (q_ "w" "highlight", valo); (q_ "w" "u", valo);
  (q_ "w" "color", val); (q_ "w" "sz", val); (q_ "w" "szCs", val); (q_ "w" "rStyle", val); (q_ "w" "vertAlign", val); (q_ "w" "strike", val);
  (q_ "w" "t", mk_rule [stro "xml" "space"] (Chars Str));
  (q_ "w" "instrText", mk_rule [] (Chars Str));
  (q_ "w" "br", leaf [stro "w" "type"]);
  (** drawings *)
  (q_ "w" "drawing", node [opt "wp" "inline"; opt "wp" "anchor"]);
  (q_ "wp" "inline", mk_rule [int "" "distT"; int "" "distB"; int "" "distL"; int "" "distR"]
     (Seq [opt "wp" "extent"; opt "wp" "effectExtent"; opt "wp" "docPr"; opt "wp" "cNvGraphicFramePr"; opt "a" "graphic"]));
  (q_ "wp" "anchor", mk_rule [int "" "distT"; int "" "distB"; int "" "distL"; int "" "distR"; int "" "simplePos"; int "" "relativeHeight"; int "" "behindDoc";
       int "" "locked"; int "" "layoutInCell"; int "" "allowOverlap"]
     (Seq [opt "wp" "simplePos"; opt "wp" "positionH"; opt "wp" "positionV"; opt "wp" "extent"; opt "wp" "effectExtent"; opt "wp" "wrapNone"; opt "wp" "wrapSquare";
        opt "wp" "docPr"; opt "wp" "cNvGraphicFramePr"; opt "a" "graphic"]));
  (q_ "wp" "extent", ext_rule);
  (q_ "wp" "effectExtent", leaf [int "" "l"; int "" "t"; int "" "r"; int "" "b"]);
  (q_ "wp" "docPr", leaf [int "" "id"; stro "" "name"]);
  (q_ "wp" "cNvGraphicFramePr", node [one "a" "graphicFrameLocks"]);
  (q_ "a" "graphicFrameLocks", leaf [stro "xmlns" "a"; into "" "noChangeAspect"]);
  (q_ "wp" "simplePos", off_rule);
  (q_ "wp" "positionH", wpos_rule); (q_ "wp" "positionV", wpos_rule); (q_ "wp" "posOffset", mk_rule [] (Chars Int));
  (q_ "wp" "wrapNone", leaf []); (q_ "wp" "wrapSquare", leaf [str "" "wrapText"]);
  (q_ "a" "graphic", mk_rule [stro "xmlns" "a"] (Seq [opt "a" "graphicData"]));
  (q_ "a" "graphicData", mk_rule [str "" "uri"] (Seq [opt "pic" "pic"; opt "wps" "wsp"; opt "wpc" "wpc"; opt "wpg" "wgp"]));
  (** pictures *)
  (q_ "pic" "pic", mk_rule [stro "xmlns" "pic"] (Seq [opt "pic" "nvPicPr"; opt "pic" "blipFill"; opt "pic" "spPr"]));
  (q_ "pic" "nvPicPr", node [one "pic" "cNvPr"; one "pic" "cNvPicPr"]);
  (q_ "pic" "cNvPr", nonvis_rule);
  (q_ "pic" "cNvPicPr", node [opt "a" "picLocks"]);
  (q_ "a" "picLocks", leaf [int "" "noChangeAspect"]);
  (q_ "pic" "blipFill", node [one "a" "blip"; one "a" "stretch"]);
  (q_ "a" "blip", mk_rule [str "r" "embed"; stro "" "cstate"] (Seq [opt "a" "alphaModFix"]));
  (q_ "a" "alphaModFix", leaf [int "" "amt"]);
  (q_ "a" "stretch", node [opt "a" "fillRect"]); (q_ "a" "fillRect", leaf []);
  (q_ "pic" "spPr", node [one "a" "xfrm"; opt "a" "prstGeom"]);
  (q_ "a" "xfrm", mk_rule [into "" "rot"; into "" "flipH"; into "" "flipV"] (Seq [one "a" "off"; one "a" "ext"; opt "a" "chOff"; opt "a" "chExt"]));
  (q_ "a" "off", off_rule); (q_ "a" "ext", ext_rule); (q_ "a" "chOff", off_rule); (q_ "a" "chExt", ext_rule);
  (q_ "a" "prstGeom", mk_rule [str "" "prst"] (Seq [opt "a" "avLst"])); (q_ "a" "avLst", leaf []);
  (** shapes *)
  (q_ "wps" "wsp", node [opt "wps" "cNvPr"; opt "wps" "cNvCnPr"; opt "wps" "cNvSpPr"; opt "wps" "spPr"; opt "wps" "txbx"; opt "wps" "bodyPr"]);
  (q_ "wps" "cNvPr", nonvis_rule);
  (q_ "wps" "cNvCnPr", node [opt "a" "cxnSpLocks"]); (q_ "a" "cxnSpLocks", leaf []);
  (q_ "wps" "cNvSpPr", mk_rule [into "" "txBox"] (Seq [opt "a" "spLocks"])); (q_ "a" "spLocks", leaf [into "" "noChangeArrowheads"]);
  (q_ "wps" "spPr", sppr_rule);
  (q_ "a" "solidFill", node [opt "a" "srgbClr"]); (q_ "a" "srgbClr", leaf [str "" "val"]);
  (q_ "a" "noFill", leaf []);
  (q_ "a" "blipFill", mk_rule [int "" "dpi"; int "" "rotWithShape"] (Seq [opt "a" "blip"; opt "a" "srcRect"; opt "a" "tile"]));
  (q_ "a" "srcRect", leaf []);
  (q_ "a" "tile", leaf [int "" "tx"; int "" "ty"; int "" "sx"; int "" "sy"; str "" "flip"; str "" "algn"]);
  (q_ "a" "ln", mk_rule [into "" "w"; stro "" "cap"; stro "" "cmpd"; stro "" "algn"]
     (Seq [opt "a" "noFill"; opt "a" "solidFill"; opt "a" "prstDash"; opt "a" "miter"; opt "a" "round"; opt "a" "headEnd"; opt "a" "tailEnd"]));
  (q_ "a" "prstDash", leaf [str "" "val"]); (q_ "a" "miter", leaf [str "" "lim"]); (q_ "a" "round", leaf []);
  (q_ "a" "headEnd", lend_rule); (q_ "a" "tailEnd", lend_rule);
  (q_ "wps" "txbx", node [opt "w" "txbxContent"]);
  (q_ "w" "txbxContent", node [many [q_ "w" "p"]]);
  (q_ "wps" "bodyPr", mk_rule [int "" "rot"; stro "" "vert"; stro "" "wrap"; int "" "lIns"; int "" "tIns"; int "" "rIns"; int "" "bIns"; stro "" "anchor";
      int "" "anchorCtr"; int "" "upright"] (Seq [opt "a" "noAutofit"]));
  (q_ "a" "noAutofit", leaf []);
  (** canvases and groups *)
  (q_ "wpc" "wpc", node [opt "wpc" "bg"; opt "wpc" "whole"; many [q_ "wps" "wsp"; q_ "pic" "pic"; q_ "wpg" "wgp"]]);
  (q_ "wpc" "bg", node [opt "a" "noFill"]); (q_ "wpc" "whole", node [opt "a" "ln"]);
  (q_ "wpg" "wgp", node [opt "wpg" "cNvGrpSpPr"; opt "wpg" "grpSpPr"; many [q_ "pic" "pic"; q_ "wps" "wsp"; q_ "wpc" "wpc"; q_ "wpg" "grpSp"]]);
  (q_ "wpg" "grpSp", node [opt "wpg" "cNvPr"; opt "wpg" "cNvGrpSpPr"; opt "wpg" "grpSpPr"; many [q_ "pic" "pic"; q_ "wps" "wsp"; q_ "wpc" "wpc"; q_ "wpg" "grpSp"]]);
  (q_ "wpg" "cNvPr", nonvis_rule); (q_ "wpg" "grpSpPr", sppr_rule);
  (q_ "wpg" "cNvGrpSpPr", node [opt "a" "grpSpLocks"]); (q_ "a" "grpSpLocks", leaf []);
  (** tables *)
  (q_ "w" "tbl", node [opt "w" "tblPr"; opt "w" "tblGrid"; many [q_ "w" "tr"]]);
  (q_ "w" "tblPr", node [opt "w" "tblStyle"; opt "w" "tblpPr"; opt "w" "tblW"; opt "w" "jc"; opt "w" "tblBorders"; opt "w" "tblLook"]);
  (q_ "w" "tblStyle", val);
  (q_ "w" "tblpPr", leaf [into "w" "leftFromText"; into "w" "rightFromText"; stro "w" "vertAnchor"; stro "w" "horzAnchor"; stro "w" "tblpXSpec"; stro "w" "tblpYSpec";
     into "w" "tblpX"; into "w" "tblpY"]);
  (q_ "w" "tblW", wtype_rule); (q_ "w" "tblBorders", borders_rule);
  (q_ "w" "tblLook", leaf [str "w" "val"; int "w" "firstRow"; int "w" "lastRow"; int "w" "firstColumn"; int "w" "lastColumn"; int "w" "noHBand"; int "w" "noVBand"]);
  (q_ "w" "top", border_rule); (q_ "w" "left", border_rule); (q_ "w" "bottom", border_rule); (q_ "w" "right", border_rule);
  (q_ "w" "insideH", border_rule); (q_ "w" "insideV", border_rule);
  (q_ "w" "tblGrid", node [many [q_ "w" "gridCol"]]); (q_ "w" "gridCol", leaf [int "w" "w"]);
  (q_ "w" "tr", node [opt "w" "trPr"; many [q_ "w" "tc"]]);
  (q_ "w" "trPr", mk_rule [] (Any [opt "w" "trHeight"; opt "w" "jc"]));
  (q_ "w" "trHeight", leaf [stro "w" "hRule"; int "w" "val"]);
  (q_ "w" "tc", node [opt "w" "tcPr"; many [q_ "w" "p"]]);
  (q_ "w" "tcPr", node [opt "w" "tcW"; opt "w" "gridSpan"; opt "w" "vMerge"; opt "w" "tcBorders"; opt "w" "shd"; opt "w" "vAlign"]);
  (q_ "w" "tcW", wtype_rule); (q_ "w" "vMerge", valo); (q_ "w" "gridSpan", vali); (q_ "w" "tcBorders", borders_rule); (q_ "w" "vAlign", val);
  (** sections *)
  (q_ "w" "sectPr", node [opt "w" "pgSz"; opt "w" "pgMar"; opt "w" "cols"; opt "w" "docGrid"]);
  (q_ "w" "pgSz", leaf [int "w" "w"; int "w" "h"]);
  (q_ "w" "pgMar", leaf [int "w" "top"; int "w" "left"; int "w" "bottom"; int "w" "right"; int "w" "header"; int "w" "footer"; int "w" "gutter"]);
  (q_ "w" "cols", leaf [int "w" "space"]);
  (q_ "w" "docGrid", leaf [str "w" "type"; int "w" "linePitch"]);
  (** relationships *)
  (q_ "" "Relationships", mk_rule [str "" "xmlns"] (Seq [many [q_ "" "Relationship"]]));
  (q_ "" "Relationship", leaf [str "" "Id"; str "" "Type"; str "" "Target"; stro "" "TargetMode"])].

(** ** trees that follow the grammar *)
Fixpoint rule_of (l : list (qname * rule)) (q : qname) : option rule :=
  match l with
  | [] => None
  | (k, r) :: l' => if String.eqb (fst k) (fst q) && String.eqb (snd k) (snd q) then Some r else rule_of l' q
  end.
Definition content_fit (loose : bool) (x : content) (c : list tree) : Prop :=
  match x with
  | Seq l => if loose then exists c', Permutation c c' /\ slots_fit l c' else slots_fit l c
  | Any l => exists c', Permutation c c' /\ slots_fit l c'
  | Chars Str => c = [] \/ exists s, c = [Chr s] /\ s <> ""
  | Chars Int => exists z, c = [Chr (itoa z)]
  end.
(** The trees that follow the grammar [g]. The children of the elements in
    [loose] may be in another order. *)
Inductive conforms (g : list (qname * rule)) (loose : list qname) : tree -> Prop :=
| conf_elem : forall q a c r, rule_of g q = Some r -> attrs_fit (r_attrs r) a ->
    content_fit (existsb (fun k => String.eqb (fst k) (fst q) && String.eqb (snd k) (snd q)) loose) (r_content r) c ->
    Forall (conforms g loose) c -> conforms g loose (Elem q a c)
| conf_chr : forall s, conforms g loose (Chr s).
(** a file that consists of an XML declaration and one element [q] *)
Definition follows (g : list (qname * rule)) (loose : list qname) (q : qname) (ts : list token) : Prop :=
  exists a c, ts = TMisc :: TChar (String "010" "") :: toks (Elem q a c) /\ conforms g loose (Elem q a c).

(** the elements whose children the library writes in an order of its own *)
Definition own_order : list qname := [q_ "w" "pPr"; q_ "w" "numPr"; q_ "w" "tblPr"; q_ "w" "tcPr"].
Definition but (q : qname) (l : list qname) : list qname := filter (fun k => negb (String.eqb (fst k) (fst q) && String.eqb (snd k) (snd q))) l.
(** this order *)
Definition own_rules : list (qname * rule) := [
  (q_ "w" "pPr", node [opt "w" "tabs"; opt "w" "spacing"; opt "w" "numPr"; opt "w" "ind"; opt "w" "jc"; opt "w" "shd"; opt "w" "kern"; opt "w" "pStyle"; opt "w" "textAlignment";
     opt "w" "adjustRightInd"; opt "w" "snapToGrid"; opt "w" "kinsoku"; opt "w" "overflowPunct"; opt "w" "rPr"]);
  (q_ "w" "numPr", node [opt "w" "numId"; opt "w" "ilvl"]);
  (q_ "w" "tblPr", node [opt "w" "tblpPr"; opt "w" "tblStyle"; opt "w" "tblW"; opt "w" "jc"; opt "w" "tblBorders"; opt "w" "tblLook"]);
  (q_ "w" "tcPr", node [opt "w" "tcW"; opt "w" "vMerge"; opt "w" "gridSpan"; opt "w" "tcBorders"; opt "w" "shd"; opt "w" "vAlign"])].
Definition own_grammar : list (qname * rule) := own_rules ++ grammar.

(** The pairs of children that this order exchanges: of each pair the first is
    written first, but the second stands first in the standard. *)
Definition exchanged (q : qname) : list (string * string) :=
  if String.eqb (fst q) "w" then
    if String.eqb (snd q) "numPr" then [("numId", "ilvl")]
    else if String.eqb (snd q) "tblPr" then [("tblpPr", "tblStyle")]
    else if String.eqb (snd q) "tcPr" then [("vMerge", "gridSpan")]
    else if String.eqb (snd q) "pPr" then
      let after (x : string) (l : list string) := map (fun y => (x, y)) l in
      after "tabs" ["numPr"; "shd"; "pStyle"] ++
      after "spacing" ["numPr"; "shd"; "pStyle"; "adjustRightInd"; "snapToGrid"; "kinsoku"; "overflowPunct"] ++
      after "numPr" ["pStyle"] ++
      after "ind" ["shd"; "pStyle"; "adjustRightInd"; "snapToGrid"; "kinsoku"; "overflowPunct"] ++
      after "jc" ["shd"; "pStyle"; "adjustRightInd"; "snapToGrid"; "kinsoku"; "overflowPunct"] ++
      after "shd" ["pStyle"] ++
      after "kern" ["pStyle"; "textAlignment"; "adjustRightInd"; "snapToGrid"; "kinsoku"; "overflowPunct"] ++
      after "textAlignment" ["adjustRightInd"; "snapToGrid"; "kinsoku"; "overflowPunct"] ++
      after "adjustRightInd" ["kinsoku"; "overflowPunct"] ++
      after "snapToGrid" ["kinsoku"; "overflowPunct"]
    else []
  else [].
(** the elements of a tree *)
Inductive within (t : tree) : tree -> Prop :=
| within_self : within t t
| within_child : forall q a c x, In x c -> within t x -> within t (Elem q a c).
Definition has_child (n : string) (c : list tree) : Prop := exists a k, In (Elem (q_ "w" n) a k) c.
Definition no_exchange (t : tree) : Prop := forall q a c, within (Elem q a c) t ->
  forall x y, In (x, y) (exchanged q) -> ~ (has_child x c /\ has_child y c).
