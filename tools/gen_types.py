#!/usr/bin/env python3
"""Writes rocq/theories/Types.v: the Go struct types as Coq records, with field
setters and zero values.  Run from anywhere; output is committed."""
R=[]
def rec(name, cite, fields, params=""):
    R.append((name,cite,[f.strip().split(":",1) for f in fields.strip().split(";") if f.strip()],params))
S="string"; I="i64"; B="bool"
def O(t): return "option (%s)"%t
rec("rfonts","structrun.go:323-329 RunFonts","ascii:string; eastAsia:string; hAnsi:string; hint:string")
rec("spacing","structeffects.go:281-290 Spacing","val:i64; beforeLines:i64; before:i64; line:i64; lineRule:string")
rec("ind","structeffects.go:328-337 Ind","leftChars:i64; left:i64; firstLineChars:i64; firstLine:i64; hangingChars:i64; hanging:i64")
rec("shade","structeffects.go:120-127 Shade","val:string; color:string; fill:string; themeFill:string; themeFillTint:string")
rec("rpr","structrun.go:202-220 RunProperties. Pointers to structs with one string (or int64) field are [option]; pointers to empty structs (Bold, ICs, Italic) are [bool]",
 "fonts:option rfonts; bold:bool; ics:bool; italic:bool; highlight:option string; color:option string; size:option string; sizeCs:option string; spacing:option spacing; runStyle:option string; style:option string; shade:option shade; kern:option i64; underline:option string; vertAlign:option string; strike:option string")
rec("tab","structtext.go:63-67 Tab","val:string; pos:i64")
rec("numpr","structnum.go:26-42 NumProperties","numID:option string; ilvl:option string")
rec("ppr","structpara.go:31-48 ParagraphProperties. Tabs (structtext.go:31-34) is its slice; nil elements in that slice are not modelled",
 "tabs:option (list tab); spacing:option spacing; num:option numpr; ind:option ind; jc:option string; shade:option shade; kern:option i64; style:option string; textAlignment:option string; adjustRightInd:option i64; snapToGrid:option i64; kinsoku:option i64; overflowPunct:option i64; rpr:option rpr")
rec("text","structtext.go:111-117 Text","space:string; text:string")
rec("runR","structrun.go:32-45 Run. The field file is only read while decoding and is not stored",
 "space:string; rpr:option rpr; instr:string; children:list C","C")
rec("paraR","structpara.go:171-183 Paragraph","ppr:option ppr; children:list C; file:option nat","C")
rec("xy","structdrawing.go:1063-1073 AOff, AExt; 347-351 WPExtent; 1435-1439 WPSimplePos (two int64)","x:i64; y:i64")
rec("eff","structdrawing.go:373-379 WPEffectExtent","l:i64; t:i64; r:i64; b:i64")
rec("nonvis","structeffects.go:255-258 NonVisualProperties; structdrawing.go:405-409 WPDocPr","id:i64; name:string")
rec("glocks","structdrawing.go:434-437 WPCNvGraphicFramePr with its AGraphicFrameLocks (475-479)","xmla:string; noChange:i64")
rec("ablip","structdrawing.go:805-810 ABlip","embed:string; cstate:string; alpha:option i64")
rec("picblip","structdrawing.go:763-767 PICBlipFill; stretch = AStretch.FillRect is not nil (865-868)","blip:ablip; stretch:bool")
rec("nvpic","structdrawing.go:666-670 PICNonVisualPicProperties; locks = PicCNvPicPr.Locks (713-716, 757-760)","nv:nonvis; locks:option i64")
rec("xfrm","structdrawing.go:958-967 AXfrm","rot:i64; flipH:i64; flipV:i64; off:xy; ext:xy; chOff:option xy; chExt:option xy")
rec("geom","structdrawing.go:1077-1081 APrstGeom","prst:string; avLst:bool")
rec("picsp","structdrawing.go:913-917 PICSpPr","xfrm:xfrm; geom:option geom")
rec("pic","structdrawing.go:611-617 Picture","xmlpic:string; nvpic:option nvpic; blip:option picblip; sp:option picsp")
rec("lend","structshape.go:476-481 AHeadEnd, 503-508 ATailEnd","type:string; w:string; len:string")
rec("aline","structshape.go:326-340 ALine; solid = ASolidFill with its SrgbClr (415-418, 458-461)","w:i64; cap:string; cmpd:string; algn:string; noFill:bool; solid:option (option string); dash:option string; miter:option string; round:bool; head:option lend; tail:option lend")
rec("tile","structshape.go:287-295 ATile","tx:i64; ty:i64; sx:i64; sy:i64; flip:string; algn:string")
rec("blipfill","structshape.go:213-221 ABlipFill","dpi:i64; rot:i64; blip:option ablip; srcRect:bool; tile:option tile")
rec("sppr","structeffects.go:177-189 ShapeProperties","bwMode:string; xfrm:xfrm; geom:geom; solid:option (option string); blip:option blipfill; noFill:bool; line:option aline")
rec("cnvsp","structshape.go:138-143 WPSCNvSpPr, 189-192 ASPLocks","txBox:i64; locks:option i64")
rec("bodypr","structshape.go:612-626 WPSBodyPr","rot:i64; vert:string; wrap:string; lIns:i64; tIns:i64; rIns:i64; bIns:i64; anchor:string; anchorCtr:i64; upright:i64; noAutofit:bool")
rec("shapeR","structshape.go:30-40 WordprocessingShape. cnvCn = WPSCNvCnPr with its ConnShapeLocks (105-108); textBox = WPSTextBox, its Content and that one's Paragraphs (530-576)",
 "cnvPr:option nonvis; cnvCn:option bool; cnvSp:option cnvsp; sp:option sppr; textBox:option (option (list P)); body:option bodypr","P")
rec("canvasR","structcanvas.go:30-38 WordprocessingCanvas; bg = WPCBackground.NoFill (102-105), whole = WPCWhole.Line (135-138)",
 "bg:option bool; whole:option (option aline); items:list E","E")
rec("groupR","structgroup.go:30-37 WordprocessingGroup; cnv = WPGcNvGrpSpPr.Locks present (110-113)","cnv:option bool; sp:option sppr; elems:list E","E")
rec("gshapeR","structgroup.go:152-160 WPGGroupShape","cnvPr:option nonvis; cnv:option bool; sp:option sppr; elems:list E","E")
rec("gdataR","structdrawing.go:533-543 AGraphicData","uri:string; pic:option pic; shape:option Sh; canvas:option Ca; group:option Gr","Sh Ca Gr")
rec("graphicR","structdrawing.go:482-488 AGraphic","xmla:string; data:option D","D")
rec("inlineR","structdrawing.go:117-133 WPInline","distT:i64; distB:i64; distL:i64; distR:i64; extent:option xy; effect:option eff; docPr:option nonvis; frame:option glocks; graphic:option G; file:option nat","G")
rec("wpos","structdrawing.go:1442-1446 WPPositionH, 1485-1489 WPPositionV","rel:string; off:i64")
rec("anchorR","structdrawing.go:1174-1199 WPAnchor","distT:i64; distB:i64; distL:i64; distR:i64; simplePos:i64; relHeight:i64; behindDoc:i64; locked:i64; layoutInCell:i64; allowOverlap:i64; simpleXY:option xy; posH:option wpos; posV:option wpos; extent:option xy; effect:option eff; wrapNone:bool; wrapSquare:option string; docPr:option nonvis; frame:option glocks; graphic:option G; file:option nat","G")
rec("border","structtable.go:774-779 WTableBorder","val:string; size:i64; space:i64; color:string")
rec("borders","structtable.go:697-704 WTableBorders","top:option border; left:option border; bottom:option border; right:option border; insideH:option border; insideV:option border")
rec("wtype","structtable.go:265-269 WTableWidth, 666-670 WTableCellWidth","w:i64; type:string")
rec("tblpos","structtable.go:188-198 WTablePositioningProperties","leftFT:i64; rightFT:i64; vertAnchor:string; horzAnchor:string; xspec:string; yspec:string; x:i64; y:i64")
rec("look","structtable.go:295-304 WTableLook","val:string; firstRow:i64; lastRow:i64; firstCol:i64; lastCol:i64; noHBand:i64; noVBand:i64")
rec("tblpr","structtable.go:108-116 WTableProperties","pos:option tblpos; style:option string; width:option wtype; jc:option string; borders:option borders; look:option look")
rec("trheight","structtable.go:528-532 WTableRowHeight","rule:string; val:i64")
rec("trpr","structtable.go:466-470 WTableRowProperties","height:option trheight; jc:option string")
rec("tcpr","structtable.go:584-592 WTableCellProperties","width:option wtype; vMerge:option string; span:option i64; borders:option borders; shade:option shade; vAlign:option string")
rec("pgsz","structsect.go:37-40 PgSz","w:i64; h:i64")
rec("pgmar","structsect.go:43-51 PgMar","top:i64; left:i64; bottom:i64; right:i64; header:i64; footer:i64; gutter:i64")
rec("docgrid","structsect.go:59-62 DocGrid","type:string; pitch:i64")
rec("sect","structsect.go:28-34 SectPr; cols = Cols.Space (54-56)","pgSz:option pgsz; pgMar:option pgmar; cols:option i64; grid:option docgrid")

KNOT='''
(** The recursive element types. The interface{} slices of the Go structs are
    restricted to the element kinds the package itself puts into them. *)
Inductive para :=
| Para (r : paraR pchild)
(** Paragraph.Children: Run, Hyperlink (structlink.go:30-34), RunProperties *)
with pchild :=
| PRun (r : runR rchild)
| PLink (id : string) (r : runR rchild)
| PRPr (r : rpr)
(** Run.Children: Text, Tab, BarterRabbet (structtext.go:92-95), Drawing
    (structdrawing.go:46-52; its file field is only read while decoding) *)
with rchild :=
| RText (t : text)
| RTab (t : tab)
| RBr (type : string)
| RDraw (i : option (inlineR (graphicR (gdataR shape canvas group))))
        (a : option (anchorR (graphicR (gdataR shape canvas group))))
with shape := Shape (s : shapeR para)
with canvas := Canvas (c : canvasR citem)
(** WordprocessingCanvas.Items *)
with citem := CShape (s : shape) | CPic (p : pic) | CGroup (g : group)
with group := Group (g : groupR gelem)
(** Elems of WordprocessingGroup and WPGGroupShape *)
with gelem := GPic (p : pic) | GShape (s : shape) | GCanvas (c : canvas) | GGrp (g : gshapeR gelem).

Definition run := runR rchild.
Definition gdata := gdataR shape canvas group.
Definition graphic := graphicR gdata.
Definition inline := inlineR graphic.
Definition anchor := anchorR graphic.
Definition gshape := gshapeR gelem.

Definition para_r (p : para) : paraR pchild := match p with Para r => r end.
Definition para_ppr (p : para) := paraR_ppr (para_r p).
Definition para_children (p : para) := paraR_children (para_r p).
Definition para_file (p : para) := paraR_file (para_r p).
Definition mk_para (pp : option ppr) (c : list pchild) (f : option nat) : para := Para (mk_paraR pp c f).
Definition set_para_children (c : list pchild) (p : para) : para := mk_para (para_ppr p) c (para_file p).
Definition set_para_ppr (q : option ppr) (p : para) : para := mk_para q (para_children p) (para_file p).
'''
LATE=[]
def late(name,cite,fields,params=""):
    LATE.append((name,cite,[f.strip().split(":",1) for f in fields.strip().split(";") if f.strip()],params))
late("cell","structtable.go:535-541 WTableCell","props:option tcpr; paras:list para; file:option nat")
late("row","structtable.go:402-411 WTableRow; file is only read while decoding","props:option trpr; cells:list cell")
late("table","structtable.go:30-37 Table; grid columns may be nil pointers (337-340, 375-378); file is only read while decoding","props:option tblpr; grid:option (list (option i64)); rows:list row")

END='''
(** Body.Items (structdoc.go:58-62): paragraphs, tables, section properties. *)
Inductive item :=
| IPara (p : para)
| ITable (t : table)
| ISect (s : sect).
'''
def zero(t):
    t=t.strip()
    if t=="string": return '""'
    if t=="i64": return "i0"
    if t=="bool": return "false"
    if t.startswith("option"): return "None"
    if t.startswith("list"): return "[]"
    return t+"0"
def emit(r):
    name,cite,fields,params=r
    o=[]
    ps=params.split()
    pdecl=" ".join("{%s : Type}"%p for p in ps)
    o.append("(** %s *)"%cite)
    o.append("Record %s%s := mk_%s {"%(name, "".join(" (%s : Type)"%p for p in ps), name))
    o.append(";\n".join("  %s_%s : %s"%(name,f.strip(),t.strip()) for f,t in fields))
    o.append("}.")
    if ps:
        o.append("Arguments mk_%s {%s}."%(name," ".join(ps)))
        for f,t in fields: o.append("Arguments %s_%s {%s}."%(name,f.strip()," ".join(ps)))
    ty="%s %s"%(name," ".join(ps)) if ps else name
    for i,(f,t) in enumerate(fields):
        o.append("Definition set_%s_%s %s (v : %s) (x : %s) : %s :=\n  mk_%s %s."%(name,f.strip(),pdecl,t.strip(),ty,ty,name," ".join("v" if j==i else "(%s_%s x)"%(name,g.strip()) for j,(g,_) in enumerate(fields))))
    o.append("Definition %s0 %s : %s := mk_%s %s."%(name,pdecl,ty,name," ".join(zero(t) for f,t in fields)))
    return "\n".join(o)+"\n"
out=['''(** The element types of the package as Coq records (written by
    tools/gen_types.py). The XMLName fields are constants fixed by the struct
    tags and are left out. Go int and int64 are [i64]; a pointer to a struct is
    an [option]; a pointer to an empty struct is a [bool]; [file] is the number
    of the document in the world (see Docx.v) that the Go pointer refers to.
    [set_R_f] is the field assignment, [R0] the Go zero value. *)
From Coq Require Import String List.
From Verif Require Import GoStr Num.
Import ListNotations.
Local Open Scope string_scope.
''']
for r in R: out.append(emit(r))
out.append(KNOT)
for r in LATE: out.append(emit(r))
out.append(END)
open("/verif/rocq/theories/Types.v","w").write("\n".join(out))
