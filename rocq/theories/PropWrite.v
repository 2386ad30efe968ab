(** C63: the exact contents of the file for a document written call by call. *)
From Coq Require Import String Ascii List Bool Arith NArith ZArith Permutation.
From Verif Require Import GoStr Num Lib Types Docx Api Pack History PropApi SpecPack SpecClean SpecWrite WriteFacts2.
Import ListNotations.
Local Open Scope list_scope.
Local Open Scope string_scope.

(** Without UseTemplate the file has the two parts and the pictures, and they
    are these. *)
Theorem C63_file : forall (L : GoLib) l p, write_calls l empty_paper = Some p ->
  (N.of_nat (length (p_refs p)) < 2 ^ 63 - 4)%N /\ (N.of_nat (length (p_names p)) < 2 ^ 63 - 4)%N ->
  (forall n t, ~ In (OTemplate n t) l) -> file_names (image_parts 0 (p_refs p)) ->
  exists d, run_ops (ONew :: l) [] = Some [d] /\
  forall c, (forall s, cleans s (c s)) -> forall r, writes d r <->
  exists ar, r = Ok ar /\ Permutation ((DOC_NAME, Some (document_text c p)) :: (RELS_NAME, Some (relations_text c p)) :: image_parts 0 (p_refs p)) ar.
Proof. exact @exact_file. Qed.
Print Assumptions C63_file.

(** With a template, the two parts and the pictures are still these. *)
Theorem C63_parts : forall (L : GoLib) l p, write_calls l empty_paper = Some p ->
  (N.of_nat (length (p_refs p)) < 2 ^ 63 - 4)%N /\ (N.of_nat (length (p_names p)) < 2 ^ 63 - 4)%N ->
  exists d, run_ops (ONew :: l) [] = Some [d] /\ d_tmpl d = templates l no_tmpl /\
  forall c, (forall s, cleans s (c s)) -> forall ar, writes d (Ok ar) ->
  (forall x, (In (DOC_NAME, x) ar <-> x = Some (document_text c p)) /\ (In (RELS_NAME, x) ar <-> x = Some (relations_text c p))) /\
  forall x, In x (image_parts 0 (p_refs p)) -> In x ar.
Proof. exact @exact_text. Qed.
Print Assumptions C63_parts.

(** Formatted text with markup characters and a tab, a numbered and centred
    paragraph, a link, a page break, a table with a paragraph in a cell. *)
Definition ex_calls : list op :=
  [OAddPara 0; OPara 0 (ABody 0) (OText ("a<b" ++ String "009" "c")); OPara 0 (ABody 0) (ORun 0 RBold); OPara 0 (ABody 0) (ORun 0 (RSize "24")); OPara 0 (ABody 0) (ORun 0 (RSpacing (i64_of (-7))));
   OPara 0 (ABody 0) (OLink "x" "u?a&b"); OPara 0 (ABody 0) (OJc "center"); OPara 0 (ABody 0) (ONum "1" "0");
   OTwips 0 [i64_of 30] [i64_of 50; i64_of (-1)] (i64_of 0) None; OCellPara 0 1 0 1; OPara 0 (ACell 1 0 1 0) OBreak; OPage 0 false].
Definition ex_body : string :=
  "<w:p><w:pPr><w:numPr><w:numId w:val=""1""></w:numId><w:ilvl w:val=""0""></w:ilvl></w:numPr><w:jc w:val=""center""></w:jc><w:rPr></w:rPr></w:pPr>" ++
  "<w:r><w:rPr><w:b></w:b><w:sz w:val=""24""></w:sz><w:spacing w:line=""-7""></w:spacing></w:rPr><w:t>a&lt;b</w:t><w:tab></w:tab><w:t>c</w:t></w:r>" ++
  "<w:hyperlink r:id=""rId4""><w:r><w:rPr><w:rStyle w:val=""a3""></w:rStyle></w:rPr><w:instrText>x</w:instrText></w:r></w:hyperlink></w:p>" ++
  "<w:tbl><w:tblPr><w:tblW w:w=""0"" w:type=""auto""></w:tblW><w:tblBorders><w:top w:val=""single"" w:sz=""4"" w:color=""#000000""></w:top>" ++
  "<w:left w:val=""single"" w:sz=""4"" w:color=""#000000""></w:left><w:bottom w:val=""single"" w:sz=""4"" w:color=""#000000""></w:bottom>" ++
  "<w:right w:val=""single"" w:sz=""4"" w:color=""#000000""></w:right><w:insideH w:val=""single"" w:sz=""4"" w:color=""#000000""></w:insideH>" ++
  "<w:insideV w:val=""single"" w:sz=""4"" w:color=""#000000""></w:insideV></w:tblBorders><w:tblLook w:val=""0000"" w:firstRow=""0"" w:lastRow=""0"" " ++
  "w:firstColumn=""0"" w:lastColumn=""0"" w:noHBand=""0"" w:noVBand=""0""></w:tblLook></w:tblPr><w:tblGrid><w:gridCol w:w=""50""></w:gridCol></w:tblGrid>" ++
  "<w:tr><w:trPr><w:trHeight w:val=""30""></w:trHeight></w:trPr><w:tc><w:tcPr><w:tcW w:w=""50"" w:type=""dxa""></w:tcW></w:tcPr></w:tc>" ++
  "<w:tc><w:tcPr><w:tcW w:w=""-1"" w:type=""dxa""></w:tcW></w:tcPr><w:p><w:r><w:rPr></w:rPr><w:br w:type=""page""></w:br></w:r></w:p></w:tc></w:tr></w:tbl>" ++
  "<w:sectPr><w:pgSz w:w=""11906"" w:h=""16838""></w:pgSz></w:sectPr>".
Example C63_ex :
  option_map (fun p => (p_refs p, each (block_text (fun s => s)) (p_blocks p), ref_relations (fun s => s) 4 0 (p_refs p))) (@write_calls ex_lib ex_calls empty_paper) =
  Some ([ToLink "u?a&b"], ex_body,
    "<Relationship Id=""rId4"" Type=""http://schemas.openxmlformats.org/officeDocument/2006/relationships/hyperlink"" Target=""u?a&amp;b"" TargetMode=""External""></Relationship>") /\
  forall n t, ~ In (OTemplate n t) ex_calls.
Proof.
  split; [vm_compute; reflexivity|]. unfold ex_calls. intros n t I. repeat (destruct I as [I|I]; [discriminate I|]). exact I.
Qed.
(** A picture, something that is not a picture, a shape that is made larger. *)
Definition ex_calls2 : list op :=
  [OAddPara 0; OPara 0 (ABody 0) (ODrawing false "P1"); OPara 0 (ABody 0) (ODrawing false "no picture");
   OPara 0 (ABody 0) (OShape true (i64_of 10) (i64_of 20) "arrow" "auto" "rightArrow" (Some (set_aline_w (i64_of 9525) aline0)));
   OPara 0 (ABody 0) (ORun 1 (RDrawSize 0 true (i64_of 100) (i64_of 200)))].
Definition ex_body2 : string :=
  "<w:p><w:r><w:rPr></w:rPr><w:drawing><wp:inline distT=""0"" distB=""0"" distL=""0"" distR=""0"">" ++
  "<wp:extent cx=""5274310"" cy=""3955732""></wp:extent><wp:effectExtent l=""0"" t=""0"" r=""0"" b=""0""></wp:effectExtent>" ++
  "<wp:docPr id=""1"" name=""图片 1""></wp:docPr><wp:cNvGraphicFramePr><a:graphicFrameLocks xmlns:a=""http://schemas.openxmlformats.org/drawingml/2006/main"" noChangeAspect=""1""></a:graphicFrameLocks></wp:cNvGraphicFramePr>" ++
  "<a:graphic xmlns:a=""http://schemas.openxmlformats.org/drawingml/2006/main""><a:graphicData uri=""http://schemas.openxmlformats.org/drawingml/2006/picture""><pic:pic xmlns:pic=""http://schemas.openxmlformats.org/drawingml/2006/picture"">" ++
  "<pic:nvPicPr><pic:cNvPr id=""1"" name=""图片 1""></pic:cNvPr><pic:cNvPicPr></pic:cNvPicPr></pic:nvPicPr><pic:blipFill><a:blip r:embed=""rId4"" cstate=""print""></a:blip><a:stretch></a:stretch></pic:blipFill>" ++
  "<pic:spPr>" ++
  "<a:xfrm><a:off x=""0"" y=""0""></a:off><a:ext cx=""5274310"" cy=""3955732""></a:ext></a:xfrm><a:prstGeom prst=""rect""></a:prstGeom></pic:spPr></pic:pic></a:graphicData></a:graphic></wp:inline></w:drawing></w:r><w:r><w:rPr></w:rPr>" ++
  "<w:drawing><wp:anchor distT=""0"" distB=""0"" distL=""0"" distR=""0"" simplePos=""0"" relativeHeight=""0"" behindDoc=""0"" locked=""0"" layoutInCell=""1"" allowOverlap=""1"">" ++
  "<wp:simplePos x=""0"" y=""0""></wp:simplePos><wp:positionH relativeFrom=""column""><wp:posOffset>0</wp:posOffset></wp:positionH><wp:positionV relativeFrom=""paragraph""><wp:posOffset>0</wp:posOffset></wp:positionV>" ++
  "<wp:extent cx=""100"" cy=""200""></wp:extent><wp:effectExtent l=""0"" t=""0"" r=""0"" b=""0""></wp:effectExtent><wp:wrapNone></wp:wrapNone>" ++
  "<wp:docPr id=""2"" name=""arrow 1""></wp:docPr><wp:cNvGraphicFramePr><a:graphicFrameLocks xmlns:a=""http://schemas.openxmlformats.org/drawingml/2006/main""></a:graphicFrameLocks></wp:cNvGraphicFramePr>" ++
  "<a:graphic xmlns:a=""http://schemas.openxmlformats.org/drawingml/2006/main""><a:graphicData uri=""http://schemas.microsoft.com/office/word/2010/wordprocessingShape"">" ++
  "<wps:wsp><wps:cNvCnPr><a:cxnSpLocks></a:cxnSpLocks></wps:cNvCnPr><wps:spPr bwMode=""auto"">" ++
  "<a:xfrm><a:off x=""0"" y=""0""></a:off><a:ext cx=""10"" cy=""20""></a:ext></a:xfrm><a:prstGeom prst=""rightArrow""></a:prstGeom><a:noFill></a:noFill><a:ln w=""9525""></a:ln></wps:spPr><wps:bodyPr rot=""0"" lIns=""0"" tIns=""0"" rIns=""0"" bIns=""0"" anchorCtr=""0"" upright=""0""></wps:bodyPr></wps:wsp></a:graphicData></a:graphic></wp:anchor></w:drawing></w:r></w:p>".
Example C63_ex2 :
  option_map (fun p => (p_refs p, p_names p, each (block_text (fun s => s)) (p_blocks p), ref_relations (fun s => s) 4 0 (p_refs p), image_parts 0 (p_refs p))) (@write_calls ex_lib ex_calls2 empty_paper) =
  Some ([ToImage "png" "P1"], ["图片"; "arrow"], ex_body2,
    "<Relationship Id=""rId4"" Type=""http://schemas.openxmlformats.org/officeDocument/2006/relationships/image"" Target=""media/image1.png""></Relationship>",
    [("word/media/image1.png", Some "P1")]).
Proof. vm_compute. reflexivity. Qed.
(** A picture, a shape and a link; then the shape, all but the hyperlinks of the
    first paragraph and the table are removed. Numbers are not given twice, and
    the picture's data stays in the file. *)
Definition ex_calls3 : list op :=
  [OAddPara 0; OPara 0 (ABody 0) (ODrawing false "P1"); OPara 0 (ABody 0) (OLink "x" "u"); OTable 0 (i64_of 1) (i64_of 1) (i64_of 0) None; OAddPara 0;
   OPara 0 (ABody 2) (OShape false (i64_of 10) (i64_of 20) "arrow" "auto" "rect" None); OPara 0 (ABody 2) (OText ("a" ++ String "009" "b")); OPara 0 (ABody 2) (ORun 1 (RKeep ["*docx.Text"]));
   ODropAll 0 "NilPicture"; OPara 0 (ABody 0) (OKeepP ["*docx.Hyperlink"]); OKeep 0 ["*docx.Paragraph"]; OPara 0 (ABody 0) (OLink "y" "v")].
Definition ex_body3 : string :=
  "<w:p><w:hyperlink r:id=""rId5""><w:r><w:rPr><w:rStyle w:val=""a3""></w:rStyle></w:rPr><w:instrText>x</w:instrText></w:r></w:hyperlink>" ++
  "<w:hyperlink r:id=""rId6""><w:r><w:rPr><w:rStyle w:val=""a3""></w:rStyle></w:rPr><w:instrText>y</w:instrText></w:r></w:hyperlink></w:p>" ++
  "<w:p><w:r><w:rPr></w:rPr></w:r><w:r><w:rPr></w:rPr><w:t>a</w:t><w:t>b</w:t></w:r></w:p>".
Example C63_ex3 :
  option_map (fun p => (p_refs p, p_names p, each (block_text (fun s => s)) (p_blocks p), image_parts 0 (p_refs p))) (@write_calls ex_lib ex_calls3 empty_paper) =
  Some ([ToImage "png" "P1"; ToLink "u"; ToLink "v"], ["图片"; "arrow"], ex_body3, [("word/media/image1.png", Some "P1")]).
Proof. vm_compute. reflexivity. Qed.
