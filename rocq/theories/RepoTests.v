(** The library's own tests (structdoc_test.go, structtext_test.go,
    structrel_test.go, structtable_test.go, structshape_test.go,
    structdrawing_test.go), run on the model. They compare the model with what
    the authors observe of the code; they are tests, not proofs. Written by
    tools/mkrepotests.py, which copies the XML and the expected values. *)
From Coq Require Import String Ascii List Bool Arith NArith ZArith.
From Verif Require Import GoStr Num Lib Types XmlTok Lex Unmarshal Marshal Rels Docx Api Text Merge Pack History.
Import ListNotations.
Local Open Scope list_scope.
Local Open Scope string_scope.

(** the pictures in testdata: their sizes are those in the headers of the files *)
Definition JPG := "fumiama.JPG".
Definition WEBP := "fumiama2x.webp".
Definition PNG := "fumiamayoko.png".
Definition test_lib : GoLib := {| lib_float := fun _ => None; lib_md5 := fun s => s;
  lib_imgsize := fun s => if String.eqb s JPG then Some (i64_of 1024, i64_of 1536, "jpeg")
                     else if String.eqb s WEBP then Some (i64_of 2048, i64_of 3072, "webp")
                     else if String.eqb s PNG then Some (i64_of 722, i64_of 502, "png") else None |}.

(** ** structdoc_test.go:27-73 TestUnmarshalPlainStructure *)
Definition decoded_doc_1 : string := "<w:document xmlns:wpc=""http://schemas.microsoft.com/office/word/2010/wordprocessingCanvas"" xmlns:cx=""http://schemas.microsoft.com/office/drawing/2014/chartex"" xmlns:cx1=""http://schemas.microsoft.com/office/drawing/2015/9/8/chartex"" xmlns:cx2=""http://schemas.microsoft.com/office/drawing/2015/10/21/chartex"" xmlns:cx3=""http://schemas.microsoft.com/office/drawing/2016/5/9/chartex"" xmlns:cx4=""http://schemas.microsoft.com/office/drawing/2016/5/10/chartex"" xmlns:cx5=""http://schemas.microsoft.com/office/drawing/2016/5/11/chartex"" xmlns:cx6=""http://schemas.microsoft.com/office/drawing/2016/5/12/chartex"" xmlns:cx7=""http://schemas.microsoft.com/office/drawing/2016/5/13/chartex"" xmlns:cx8=""http://schemas.microsoft.com/office/drawing/2016/5/14/chartex"" xmlns:mc=""http://schemas.openxmlformats.org/markup-compatibility/2006"" xmlns:aink=""http://schemas.microsoft.com/office/drawing/2016/ink"" xmlns:am3d=""http://schemas.microsoft.com/office/drawing/2017/model3d"" xmlns:o=""urn:schemas-microsoft-com:office:office"" xmlns:r=""http://schemas.openxmlformats.org/officeDocument/2006/relationships"" xmlns:m=""http://schemas.openxmlformats.org/officeDocument/2006/math"" xmlns:v=""urn:schemas-microsoft-com:vml"" xmlns:wp14=""http://schemas.microsoft.com/office/word/2010/wordprocessingDrawing"" xmlns:wp=""http://schemas.openxmlformats.org/drawingml/2006/wordprocessingDrawing"" xmlns:w10=""urn:schemas-microsoft-com:office:word"" xmlns:w=""http://schemas.openxmlformats.org/wordprocessingml/2006/main"" xmlns:w14=""http://schemas.microsoft.com/office/word/2010/wordml"" xmlns:w15=""http://schemas.microsoft.com/office/word/2012/wordml"" xmlns:w16cex=""http://schemas.microsoft.com/office/word/2018/wordml/cex"" xmlns:w16cid=""http://schemas.microsoft.com/office/word/2016/wordml/cid"" xmlns:w16=""http://schemas.microsoft.com/office/word/2018/wordml"" xmlns:w16se=""http://schemas.microsoft.com/office/word/2015/wordml/symex"" xmlns:wpg=""http://schemas.microsoft.com/office/word/2010/wordprocessingGroup"" xmlns:wpi=""http://schemas.microsoft.com/office/word/2010/wordprocessingInk"" xmlns:wne=""http://schemas.microsoft.com/office/word/2006/wordml"" xmlns:wps=""http://schemas.microsoft.com/office/word/2010/wordprocessingShape"" mc:Ignorable=""w14 w15 w16se w16cid w16 w16cex wp14""><w:body><w:p w14:paraId=""77CA082D"" w14:textId=""4AF3264D"" w:rsidR=""00D66E3F"" w:rsidRDefault=""003A3F42""><w:pPr><w:rPr><w:color w:val=""808080""/></w:rPr></w:pPr><w:proofErr w:type=""spellStart""/><w:r><w:t>test</w:t></w:r><w:r><w:rPr><w:sz w:val=""44""/></w:rPr><w:t>test</w:t></w:r><w:proofErr w:type=""spellEnd""/><w:r><w:rPr><w:sz w:val=""44""/></w:rPr><w:t xml:space=""preserve""> font </w:t></w:r><w:proofErr w:type=""spellStart""/><w:r><w:rPr><w:sz w:val=""44""/></w:rPr><w:t>size</w:t></w:r><w:r><w:rPr><w:color w:val=""808080""/></w:rPr><w:t>test</w:t></w:r><w:proofErr w:type=""spellEnd""/><w:r><w:rPr><w:color w:val=""808080""/></w:rPr><w:t xml:space=""preserve""> color</w:t></w:r></w:p><w:p w14:paraId=""6D114165"" w14:textId=""04580C29"" w:rsidR=""003A3F42"" w:rsidRDefault=""003A3F42"" w:rsidP=""003A3F42""><w:pPr><w:pStyle w:val=""Heading1""/></w:pPr><w:r><w:t>New style 1</w:t></w:r></w:p><w:p w14:paraId=""40D72B3B"" w14:textId=""76101901"" w:rsidR=""003A3F42"" w:rsidRDefault=""003A3F42"" w:rsidP=""003A3F42""><w:pPr><w:pStyle w:val=""Heading2""/></w:pPr><w:r><w:t>New style 2</w:t></w:r></w:p><w:p w14:paraId=""1CA8A9B3"" w14:textId=""77777777"" w:rsidR=""00D66E3F"" w:rsidRDefault=""003A3F42""><w:r><w:rPr><w:color w:val=""FF0000""/><w:sz w:val=""44""/></w:rPr><w:t>test font size and color</w:t></w:r></w:p><w:p w14:paraId=""0D82FB8B"" w14:textId=""77777777"" w:rsidR=""00D66E3F"" w:rsidRDefault=""003A3F42""><w:hyperlink r:id=""rId4""><w:r><w:rPr><w:rStyle w:val=""Hyperlink""/></w:rPr><w:t>google</w:t></w:r></w:hyperlink></w:p><w:sectPr w:rsidR=""00D66E3F""><w:pgSz w:w=""11906"" w:h=""16838""/><w:pgMar w:top=""1440"" w:right=""1440"" w:bottom=""1440"" w:left=""1440"" w:header=""708"" w:footer=""708"" w:gutter=""0""/><w:cols w:space=""708""/><w:docGrid w:linePitch=""360""/></w:sectPr></w:body></w:document>".
Definition decoded_doc_2 : string := "<w:document xmlns:wpc=""http://schemas.microsoft.com/office/word/2010/wordprocessingCanvas"" xmlns:mc=""http://schemas.openxmlformats.org/markup-compatibility/2006"" xmlns:o=""urn:schemas-microsoft-com:office:office"" xmlns:r=""http://schemas.openxmlformats.org/officeDocument/2006/relationships"" xmlns:m=""http://schemas.openxmlformats.org/officeDocument/2006/math"" xmlns:v=""urn:schemas-microsoft-com:vml"" xmlns:wp14=""http://schemas.microsoft.com/office/word/2010/wordprocessingDrawing"" xmlns:wp=""http://schemas.openxmlformats.org/drawingml/2006/wordprocessingDrawing"" xmlns:w10=""urn:schemas-microsoft-com:office:word"" xmlns:w=""http://schemas.openxmlformats.org/wordprocessingml/2006/main"" xmlns:w14=""http://schemas.microsoft.com/office/word/2010/wordml"" xmlns:wpg=""http://schemas.microsoft.com/office/word/2010/wordprocessingGroup"" xmlns:wpi=""http://schemas.microsoft.com/office/word/2010/wordprocessingInk"" xmlns:wne=""http://schemas.microsoft.com/office/word/2006/wordml"" xmlns:wps=""http://schemas.microsoft.com/office/word/2010/wordprocessingShape"" mc:Ignorable=""w14 wp14""><w:body><w:sdt><w:sdtPr><w:id w:val=""-1247033294""/><w:docPartObj><w:docPartGallery w:val=""Table of Contents""/><w:docPartUnique/></w:docPartObj></w:sdtPr><w:sdtEndPr/><w:sdtContent><w:p w14:paraId=""308E3D65"" w14:textId=""77777777"" w:rsidR=""00FA66BB"" w:rsidRPr=""001D59EF"" w:rsidRDefault=""00FA66BB"" w:rsidP=""00A96827""><w:pPr><w:pStyle w:val=""TOC1""/><w:jc w:val=""center""/></w:pPr><w:r><w:t>Table of Contents</w:t></w:r></w:p></w:sdtContent></w:sdt><w:p w14:paraId=""1764C163"" w14:textId=""77777777"" w:rsidR=""009E307C"" w:rsidRDefault=""00A96827""><w:pPr><w:pStyle w:val=""TOC1""/><w:rPr><w:rFonts w:asciiTheme=""minorHAnsi"" w:hAnsiTheme=""minorHAnsi""/><w:b w:val=""0""/><w:color w:val=""auto""/></w:rPr></w:pPr><w:r><w:rPr><w:b w:val=""0""/></w:rPr><w:fldChar w:fldCharType=""begin""/></w:r><w:r><w:rPr><w:b w:val=""0""/></w:rPr><w:instrText xml:space=""preserve""> TOC \h \z \t ""Heading 1,2,S6,1,S0,1,S1,1,S2,1,S3,1,S4,1,S5,1"" </w:instrText></w:r><w:r><w:rPr><w:b w:val=""0""/></w:rPr><w:fldChar w:fldCharType=""separate""/></w:r><w:hyperlink w:anchor=""_Toc420414504"" w:history=""1""><w:r w:rsidR=""009E307C"" w:rsidRPr=""002306B2""><w:rPr><w:rStyle w:val=""Hyperlink""/></w:rPr><w:t>Holy Grail [xref:bRJduW6hNR]</w:t></w:r><w:r w:rsidR=""009E307C""><w:rPr><w:webHidden/></w:rPr><w:tab/></w:r><w:r w:rsidR=""009E307C""><w:rPr><w:webHidden/></w:rPr><w:fldChar w:fldCharType=""begin""/></w:r><w:r w:rsidR=""009E307C""><w:rPr><w:webHidden/></w:rPr><w:instrText xml:space=""preserve""> PAGEREF _Toc420414504 \h </w:instrText></w:r><w:r w:rsidR=""009E307C""><w:rPr><w:webHidden/></w:rPr></w:r><w:r w:rsidR=""009E307C""><w:rPr><w:webHidden/></w:rPr><w:fldChar w:fldCharType=""separate""/></w:r><w:r w:rsidR=""009E307C""><w:rPr><w:webHidden/></w:rPr><w:t>2</w:t></w:r><w:r w:rsidR=""009E307C""><w:rPr><w:webHidden/></w:rPr><w:fldChar w:fldCharType=""end""/></w:r></w:hyperlink></w:p><w:p w14:paraId=""0F5BA552"" w14:textId=""77777777"" w:rsidR=""009E307C"" w:rsidRDefault=""009E307C""><w:pPr><w:pStyle w:val=""TOC2""/><w:tabs><w:tab w:val=""left"" w:pos=""3654""/></w:tabs><w:rPr><w:rFonts w:asciiTheme=""minorHAnsi"" w:hAnsiTheme=""minorHAnsi""/><w:noProof/></w:rPr></w:pPr><w:hyperlink w:anchor=""_Toc420414505"" w:history=""1""><w:r w:rsidRPr=""002306B2""><w:rPr><w:rStyle w:val=""Hyperlink""/><w:noProof/></w:rPr><w:t>1.</w:t></w:r><w:r><w:rPr><w:rFonts w:asciiTheme=""minorHAnsi"" w:hAnsiTheme=""minorHAnsi""/><w:noProof/></w:rPr><w:tab/></w:r><w:r w:rsidRPr=""002306B2""><w:rPr><w:rStyle w:val=""Hyperlink""/><w:noProof/></w:rPr><w:t>What is your name? [xref:TH7u7QDqhD]</w:t></w:r><w:r><w:rPr><w:noProof/><w:webHidden/></w:rPr><w:tab/></w:r><w:r><w:rPr><w:noProof/><w:webHidden/></w:rPr><w:fldChar w:fldCharType=""begin""/></w:r><w:r><w:rPr><w:noProof/><w:webHidden/></w:rPr><w:instrText xml:space=""preserve""> PAGEREF _Toc420414505 \h </w:instrText></w:r><w:r><w:rPr><w:noProof/><w:webHidden/></w:rPr></w:r><w:r><w:rPr><w:noProof/><w:webHidden/></w:rPr><w:fldChar w:fldCharType=""separate""/></w:r><w:r><w:rPr><w:noProof/><w:webHidden/></w:rPr><w:t>2</w:t></w:r><w:r><w:rPr><w:noProof/><w:webHidden/></w:rPr><w:fldChar w:fldCharType=""end""/></w:r></w:hyperlink></w:p><w:p w14:paraId=""49E1F0AA"" w14:textId=""77777777"" w:rsidR=""009E307C"" w:rsidRDefault=""009E307C""><w:pPr><w:pStyle w:val=""TOC2""/><w:tabs><w:tab w:val=""left"" w:pos=""3654""/></w:tabs><w:rPr><w:rFonts w:asciiTheme=""minorHAnsi"" w:hAnsiTheme=""minorHAnsi""/><w:noProof/></w:rPr></w:pPr><w:hyperlink w:anchor=""_Toc420414506"" w:history=""1""><w:r w:rsidRPr=""002306B2""><w:rPr><w:rStyle w:val=""Hyperlink""/><w:noProof/></w:rPr><w:t>2.</w:t></w:r><w:r><w:rPr><w:rFonts w:asciiTheme=""minorHAnsi"" w:hAnsiTheme=""minorHAnsi""/><w:noProof/></w:rPr><w:tab/></w:r><w:r w:rsidRPr=""002306B2""><w:rPr><w:rStyle w:val=""Hyperlink""/><w:noProof/></w:rPr><w:t>What is your quest? [xref:bC62HkFATC]</w:t></w:r><w:r><w:rPr><w:noProof/><w:webHidden/></w:rPr><w:tab/></w:r><w:r><w:rPr><w:noProof/><w:webHidden/></w:rPr><w:fldChar w:fldCharType=""begin""/></w:r><w:r><w:rPr><w:noProof/><w:webHidden/></w:rPr><w:instrText xml:space=""preserve""> PAGEREF _Toc420414506 \h </w:instrText></w:r><w:r><w:rPr><w:noProof/><w:webHidden/></w:rPr></w:r><w:r><w:rPr><w:noProof/><w:webHidden/></w:rPr><w:fldChar w:fldCharType=""separate""/></w:r><w:r><w:rPr><w:noProof/><w:webHidden/></w:rPr><w:t>2</w:t></w:r><w:r><w:rPr><w:noProof/><w:webHidden/></w:rPr><w:fldChar w:fldCharType=""end""/></w:r></w:hyperlink></w:p><w:p w14:paraId=""7BDA743C"" w14:textId=""77777777"" w:rsidR=""009E307C"" w:rsidRDefault=""009E307C""><w:pPr><w:pStyle w:val=""TOC2""/><w:tabs><w:tab w:val=""left"" w:pos=""3654""/></w:tabs><w:rPr><w:rFonts w:asciiTheme=""minorHAnsi"" w:hAnsiTheme=""minorHAnsi""/><w:noProof/></w:rPr></w:pPr><w:hyperlink w:anchor=""_Toc420414507"" w:history=""1""><w:r w:rsidRPr=""002306B2""><w:rPr><w:rStyle w:val=""Hyperlink""/><w:noProof/></w:rPr><w:t>3.</w:t></w:r><w:r><w:rPr><w:rFonts w:asciiTheme=""minorHAnsi"" w:hAnsiTheme=""minorHAnsi""/><w:noProof/></w:rPr><w:tab/></w:r><w:r w:rsidRPr=""002306B2""><w:rPr><w:rStyle w:val=""Hyperlink""/><w:noProof/></w:rPr><w:t>What is your favourite colour? [xref:I3TphuHX6N]</w:t></w:r><w:r><w:rPr><w:noProof/><w:webHidden/></w:rPr><w:tab/></w:r><w:r><w:rPr><w:noProof/><w:webHidden/></w:rPr><w:fldChar w:fldCharType=""begin""/></w:r><w:r><w:rPr><w:noProof/><w:webHidden/></w:rPr><w:instrText xml:space=""preserve""> PAGEREF _Toc420414507 \h </w:instrText></w:r><w:r><w:rPr><w:noProof/><w:webHidden/></w:rPr></w:r><w:r><w:rPr><w:noProof/><w:webHidden/></w:rPr><w:fldChar w:fldCharType=""separate""/></w:r><w:r><w:rPr><w:noProof/><w:webHidden/></w:rPr><w:t>2</w:t></w:r><w:r><w:rPr><w:noProof/><w:webHidden/></w:rPr><w:fldChar w:fldCharType=""end""/></w:r></w:hyperlink></w:p><w:p w14:paraId=""4A0A0E88"" w14:textId=""77777777"" w:rsidR=""006C0D12"" w:rsidRPr=""009C59B6"" w:rsidRDefault=""00A96827"" w:rsidP=""009B657F""><w:pPr><w:rPr><w:b/></w:rPr></w:pPr><w:r><w:rPr><w:b/></w:rPr><w:fldChar w:fldCharType=""end""/></w:r></w:p><w:p w14:paraId=""7EDC60AD"" w14:textId=""77777777"" w:rsidR=""0004272B"" w:rsidRDefault=""0004272B""><w:pPr><w:jc w:val=""left""/><w:rPr><w:b/></w:rPr></w:pPr><w:r><w:rPr><w:b/></w:rPr><w:br w:type=""page""/></w:r><w:bookmarkStart w:id=""0"" w:name=""_GoBack""/><w:bookmarkEnd w:id=""0""/></w:p><w:p w14:paraId=""6775D4EA"" w14:textId=""4B1B4185"" w:rsidR=""00EF5BF6"" w:rsidRDefault=""00DE7E6E"" w:rsidP=""00EF5BF6""><w:pPr><w:pStyle w:val=""S0""/></w:pPr><w:bookmarkStart w:id=""1"" w:name=""_Toc388285991""/><w:bookmarkStart w:id=""2"" w:name=""_Toc388366779""/><w:bookmarkStart w:id=""3"" w:name=""_Toc388428327""/><w:bookmarkStart w:id=""4"" w:name=""_Toc388451002""/><w:bookmarkStart w:id=""5"" w:name=""_Toc420414504""/><w:r><w:lastRenderedPageBreak/><w:t>Holy Grail</w:t></w:r><w:bookmarkEnd w:id=""1""/><w:bookmarkEnd w:id=""2""/><w:bookmarkEnd w:id=""3""/><w:bookmarkEnd w:id=""4""/><w:r w:rsidR=""009E307C""><w:t xml:space=""preserve""> [</w:t></w:r><w:r w:rsidR=""009E307C"" w:rsidRPr=""009E307C""><w:rPr><w:b w:val=""0""/><w:color w:val=""808080""/></w:rPr><w:fldChar w:fldCharType=""begin""><w:ffData><w:name w:val=""bookmark""/><w:enabled/><w:calcOnExit w:val=""0""/><w:textInput/></w:ffData></w:fldChar></w:r><w:r w:rsidR=""009E307C"" w:rsidRPr=""009E307C""><w:rPr><w:b w:val=""0""/><w:color w:val=""808080""/></w:rPr><w:instrText xml:space=""preserve""> FORMTEXT </w:instrText></w:r><w:r w:rsidR=""009E307C"" w:rsidRPr=""009E307C""><w:rPr><w:b w:val=""0""/><w:color w:val=""808080""/></w:rPr></w:r><w:r w:rsidR=""009E307C"" w:rsidRPr=""009E307C""><w:rPr><w:b w:val=""0""/><w:color w:val=""808080""/></w:rPr><w:fldChar w:fldCharType=""separate""/></w:r><w:r w:rsidR=""009E307C"" w:rsidRPr=""009E307C""><w:rPr><w:b w:val=""0""/><w:color w:val=""808080""/></w:rPr><w:t>xref</w:t></w:r><w:proofErr w:type=""gramStart""/><w:r w:rsidR=""009E307C"" w:rsidRPr=""009E307C""><w:rPr><w:b w:val=""0""/><w:color w:val=""808080""/></w:rPr><w:t>:bRJduW6hNR</w:t></w:r><w:proofErr w:type=""gramEnd""/><w:r w:rsidR=""009E307C"" w:rsidRPr=""009E307C""><w:rPr><w:b w:val=""0""/><w:color w:val=""808080""/></w:rPr><w:fldChar w:fldCharType=""end""/></w:r><w:r w:rsidR=""009E307C""><w:t>]</w:t></w:r><w:bookmarkEnd w:id=""5""/></w:p><w:p w14:paraId=""2E760FD1"" w14:textId=""10909973"" w:rsidR=""00DE7E6E"" w:rsidRDefault=""00DE7E6E"" w:rsidP=""00DE7E6E""><w:pPr><w:pStyle w:val=""Heading1""/></w:pPr><w:bookmarkStart w:id=""6"" w:name=""_Toc389482870""/><w:bookmarkStart w:id=""7"" w:name=""_Toc420414505""/><w:r><w:t>What is your name?</w:t></w:r><w:bookmarkEnd w:id=""6""/><w:r w:rsidR=""009E307C""><w:t xml:space=""preserve""> [</w:t></w:r><w:r w:rsidR=""009E307C"" w:rsidRPr=""009E307C""><w:rPr><w:b w:val=""0""/><w:color w:val=""808080""/></w:rPr><w:fldChar w:fldCharType=""begin""><w:ffData><w:name w:val=""bookmark""/><w:enabled/><w:calcOnExit w:val=""0""/><w:textInput/></w:ffData></w:fldChar></w:r><w:r w:rsidR=""009E307C"" w:rsidRPr=""009E307C""><w:rPr><w:b w:val=""0""/><w:color w:val=""808080""/></w:rPr><w:instrText xml:space=""preserve""> FORMTEXT </w:instrText></w:r><w:r w:rsidR=""009E307C"" w:rsidRPr=""009E307C""><w:rPr><w:b w:val=""0""/><w:color w:val=""808080""/></w:rPr></w:r><w:r w:rsidR=""009E307C"" w:rsidRPr=""009E307C""><w:rPr><w:b w:val=""0""/><w:color w:val=""808080""/></w:rPr><w:fldChar w:fldCharType=""separate""/></w:r><w:proofErr w:type=""gramStart""/><w:r w:rsidR=""009E307C"" w:rsidRPr=""009E307C""><w:rPr><w:b w:val=""0""/><w:color w:val=""808080""/></w:rPr><w:t>xref:</w:t></w:r><w:proofErr w:type=""gramEnd""/><w:r w:rsidR=""009E307C"" w:rsidRPr=""009E307C""><w:rPr><w:b w:val=""0""/><w:color w:val=""808080""/></w:rPr><w:t>TH7u7QDqhD</w:t></w:r><w:r w:rsidR=""009E307C"" w:rsidRPr=""009E307C""><w:rPr><w:b w:val=""0""/><w:color w:val=""808080""/></w:rPr><w:fldChar w:fldCharType=""end""/></w:r><w:r w:rsidR=""009E307C""><w:t>]</w:t></w:r><w:bookmarkEnd w:id=""7""/></w:p><w:p w14:paraId=""0249939B"" w14:textId=""77777777"" w:rsidR=""003946B5"" w:rsidRPr=""003946B5"" w:rsidRDefault=""00DE7E6E"" w:rsidP=""003946B5""><w:pPr><w:pStyle w:val=""BodyText""/></w:pPr><w:r w:rsidRPr=""0029440C""><w:t xml:space=""preserve"">My name is Sir </w:t></w:r><w:proofErr w:type=""spellStart""/><w:r w:rsidRPr=""0029440C""><w:t>Launcelot</w:t></w:r><w:proofErr w:type=""spellEnd""/><w:r w:rsidRPr=""0029440C""><w:t xml:space=""preserve""> of Camelot.</w:t></w:r></w:p><w:p w14:paraId=""5BB04A25"" w14:textId=""04E09ADD"" w:rsidR=""006F5AAA"" w:rsidRPr=""006F5AAA"" w:rsidRDefault=""00DE7E6E"" w:rsidP=""00DE7E6E""><w:pPr><w:pStyle w:val=""Heading1""/></w:pPr><w:bookmarkStart w:id=""8"" w:name=""_Toc389482871""/><w:bookmarkStart w:id=""9"" w:name=""_Toc420414506""/><w:r><w:t>What is your quest?</w:t></w:r><w:bookmarkEnd w:id=""8""/><w:r w:rsidR=""009E307C""><w:t xml:space=""preserve""> [</w:t></w:r><w:r w:rsidR=""009E307C"" w:rsidRPr=""009E307C""><w:rPr><w:b w:val=""0""/><w:color w:val=""808080""/></w:rPr><w:fldChar w:fldCharType=""begin""><w:ffData><w:name w:val=""bookmark""/><w:enabled/><w:calcOnExit w:val=""0""/><w:textInput/></w:ffData></w:fldChar></w:r><w:r w:rsidR=""009E307C"" w:rsidRPr=""009E307C""><w:rPr><w:b w:val=""0""/><w:color w:val=""808080""/></w:rPr><w:instrText xml:space=""preserve""> FORMTEXT </w:instrText></w:r><w:r w:rsidR=""009E307C"" w:rsidRPr=""009E307C""><w:rPr><w:b w:val=""0""/><w:color w:val=""808080""/></w:rPr></w:r><w:r w:rsidR=""009E307C"" w:rsidRPr=""009E307C""><w:rPr><w:b w:val=""0""/><w:color w:val=""808080""/></w:rPr><w:fldChar w:fldCharType=""separate""/></w:r><w:proofErr w:type=""gramStart""/><w:r w:rsidR=""009E307C"" w:rsidRPr=""009E307C""><w:rPr><w:b w:val=""0""/><w:color w:val=""808080""/></w:rPr><w:t>xref:</w:t></w:r><w:proofErr w:type=""gramEnd""/><w:r w:rsidR=""009E307C"" w:rsidRPr=""009E307C""><w:rPr><w:b w:val=""0""/><w:color w:val=""808080""/></w:rPr><w:t>bC62HkFATC</w:t></w:r><w:r w:rsidR=""009E307C"" w:rsidRPr=""009E307C""><w:rPr><w:b w:val=""0""/><w:color w:val=""808080""/></w:rPr><w:fldChar w:fldCharType=""end""/></w:r><w:r w:rsidR=""009E307C""><w:t>]</w:t></w:r><w:bookmarkEnd w:id=""9""/></w:p><w:p w14:paraId=""15194710"" w14:textId=""77777777"" w:rsidR=""002B0891"" w:rsidRDefault=""00DE7E6E"" w:rsidP=""002B0891""><w:pPr><w:pStyle w:val=""BodyText""/></w:pPr><w:r><w:t xml:space=""preserve"">To seek the Holy </w:t></w:r><w:proofErr w:type=""gramStart""/><w:r><w:t>Grail</w:t></w:r><w:r w:rsidRPr=""00225D92""><w:rPr><w:color w:val=""FF0000""/></w:rPr><w:t>[</w:t></w:r><w:proofErr w:type=""gramEnd""/><w:r w:rsidRPr=""00225D92""><w:rPr><w:color w:val=""FF0000""/></w:rPr><w:t>or a grail shaped beacon]</w:t></w:r><w:r><w:t>.</w:t></w:r><w:r w:rsidR=""00585075""><w:t xml:space=""preserve""> </w:t></w:r></w:p><w:p w14:paraId=""05C7DE39"" w14:textId=""2A77E45D"" w:rsidR=""00585075"" w:rsidRDefault=""00DE7E6E"" w:rsidP=""006F5AAA""><w:pPr><w:pStyle w:val=""Heading1""/></w:pPr><w:bookmarkStart w:id=""10"" w:name=""_Toc389482872""/><w:bookmarkStart w:id=""11"" w:name=""_Toc420414507""/><w:r><w:t>What is your favourite colour?</w:t></w:r><w:bookmarkEnd w:id=""10""/><w:r w:rsidR=""009E307C""><w:t xml:space=""preserve""> [</w:t></w:r><w:r w:rsidR=""009E307C"" w:rsidRPr=""009E307C""><w:rPr><w:b w:val=""0""/><w:color w:val=""808080""/></w:rPr><w:fldChar w:fldCharType=""begin""><w:ffData><w:name w:val=""bookmark""/><w:enabled/><w:calcOnExit w:val=""0""/><w:textInput/></w:ffData></w:fldChar></w:r><w:bookmarkStart w:id=""12"" w:name=""bookmark""/><w:r w:rsidR=""009E307C"" w:rsidRPr=""009E307C""><w:rPr><w:b w:val=""0""/><w:color w:val=""808080""/></w:rPr><w:instrText xml:space=""preserve""> FORMTEXT </w:instrText></w:r><w:r w:rsidR=""009E307C"" w:rsidRPr=""009E307C""><w:rPr><w:b w:val=""0""/><w:color w:val=""808080""/></w:rPr></w:r><w:r w:rsidR=""009E307C"" w:rsidRPr=""009E307C""><w:rPr><w:b w:val=""0""/><w:color w:val=""808080""/></w:rPr><w:fldChar w:fldCharType=""separate""/></w:r><w:proofErr w:type=""gramStart""/><w:r w:rsidR=""009E307C"" w:rsidRPr=""009E307C""><w:rPr><w:b w:val=""0""/><w:color w:val=""808080""/></w:rPr><w:t>xref:</w:t></w:r><w:proofErr w:type=""gramEnd""/><w:r w:rsidR=""009E307C"" w:rsidRPr=""009E307C""><w:rPr><w:b w:val=""0""/><w:color w:val=""808080""/></w:rPr><w:t>I3TphuHX6N</w:t></w:r><w:r w:rsidR=""009E307C"" w:rsidRPr=""009E307C""><w:rPr><w:b w:val=""0""/><w:color w:val=""808080""/></w:rPr><w:fldChar w:fldCharType=""end""/></w:r><w:bookmarkEnd w:id=""12""/><w:r w:rsidR=""009E307C""><w:t>]</w:t></w:r><w:bookmarkEnd w:id=""11""/></w:p><w:p w14:paraId=""5FA4E707"" w14:textId=""77777777"" w:rsidR=""00DE7E6E"" w:rsidRDefault=""00DE7E6E"" w:rsidP=""00DE7E6E""><w:pPr><w:pStyle w:val=""BodyText""/></w:pPr><w:r><w:t>Blue.</w:t></w:r></w:p><w:p w14:paraId=""543FEBD5"" w14:textId=""77777777"" w:rsidR=""006F5AAA"" w:rsidRPr=""006F5AAA"" w:rsidRDefault=""00DE7E6E"" w:rsidP=""00DE7E6E""><w:pPr><w:pStyle w:val=""BodyText""/></w:pPr><w:r><w:t>How many paragraphs here then?</w:t></w:r></w:p><w:sectPr w:rsidR=""006F5AAA"" w:rsidRPr=""006F5AAA"" w:rsidSect=""002B3068""><w:footerReference w:type=""default"" r:id=""rId9""/><w:pgSz w:w=""11906"" w:h=""16838""/><w:pgMar w:top=""1134"" w:right=""1134"" w:bottom=""1134"" w:left=""1134"" w:header=""709"" w:footer=""709"" w:gutter=""0""/><w:cols w:space=""708""/><w:docGrid w:linePitch=""360""/></w:sectPr></w:body></w:document>".
Definition loaded (s : string) : list item * status := @parse_document test_lib None (lex s).
(** a paragraph has children, a link has an id, the section has the size of A4 *)
Definition item_ok (x : item) : bool :=
  match x with
  | IPara p => negb (Nat.eqb (length (para_children p)) 0) &&
               forallb (fun c => match c with PLink i _ => negb (String.eqb i "") | _ => true end) (para_children p)
  | ITable _ => true
  | ISect s => match sect_pgSz s with Some z => Z.eqb (iv (pgsz_w z)) 11906 && Z.eqb (iv (pgsz_h z)) 16838 | None => false end
  end.
Example TestUnmarshalPlainStructure_1 :
  snd (loaded decoded_doc_1) = SOk /\ length (fst (loaded decoded_doc_1)) = 6 /\ forallb item_ok (fst (loaded decoded_doc_1)) = true.
Proof. vm_compute. repeat split. Qed.
Example TestUnmarshalPlainStructure_2 :
  snd (loaded decoded_doc_2) = SOk /\ length (fst (loaded decoded_doc_2)) = 15 /\ forallb item_ok (fst (loaded decoded_doc_2)) = true.
Proof. vm_compute. repeat split. Qed.

(** ** structtext_test.go TestMergeText *)
Definition xml2merge : string := "<w:p w14:paraId=""343EA723"" w14:textId=""17A5316C"" w:rsidR=""00B7252F"" w:rsidRPr=""00334290"" w:rsidRDefault=""00B7252F"" w:rsidP=""00334290"">
<w:pPr>
	<w:spacing w:after=""120"" w:line=""240"" w:lineRule=""atLeast""/>
	<w:jc w:val=""center""/>
	<w:rPr>
		<w:b/>
		<w:sz w:val=""28""/>
		<w:u w:val=""single""/>
	</w:rPr>
</w:pPr>
<w:r w:rsidRPr=""00027D88"">
	<w:rPr>
		<w:rFonts w:hint=""eastAsia""/>
		<w:b/>
		<w:sz w:val=""28""/>
	</w:rPr>
	<w:t>某某某大学</w:t>
</w:r>
<w:r w:rsidR=""00DC7F59"" w:rsidRPr=""00027D88"">
	<w:rPr>
		<w:rFonts w:hint=""eastAsia""/>
		<w:b/>
		<w:sz w:val=""28""/>
	</w:rPr>
	<w:t>20</w:t>
</w:r>
<w:r w:rsidR=""00F276CD"" w:rsidRPr=""00027D88"">
	<w:rPr>
		<w:rFonts w:hint=""eastAsia""/>
		<w:b/>
		<w:sz w:val=""28""/>
	</w:rPr>
	<w:t>1</w:t>
</w:r>
<w:r w:rsidR=""00AC3815"">
	<w:rPr>
		<w:b/>
		<w:sz w:val=""28""/>
	</w:rPr>
	<w:t>6</w:t>
</w:r>
<w:r w:rsidR=""00DC7F59"" w:rsidRPr=""00027D88"">
	<w:rPr>
		<w:rFonts w:hint=""eastAsia""/>
		<w:b/>
		<w:sz w:val=""28""/>
	</w:rPr>
	<w:t>-20</w:t>
</w:r>
<w:r w:rsidR=""00F276CD"" w:rsidRPr=""00027D88"">
	<w:rPr>
		<w:rFonts w:hint=""eastAsia""/>
		<w:b/>
		<w:sz w:val=""28""/>
	</w:rPr>
	<w:t>1</w:t>
</w:r>
<w:r w:rsidR=""00AC3815"">
	<w:rPr>
		<w:b/>
		<w:sz w:val=""28""/>
	</w:rPr>
	<w:t>7</w:t>
</w:r>
<w:proofErr w:type=""gramStart""/>
<w:r w:rsidRPr=""00027D88"">
	<w:rPr>
		<w:rFonts w:hint=""eastAsia""/>
		<w:b/>
		<w:sz w:val=""28""/>
	</w:rPr>
	<w:t>学年第</w:t>
</w:r>
<w:proofErr w:type=""gramEnd""/>
<w:r w:rsidR=""007A75E1"" w:rsidRPr=""00027D88"">
	<w:rPr>
		<w:rFonts w:hint=""eastAsia""/>
		<w:b/>
		<w:sz w:val=""28""/>
		<w:u w:val=""single""/>
	</w:rPr>
	<w:t xml:space=""preserve""></w:t>
</w:r>
<w:r w:rsidR=""00BA388C"" w:rsidRPr=""00027D88"">
	<w:rPr>
		<w:rFonts w:hint=""eastAsia""/>
		<w:b/>
		<w:sz w:val=""28""/>
		<w:u w:val=""single""/>
	</w:rPr>
	<w:t>1</w:t>
</w:r>
<w:r w:rsidRPr=""00027D88"">
	<w:rPr>
		<w:rFonts w:hint=""eastAsia""/>
		<w:b/>
		<w:sz w:val=""28""/>
		<w:u w:val=""single""/>
	</w:rPr>
	<w:t xml:space=""preserve""></w:t>
</w:r>
<w:r w:rsidRPr=""00027D88"">
	<w:rPr>
		<w:rFonts w:hint=""eastAsia""/>
		<w:b/>
		<w:sz w:val=""28""/>
	</w:rPr>
	<w:t>学期期</w:t>
</w:r>
<w:r w:rsidR=""007A75E1"" w:rsidRPr=""00027D88"">
	<w:rPr>
		<w:rFonts w:hint=""eastAsia""/>
		<w:b/>
		<w:sz w:val=""28""/>
		<w:u w:val=""single""/>
	</w:rPr>
	<w:t xml:space=""preserve""></w:t>
</w:r>
<w:r w:rsidR=""007A75E1"" w:rsidRPr=""00027D88"">
	<w:rPr>
		<w:rFonts w:hint=""eastAsia""/>
		<w:b/>
		<w:sz w:val=""28""/>
		<w:u w:val=""single""/>
	</w:rPr>
	<w:t>末</w:t>
</w:r>
<w:r w:rsidRPr=""00027D88"">
	<w:rPr>
		<w:rFonts w:hint=""eastAsia""/>
		<w:b/>
		<w:sz w:val=""28""/>
		<w:u w:val=""single""/>
	</w:rPr>
	<w:t xml:space=""preserve""></w:t>
</w:r>
<w:r w:rsidR=""006B05F0"" w:rsidRPr=""00027D88"">
	<w:rPr>
		<w:rFonts w:hint=""eastAsia""/>
		<w:b/>
		<w:sz w:val=""28""/>
	</w:rPr>
	<w:t>考试</w:t>
</w:r>
<w:r w:rsidR=""00DC7F59"" w:rsidRPr=""00027D88"">
	<w:rPr>
		<w:rFonts w:hint=""eastAsia""/>
		<w:b/>
		<w:sz w:val=""28""/>
		<w:u w:val=""single""/>
	</w:rPr>
	<w:t xml:space=""preserve""></w:t>
</w:r>
<w:r w:rsidR=""00B75B37"" w:rsidRPr=""00027D88"">
	<w:rPr>
		<w:b/>
		<w:sz w:val=""28""/>
		<w:u w:val=""single""/>
	</w:rPr>
	<w:t>A</w:t>
</w:r>
<w:r w:rsidR=""00DC7F59"" w:rsidRPr=""00027D88"">
	<w:rPr>
		<w:rFonts w:hint=""eastAsia""/>
		<w:b/>
		<w:sz w:val=""28""/>
		<w:u w:val=""single""/>
	</w:rPr>
	<w:t xml:space=""preserve""></w:t>
</w:r>
<w:r w:rsidR=""00DC7F59"" w:rsidRPr=""00027D88"">
	<w:rPr>
		<w:rFonts w:hint=""eastAsia""/>
		<w:b/>
		<w:sz w:val=""28""/>
	</w:rPr>
	<w:t>卷</w:t>
</w:r>
</w:p>".
Definition p2merge : para * status := root (@u_para test_lib None) (mk_para None [] None) (check [] (lex xml2merge)).
(** the text of each run of the merged paragraph, which has at most one child *)
Definition run_texts (c : pchild) : option string :=
  match c with
  | PRun r => match runR_children r with [] => Some "" | [RText x] => Some (text_text x) | _ => None end
  | _ => None
  end.
Definition merged (f : rule) : option (list (option string)) :=
  match merge_text f (fst p2merge) with Ok p => Some (map run_texts (para_children p)) | _ => None end.
Definition each_bar (l : list (option string)) : option string :=
  fold_right (fun x s => match x, s with Some x, Some s => Some (x ++ "|" ++ s) | _, _ => None end) (Some "") l.
Definition lists {A} (o : option (list A)) : list A := match o with Some l => l | None => [] end.
Example TestMergeText_load : snd p2merge = SOk.
Proof. vm_compute. reflexivity. Qed.
Example TestMergeText_all : merged merge_all_runs = Some [Some "某某某大学2016-2017学年第1学期期末考试A卷"].
Proof. vm_compute. reflexivity. Qed.
Example TestMergeText_same : length (lists (merged merge_same_prop_runs)) = 13 /\
  each_bar (lists (merged merge_same_prop_runs)) = Some "某某某大学201|6|-201|7|学年第|1|学期期|末|考试||A||卷|".
Proof. vm_compute. split; reflexivity. Qed.
Example TestMergeText_named : length (lists (merged (merge_same_prop_runs_of ["Bold"; "Size"; "Underline"]))) = 7 /\
  each_bar (lists (merged (merge_same_prop_runs_of ["Bold"; "Size"; "Underline"]))) = Some "某某某大学2016-2017学年第|1|学期期|末|考试|A|卷|".
Proof. vm_compute. split; reflexivity. Qed.

(** ** structrel_test.go TestRelationships *)
(** MD5 (RFC 1321) *)
Section Md5.
Local Open Scope N_scope.
Definition M32 : N := 2 ^ 32.
Definition add32 (a b : N) : N := (a + b) mod M32.
Definition not32 (a : N) : N := M32 - 1 - a.
Definition rotl (x n : N) : N := N.lor (N.shiftl x n mod M32) (N.shiftr x (32 - n)).
(** the steps: kind, constant, rotation, word *)
Definition steps : list (nat * N * N * nat) :=
  [(0%nat, 3614090360, 7, 0%nat); (0%nat, 3905402710, 12, 1%nat); (0%nat, 606105819, 17, 2%nat); (0%nat, 3250441966, 22, 3%nat)
  ; (0%nat, 4118548399, 7, 4%nat); (0%nat, 1200080426, 12, 5%nat); (0%nat, 2821735955, 17, 6%nat); (0%nat, 4249261313, 22, 7%nat)
  ; (0%nat, 1770035416, 7, 8%nat); (0%nat, 2336552879, 12, 9%nat); (0%nat, 4294925233, 17, 10%nat); (0%nat, 2304563134, 22, 11%nat)
  ; (0%nat, 1804603682, 7, 12%nat); (0%nat, 4254626195, 12, 13%nat); (0%nat, 2792965006, 17, 14%nat); (0%nat, 1236535329, 22, 15%nat)
  ; (1%nat, 4129170786, 5, 1%nat); (1%nat, 3225465664, 9, 6%nat); (1%nat, 643717713, 14, 11%nat); (1%nat, 3921069994, 20, 0%nat)
  ; (1%nat, 3593408605, 5, 5%nat); (1%nat, 38016083, 9, 10%nat); (1%nat, 3634488961, 14, 15%nat); (1%nat, 3889429448, 20, 4%nat)
  ; (1%nat, 568446438, 5, 9%nat); (1%nat, 3275163606, 9, 14%nat); (1%nat, 4107603335, 14, 3%nat); (1%nat, 1163531501, 20, 8%nat)
  ; (1%nat, 2850285829, 5, 13%nat); (1%nat, 4243563512, 9, 2%nat); (1%nat, 1735328473, 14, 7%nat); (1%nat, 2368359562, 20, 12%nat)
  ; (2%nat, 4294588738, 4, 5%nat); (2%nat, 2272392833, 11, 8%nat); (2%nat, 1839030562, 16, 11%nat); (2%nat, 4259657740, 23, 14%nat)
  ; (2%nat, 2763975236, 4, 1%nat); (2%nat, 1272893353, 11, 4%nat); (2%nat, 4139469664, 16, 7%nat); (2%nat, 3200236656, 23, 10%nat)
  ; (2%nat, 681279174, 4, 13%nat); (2%nat, 3936430074, 11, 0%nat); (2%nat, 3572445317, 16, 3%nat); (2%nat, 76029189, 23, 6%nat)
  ; (2%nat, 3654602809, 4, 9%nat); (2%nat, 3873151461, 11, 12%nat); (2%nat, 530742520, 16, 15%nat); (2%nat, 3299628645, 23, 2%nat)
  ; (3%nat, 4096336452, 6, 0%nat); (3%nat, 1126891415, 10, 7%nat); (3%nat, 2878612391, 15, 14%nat); (3%nat, 4237533241, 21, 5%nat)
  ; (3%nat, 1700485571, 6, 12%nat); (3%nat, 2399980690, 10, 3%nat); (3%nat, 4293915773, 15, 10%nat); (3%nat, 2240044497, 21, 1%nat)
  ; (3%nat, 1873313359, 6, 8%nat); (3%nat, 4264355552, 10, 15%nat); (3%nat, 2734768916, 15, 6%nat); (3%nat, 1309151649, 21, 13%nat)
  ; (3%nat, 4149444226, 6, 4%nat); (3%nat, 3174756917, 10, 11%nat); (3%nat, 718787259, 15, 2%nat); (3%nat, 3951481745, 21, 9%nat)].
Definition mix (k : nat) (b c d : N) : N :=
  match k with
  | 0%nat => N.lor (N.land b c) (N.land (not32 b) d)
  | 1%nat => N.lor (N.land d b) (N.land (not32 d) c)
  | 2%nat => N.lxor b (N.lxor c d)
  | _ => N.lxor c (N.lor b (not32 d))
  end.
Definition step (m : list N) (s : N * N * N * N) (x : nat * N * N * nat) : N * N * N * N :=
  let '(a, b, c, d) := s in let '(k, c0, r, g) := x in
  (d, add32 b (rotl (add32 (add32 a (mix k b c d)) (add32 c0 (nth g m 0))) r), b, c).
Definition block (s : N * N * N * N) (m : list N) : N * N * N * N :=
  let '(a, b, c, d) := s in let '(a', b', c', d') := fold_left (step m) steps s in
  (add32 a a', add32 b b', add32 c c', add32 d d').
Fixpoint bytes (s : string) : list N := match s with "" => [] | String a s' => N_of_ascii a :: bytes s' end.
Fixpoint le_bytes (k : nat) (n : N) : list N := match k with O => [] | S k' => (n mod 256) :: le_bytes k' (n / 256) end.
Definition padded (s : string) : list N :=
  let n := String.length s in
  (bytes s ++ 128 :: repeat 0 ((119 - n mod 64) mod 64) ++ le_bytes 8 (8 * N.of_nat n mod 2 ^ 64))%list.
Fixpoint words (l : list N) : list N :=
  match l with a :: b :: c :: d :: l' => a + 256 * b + 65536 * c + 16777216 * d :: words l' | _ => [] end.
Fixpoint blocks (n : nat) (s : N * N * N * N) (l : list N) : N * N * N * N :=
  match n, l with S n', _ :: _ => blocks n' (block s (firstn 16 l)) (skipn 16 l) | _, _ => s end.
Definition digit (n : N) : ascii := ascii_of_N (if n <? 10 then 48 + n else 87 + n).
Fixpoint hex (l : list N) : string := match l with [] => "" | b :: l' => String (digit (b / 16)) (String (digit (b mod 16)) (hex l')) end.
Definition md5 (s : string) : string :=
  let w := words (padded s) in
  let '(a, b, c, d) := blocks (length w) (1732584193, 4023233417, 2562383102, 271733878) w in
  hex (le_bytes 4 a ++ le_bytes 4 b ++ le_bytes 4 c ++ le_bytes 4 d)%list.
End Md5.
(** RFC 1321, A.5 *)
Example md5_suite : map md5 [""; "a"; "abc"; "12345678901234567890123456789012345678901234567890123456789012345678901234567890"] =
  ["d41d8cd98f00b204e9800998ecf8427e"; "0cc175b9c0f1b6a831c399e269772661"; "900150983cd24fb0d6963f7d28e17f72"; "57edf4a22be3c955ac49da2e2107b67a"].
Proof. vm_compute. reflexivity. Qed.
(** the relationships in the test are those of a new document *)
Example TestRelationships : md5 (write_xml (m_rels (d_reg new_docx))) = "62c753dc14365fce007fc4c7c3bd0c82".
Proof. vm_compute. reflexivity. Qed.

(** ** the tests that write a document, load it and write it again *)
Definition written (d : docx) : string := write_xml (m_docx d).
(** xml.NewDecoder(f).Decode(&w.Document) into a new document *)
Definition again (s : string) : option string :=
  match @parse_doc_part test_lib 0 s new_docx with Ok d => Some (written d) | _ => None end.
(** [same l f]: the calls [l] make a document; [f] does the assignments to its
    fields; loading what is written and writing again gives the same bytes *)
Definition same (l : list op) (f : docx -> docx) : bool :=
  match @run_ops test_lib (ONew :: l) [] with
  | Some [d] => let s := written (f d) in match again s with Some s' => String.eqb s s' && negb (String.eqb s (written new_docx)) | None => false end
  | _ => false
  end.
(** the assignments *)
Definition on_pic (f : pic -> pic) (d : docx) (a : addr) (k : nat) : docx :=
  let g x := match graphicR_data x with Some y => set_graphicR_data (Some match gdataR_pic y with Some p => set_gdataR_pic (Some (f p)) y | None => y end) x | None => x end in
  let child c := match c with RDraw i (Some b) => RDraw i (Some match anchorR_graphic b with Some x => set_anchorR_graphic (Some (g x)) b | None => b end) | _ => c end in
  match get_para (d_items d) a with
  | Some p => match nth_error (para_children p) k with
              | Some (PRun r) => set_d_items (put_para (d_items d) a (set_para_children (set_nth (para_children p) k (PRun (set_runR_children (map child (runR_children r)) r))) p)) d
              | _ => d
              end
  | None => d
  end.
Definition blip_alpha (p : pic) : pic :=
  match pic_blip p with Some b => set_pic_blip (Some (set_picblip_blip (set_ablip_alpha (Some (i64_of 50000)) (picblip_blip b)) b)) p | None => p end.
Definition locked (p : pic) : pic :=
  match pic_nvpic p with Some n => set_pic_nvpic (Some (set_nvpic_locks (Some (i64_of 1)) n)) p | None => p end.
Definition turned (p : pic) : pic :=
  match pic_sp p with Some s => set_pic_sp (Some (set_picsp_xfrm (set_xfrm_rot (i64_of 50000) (picsp_xfrm s)) s)) p | None => p end.
Definition v_merge (r : nat) (v : string) (t : table) : table :=
  match nth_error (table_rows t) r with
  | Some row => match row_cells row with
                | c :: l => set_table_rows (set_nth (table_rows t) r (set_row_cells (set_cell_props (option_map (set_tcpr_vMerge (Some v)) (cell_props c)) c :: l) row)) t
                | [] => t
                end
  | None => t
  end.
Definition positioned (t : table) : table :=
  set_table_props (option_map (set_tblpr_pos (Some (set_tblpos_leftFT (i64_of 2333) tblpos0))) (table_props t)) t.
Definition on_table (f : table -> table) (k : nat) (d : docx) : docx :=
  match nth_error (d_items d) k with Some (ITable t) => set_d_items (set_nth (d_items d) k (ITable (f t))) d | _ => d end.

(** structtable_test.go TestTableStructure *)
Definition table_calls : list op :=
  [OAddPara 0; OPara 0 (ABody 0) (OText "table");
   OTable 0 (i64_of 4) (i64_of 3) (i64_of 1000) (Some (mk_colors "#ff0000" "#ff0000" "#ff0000" "#ff0000" "#ff0000" "")); OTableJc 0 1 "center";
   ORowJc 0 1 3 "center"; OCellShade 0 1 3 2 "clear" "auto" "E7E6E6"; OCellPara 0 1 3 2; OPara 0 (ACell 1 3 2 0) (ODrawing true JPG);
   OCellPara 0 1 0 0; OPara 0 (ACell 1 0 0 0) (OText "first cell")].
Definition table_fields (d : docx) : docx :=
  on_table (fun t => v_merge 2 "" (v_merge 1 "" (v_merge 0 "restart" (positioned t)))) 1
    (on_pic (fun p => turned (locked (blip_alpha p))) d (ACell 1 3 2 0) 0).
Example TestTableStructure : same table_calls table_fields = true.
Proof. vm_compute. reflexivity. Qed.

(** structshape_test.go TestShapeStructure *)
Definition shape_line : aline :=
  set_aline_w (i64_of 9525) (set_aline_solid (Some (Some "000000")) (set_aline_round true (set_aline_head (Some lend0) (set_aline_tail (Some lend0) aline0)))).
Definition shape_calls : list op :=
  [OAddPara 0; OPara 0 (ABody 0) (OText "test anchor shape");
   OPara 0 (ABody 0) (OShape true (i64_of 808355) (i64_of 238760) "AutoShape" "auto" "straightConnector1" (Some shape_line));
   OAddPara 0; OPara 0 (ABody 1) (OText "test inline shape");
   OPara 0 (ABody 1) (OShape false (i64_of 808355) (i64_of 238760) "AutoShape" "auto" "straightConnector1" (Some shape_line))].
Example TestShapeStructure : same shape_calls (fun d => d) = true.
Proof. vm_compute. reflexivity. Qed.

(** structdrawing_test.go TestDrawingStructure *)
Definition drawing_calls : list op :=
  [OAddPara 0; OPara 0 (ABody 0) (OText "直接粘贴 inline"); OPara 0 (ABody 0) (ORun 0 (RShade "clear" "auto" "E7E6E6"));
   OPara 0 (ABody 0) (ORun 0 RAddTab); OPara 0 (ABody 0) (ORun 0 RBold); OPara 0 (ABody 0) (ORun 0 (RUnderline "single"));
   OPara 0 (ABody 0) (ORun 0 (RHighlight "yellow")); OPara 0 (ABody 0) (ORun 0 RItalic);
   OPara 0 (ABody 0) (ORun 0 (RFont "宋体" "宋体" "宋体" "eastAsia")); OPara 0 (ABody 0) (ODrawing true JPG);
   OAddPara 0; OPara 0 (ABody 1) (OJc "center"); OPara 0 (ABody 1) (ODrawing false JPG);
   OPara 0 (ABody 1) OTab; OPara 0 (ABody 1) (ORun 1 RAddTab); OPara 0 (ABody 1) (ORun 1 RAddTab); OPara 0 (ABody 1) (ORun 1 RAddTab);
   OPara 0 (ABody 1) (ODrawing false WEBP); OAddPara 0; OPara 0 (ABody 2) (ODrawing false PNG)].
Example TestDrawingStructure : same drawing_calls (fun d => on_pic (fun p => turned (locked (blip_alpha p))) d (ABody 0) 1) = true.
Proof. vm_compute. reflexivity. Qed.
