import json
P=[]
def p(title, statement, quant, why, anchors):
    P.append(dict(id="C%02d"%(len(P)+1), title=title, statement=statement, quantifier=quant, why_tests_cant=why, anchors=anchors))

p("AddText then String gives back the text",
  "For a paragraph q whose String() returns s, after q.AddText(t) String() returns s followed by t, byte for byte, whatever newlines, tabs, markup characters or invalid UTF-8 t contains, including t = \"\\t\" and t = \"\".",
  "every paragraph on which String() returns, every byte string t, every sequence of AddText/AddTab calls",
  "a test can only try finitely many texts; the splitting on \\n and \\t must recombine for all of them",
  ["apitext.go:AddText","apitext.go:AddTab","structpara.go:Paragraph.String"])
p("AddText never stores control separators inside a text node",
  "The run that AddText(t) appends has no text child that is empty or contains \\n or \\t; it has exactly as many break children as t has newlines and as many tab children as t has tabs; children already in the paragraph are untouched and exactly one run is appended.",
  "every paragraph and every byte string t",
  "needs induction over the string",
  ["apitext.go:AddText"])
p("Relationship ids stay unique over any editing history",
  "In a document obtained from New() and changed by any sequence of API calls (links, pictures, shapes, tables, text, AppendFile into it), no two relationships have the same id, as long as fewer than 2^63-4 relationships were ever added.",
  "every finite history of API calls starting at New()",
  "histories are unbounded; id collisions depend on the whole history",
  ["link.go:addLinkRelation","link.go:addImageRelation","empty.go:newEmptyFile","image.go:addImage"])
p("A hyperlink keeps resolving to the link it was created with",
  "After AddLink(text, link) returned a hyperlink h in a document made by New(), ReferTarget(h.ID) returns link, and keeps returning it after any further API calls on the document.",
  "every history before and every history after the AddLink call",
  "depends on all later calls, which a test cannot enumerate",
  ["apilink.go:AddLink","link.go:ReferTarget"])
p("An inserted picture keeps its own bytes",
  "After AddInlineDrawing(pic) or AddAnchorDrawing(pic) succeeded in a document made by New(), the picture's embed id resolves to a target media/NAME and Media(NAME) returns exactly pic, and this stays so after any further API calls.",
  "every history before and after, every picture content and format name",
  "name and index collisions depend on the full history of insertions",
  ["apidrawing.go:AddInlineDrawing","apidrawing.go:AddAnchorDrawing","image.go:addImage","media.go:Media"])
p("Adding to a parsed document does not hijack existing relationships",
  "After Parse of a package whose relationship ids all have numbers below 2^63-1-k, k calls of AddLink each return an id that no earlier relationship has, so every id resolves to what it resolved to before. (At rId9223372036854775807 and above the produced id is negative and the saved file is rejected by Parse.)",
  "every relationship list accepted by Parse, every number k of additions",
  "the parsed ids are arbitrary numbers; the fresh-id argument is about all of them",
  ["unpack.go:parseDocRelation","link.go:addLinkRelation"])
p("Adding a picture to a parsed document does not overwrite an existing one",
  "After Parse of a package, AddInlineDrawing/AddAnchorDrawing never gives the new picture the media name of a picture already in the package, and after WriteTo every earlier media file still has its own bytes.",
  "every package accepted by Parse",
  "depends on which media names the package contains",
  ["unpack.go:unpack (imageID = 100000)","image.go:addImage","pack.go:pack"])
p("A rejected picture leaves the document unchanged",
  "If the picture size decoder rejects the bytes, AddInlineDrawing and AddAnchorDrawing return that error and the document (items, relationships, media, all counters) is exactly as before.",
  "every document, every byte string the decoder rejects",
  "must hold for every document state",
  ["apidrawing.go:AddInlineDrawing","apidrawing.go:AddAnchorDrawing"])
p("Picture size fits the page and keeps the aspect ratio",
  "For a decoded width w>0 and height h>=0 the inserted extent is exactly (5274310, floor(5274310*h/w)) when w/h > 1.2 and (2637155, floor(floor(5274310*h/w)/2)) otherwise; the width never exceeds A4_EMU_MAX_WIDTH and the extent in the graphic frame equals the extent in the shape; the floating point test agrees with the exact test 5*w > 6*h for all w, h below 2^31. Width 0 makes the call panic.",
  "all integer sizes in range",
  "arithmetic over an unbounded range, including the floating point comparison",
  ["apidrawing.go:43-49","apidrawing.go:146-152","structdrawing.go:A4_EMU_MAX_WIDTH"])
p("IncreaseID hands out distinct consecutive numbers under any schedule",
  "When any number of goroutines call IncreaseID on one document concurrently, under every interleaving each name's calls return pairwise different numbers and, once all are done, exactly the next k numbers were returned for a name called k times and the stored counter advanced by k.",
  "every set of goroutines, every assignment of names, every interleaving of their lock/read/write/unlock steps",
  "schedules cannot be enumerated by tests",
  ["id.go:IncreaseID"])
p("Drawing ids are unique in a document built by the API",
  "In a document made by New() and changed by any sequence of API calls without AppendFile, the docPr ids of all drawings inserted are pairwise different.",
  "every history of API calls from New()",
  "unbounded histories",
  ["apidrawing.go","apishape.go","structdrawing.go:WPDocPr"])
p("AddTable makes a full rectangular grid",
  "AddTable(r,c,w,_) appends exactly one table with r rows of exactly c cells each, every cell empty, of width type auto and attached to the document; AddTableTwips(rh,cw,w,_) appends one with len(rh) rows of len(cw) cells, cell j of width cw[j], row i of height rh[i] when positive, and one grid column per width, holding the width when positive and absent otherwise. Negative counts panic. Earlier items are untouched.",
  "all row and column counts and all width/height lists",
  "sizes are unbounded",
  ["apitable.go:AddTable","apitable.go:AddTableTwips"])
p("Table border colours: given ones kept, missing ones black",
  "Each of the six borders of a table made by AddTable/AddTableTwips has the colour given for that side if it is not empty and #000000 otherwise, with style single and size 4; a nil colour argument means all black; the caller's colour struct is left with its empty fields filled with #000000.",
  "all six-tuples of colour strings and nil",
  "combination space is infinite",
  ["apitable.go:applyDefault","apitable.go:AddTable"])
p("Table.String is a markdown grid of the first paragraphs",
  "Table.String() of a table with at least one row and a non-empty first row is a header with one ':----:' column per cell of the first row, then one line per row with, for every cell, the String() of its first paragraph (or blanks when the cell has no paragraph or an empty first one); it is empty for a table without rows or with an empty first row.",
  "every table",
  "structure is unbounded",
  ["structtable.go:Table.String"])
p("KeepElements keeps exactly the named kinds in order",
  "Body/Paragraph/Run.KeepElements(names) leaves exactly the elements whose type name is among names, in their original order with unchanged contents; doing it again changes nothing; two calls keep the intersection.",
  "every list of elements and every list of names",
  "lists are unbounded",
  ["structdoc.go:Body.KeepElements","structpara.go:Paragraph.KeepElements","structrun.go:Run.KeepElements"])
p("Drop functions remove exactly the matching drawings",
  "Paragraph.DropShape/DropCanvas/DropGroup/DropShapeAndCanvas/DropShapeAndCanvasAndGroup remove from the paragraph's runs exactly the drawings that contain such a graphic (inline or anchored) and keep everything else in order, including hyperlinks and their contents; they are idempotent, and the combined forms equal running the single ones in any order.",
  "every paragraph",
  "paragraphs are unbounded trees with many nil cases",
  ["structpara.go:DropShape","structpara.go:DropCanvas","structpara.go:DropGroup","structpara.go:DropShapeAndCanvas","structpara.go:DropShapeAndCanvasAndGroup"])
p("DropDrawingOf covers body and table paragraphs and ignores unknown names",
  "Body.DropDrawingOf(name) applies the drop function of that name to every paragraph of the body and of every table cell and nothing else; for a name that is not one of the six listed it changes nothing.",
  "every body and every name string",
  "name is an arbitrary string resolved by reflection; structure unbounded",
  ["structdoc.go:DropDrawingOf"])
p("After DropNilPicture only real pictures are left",
  "After Paragraph.DropNilPicture() every drawing left in the paragraph's runs has an inline or anchor, and each of its inline and anchor present contains a picture; drawings that had that before are all kept in order. If in addition every picture resolves to a stored media, String() of the paragraph does not panic.",
  "every paragraph, with every combination of missing parts",
  "all nil combinations and unbounded lists",
  ["structpara.go:DropNilPicture","structdrawing.go:WPInline.String"])
p("SplitByParagraph partitions the body",
  "When it returns, SplitByParagraph(sep) yields documents whose bodies, concatenated, have the same number and kinds of items in the same order as the source body; no document is empty; every document but the first begins with a paragraph on which sep is true, and no other paragraph after the first item of a document satisfies sep; the source document is unchanged.",
  "every document and every total separator predicate",
  "arbitrary predicates and lengths",
  ["structdoc.go:SplitByParagraph"])
p("Split and appended content keeps its links and pictures",
  "For documents whose hyperlinks, pictures resolve, each hyperlink copied by SplitByParagraph or AppendFile resolves in the destination to the same target as in the source, and each copied picture resolves there to the same bytes, under a name with the same extension; plain text of picture-free paragraphs is unchanged.",
  "every source document with resolving references, every destination document",
  "ids are renumbered depending on the whole destination history",
  ["structdoc.go:copymedia","structdrawing.go:WPInline.copymedia","structdrawing.go:WPAnchor.copymedia"])
p("Copying a document built by the API works",
  "SplitByParagraph, AppendFile and Paragraph.String never panic on a document built with New() and the Add* functions.",
  "every API history",
  "whether a nil document pointer is reached depends on how the element was created",
  ["structdoc.go:AppendFile","structdoc.go:SplitByParagraph","structdrawing.go:WPInline.String","apidrawing.go:AddInlineDrawing"])
p("AppendFile does not disturb what was there",
  "After f.AppendFile(g) returns: f's body is its old body followed by one item per item of g in order, of the same kind; every old relationship, media entry and id lookup of f gives the same answer; g is unchanged when g is another document.",
  "every pair of documents",
  "depends on the relationship and media tables of both documents",
  ["structdoc.go:AppendFile"])
p("MergeText does not change the paragraph's text",
  "p.MergeText(rule).String() equals p.String().",
  "every paragraph and every merge rule",
  "rule is an arbitrary predicate, runs are arbitrary lists",
  ["structtext.go:MergeText"])
p("MergeText merges only what the rule allows and keeps formatting",
  "In the result of MergeText(MergeSamePropRuns) every run's properties come from the runs merged into it, all of which have equal properties; no two consecutive runs (ignoring other children in between) have equal properties; with a rule that always refuses, the number and order of children is unchanged.",
  "every paragraph",
  "unbounded lists of runs",
  ["structtext.go:MergeText","structtext.go:MergeSamePropRuns"])
p("MergeSamePropRuns is exact equality of run formatting",
  "MergeSamePropRuns(r1,r2) is true exactly when both runs exist and have the same formatting in all sixteen properties (or both have none); it is reflexive, symmetric and transitive; MergeSamePropRunsOf(names) with property names compares exactly those properties, and panics on a name that is not a property when it gets that far.",
  "all pairs of runs, all lists of names",
  "sixteen independent optional properties with arbitrary values",
  ["structtext.go:MergeSamePropRuns","structtext.go:MergeSamePropRunsOf"])
p("ReferTarget and ReferID are first-match lookups and inverse to each other",
  "ReferTarget(id) returns the target of the first relationship with that id, or ErrRefIDNotFound exactly when none has it; ReferID(target) likewise for targets; with unique ids ReferTarget(ReferID(t)) = t.",
  "every relationship list",
  "lists unbounded",
  ["link.go:ReferTarget","link.go:ReferID"])
p("Media lookup never goes out of range and returns the latest entry",
  "On every reachable document Media(name) either returns nil, exactly when no media of that name was ever stored, or the most recently stored media of that name; it never panics.",
  "every history from New(), LoadBodyItems or Parse",
  "index map and slice must agree after every history",
  ["media.go:Media","media.go:addMedia","unpack.go:parseMedia","docx.go:LoadBodyItems"])
p("RangeRelationships visits each relationship once, stops at the first error and cannot modify the document",
  "The callback is called on the relationships in stored order up to and including the first on which it fails; that error is returned; nil is returned exactly if all calls succeed; what the callback writes through its pointer does not change the document.",
  "every relationship list and every callback",
  "callbacks are arbitrary",
  ["apirel.go:RangeRelationships"])
p("Saving and reloading document.xml preserves the document",
  "Marshalling any in-memory document and unmarshalling the result succeeds and gives back the document, up to exactly these losses: numbering properties, attributes of tabs inside runs, nil grid columns, avLst of shape geometry, the xmlns:pic of pictures in groups, group shapes nested in group shapes, and table-look flags other than 0..9. Everything else (runs, formatting, links, drawings, shapes, canvases, groups, tables, sections) is identical.",
  "every document value of any size and nesting depth",
  "the type is infinite and deeply nested",
  ["structdoc.go","structpara.go","structrun.go","structtext.go","structdrawing.go","structshape.go","structgroup.go","structcanvas.go","structtable.go","structsect.go","structeffects.go"])
p("Relationships survive saving and reloading",
  "Marshalling the relationship list and unmarshalling it gives the same list in the same order with the same fields; reloading sets the id counter to the largest id number.",
  "every relationship list with ids of the form rId<number>",
  "lists unbounded",
  ["structrel.go","pack.go:marshaller","unpack.go:parseDocRelation"])
p("Paragraph numbering survives saving and reloading",
  "After NumPr(numID, ilvl) the paragraph still has that numbering after WriteTo and Parse.",
  "every paragraph",
  "universal over documents",
  ["apipara.go:NumPr","structpara.go:ParagraphProperties.UnmarshalXML","structnum.go"])
p("Switched-off formatting stays off",
  "Loading a run whose XML switches bold or italic off (w:b w:val=\"0\" or \"false\") and saving it does not switch it on.",
  "every such run",
  "needs the semantics of the loader for all attribute values",
  ["structrun.go:RunProperties.UnmarshalXML","structeffects.go:Bold"])
p("Parse always terminates with a document or an error",
  "For every well-formed or malformed token stream of word/document.xml the loader terminates, without panicking, with a document or an error; a syntax error inside the root element always yields an error.",
  "every token stream",
  "input space infinite, mutual recursion over nested content",
  ["structdoc.go:Document.UnmarshalXML","unpack.go:parseDocument"])
p("Unknown elements are skipped without side effects",
  "Inserting an element with a name the loader does not handle (with arbitrary well-formed content) among the children of the body, a table, row, cell, paragraph or run, or of paragraph or run properties, does not change the loaded document.",
  "every document, every position, every unknown element content",
  "content of the skipped element is arbitrary",
  ["structdoc.go:Body.UnmarshalXML","structpara.go","structrun.go","structtable.go"])
p("All character data of a text element is loaded",
  "Loading <w:t> gives the concatenation of its character data, however it is divided by comments or CDATA sections.",
  "every content of w:t",
  "any number of pieces",
  ["structtext.go:Text.UnmarshalXML"])
p("WriteTo writes exactly the expected parts, each once",
  "When WriteTo succeeds on a document whose media names are distinct, the archive contains exactly: the template files, word/document.xml, word/_rels/document.xml.rels and word/media/NAME for every media, each exactly once and with its own contents (document parts override template files of the same name), whatever order Go iterates the file map in.",
  "every document, template file system and map iteration order",
  "map iteration order is nondeterministic",
  ["pack.go:pack"])
p("Parse of a written document gives the document back",
  "If WriteTo succeeds, Parse of the archive succeeds and yields the same body (up to the losses of C29), the same relationships in the same order, the same media by name and the same remaining files byte for byte, whatever map order was used for writing.",
  "every document whose relationship ids are rId<number>, whose media names are distinct, whose texts and attribute values consist of XML characters and whose template has no file in the media folder; every iteration order; the contents of the remaining files for names that are ordinary paths",
  "combines unbounded documents with nondeterministic order",
  ["pack.go:pack","unpack.go:unpack"])
p("WriteTo reports an incomplete file",
  "If WriteTo returns a nil error then the destination writer received the complete archive.",
  "every document and every point at which the destination writer starts failing",
  "the failure point is arbitrary",
  ["docx.go:WriteTo","pack.go:pack"])
p("Every parsed document can be written again",
  "If Parse succeeds on a package then WriteTo of the result to a writer that does not fail succeeds.",
  "every package accepted by Parse",
  "depends on all entry names of the package",
  ["unpack.go:unpack","pack.go:pack"])
p("Text and attribute values cannot break the XML",
  "For every valid UTF-8 string of XML characters used as text or attribute value, the written XML reads back as exactly the same token sequence, so no value can inject or close elements.",
  "every token tree over valid strings",
  "all strings",
  ["pack.go:marshaller.WriteTo (encoding/xml EscapeText)"])
p("GetInt and GetInt64 read back every integer",
  "GetInt64(strconv.FormatInt(n)) = n for every int64 n, likewise GetInt; an optional + sign and leading zeros are accepted.",
  "all 2^64 integers and spellings",
  "2^64 values",
  ["helper.go:GetInt64","helper.go:GetInt"])
p("Run formatting setters set their own property and nothing else",
  "Each Run setter (Color, Size, SizeCs, Shade, Spacing, Bold, Italic, Underline, Highlight, Strike, Font) sets its property to the given value, leaves the other properties, children and instruction text unchanged; the last write to a property wins and setters of different properties commute. On a run without properties (as Parse creates for a run without w:rPr) they panic.",
  "every run and every argument",
  "all states of sixteen optional properties",
  ["apirun.go"])
p("Paragraph setters set their own property and nothing else",
  "Justification, Style, NumPr, NumFont, NumSize set exactly their property of the paragraph (creating the properties if missing) and keep all others and the children; they never panic; last write wins.",
  "every paragraph and argument",
  "all states",
  ["apipara.go"])
p("Split documents are independent of the source",
  "After SplitByParagraph or AppendFile, changing the formatting of a run in the copy does not change the source document, and adding content to the copy does not change the source.",
  "every document and every later change",
  "aliasing shows only through later mutations",
  ["structdoc.go:copymedia","apirun.go"])
p("LoadBodyItems does not write into the caller's slice",
  "After LoadBodyItems(items, media), adding paragraphs to the new document does not change the elements of the slice the caller passed or of the array behind it.",
  "every slice with any spare capacity",
  "depends on capacity",
  ["docx.go:LoadBodyItems","apipara.go:AddParagraph"])
p("Items appear in the order of the calls",
  "The body of a document is changed by AddParagraph, AddTable, WithA3Page and WithA4Page only by appending exactly one item at the end, and by every other Add call only inside the paragraph it is called on.",
  "every history",
  "unbounded histories",
  ["apipara.go:AddParagraph","theme.go:WithA4Page","apitable.go:AddTable"])
p("Size changes both extents of a picture and nothing else",
  "WPInline.Size(w,h) and WPAnchor.Size(w,h) set the frame extent (if present) and the picture's shape extent (if a picture with shape properties is present) to (w,h), change nothing else and never panic.",
  "every inline/anchor with any combination of missing parts",
  "all nil combinations",
  ["apidrawing.go:WPInline.Size","apidrawing.go:WPAnchor.Size"])
p("Paragraph.String renders links in markdown and concatenates children",
  "String() of a paragraph is the concatenation over its children in order: [text](target) for a hyperlink (the raw id when it does not resolve), the text, tab and newline characters for run children; other children contribute nothing; it does not panic when the paragraph has no drawings and is attached to a document.",
  "every paragraph",
  "unbounded lists",
  ["structpara.go:Paragraph.String"])
p("A successful load has loaded the whole body",
  "If Parse returns no error, the loaded body has one item for every paragraph, table and section element in the body of word/document.xml, in the same order.",
  "every package accepted by Parse",
  "depends on arbitrary attribute values anywhere in the document: an integer attribute with a value such as false makes the decoders of all enclosing elements stop early",
  ["helper.go:GetInt","structdoc.go:Body.UnmarshalXML","structpara.go:ParagraphProperties.UnmarshalXML"])
p("Different ways to write the same XML load as the same document",
  "What Parse loads from word/document.xml does not depend on how the XML is written: either quote, white space inside tags, decimal, hexadecimal and named character references or literal characters, CDATA sections, elements that close themselves, line ends, declarations, and comments, processing instructions and a document type declaration in front of the root element make no difference. The part is read to its end if and only if it follows the grammar (that of XML 1.0 except that text and several document type declarations may stand anywhere and that a declaration is only looked at for version and encoding).",
  "every document and every spelling of its XML",
  "infinitely many spellings of the same document",
  ["structdoc.go:Document.UnmarshalXML","unpack.go:parseDocument"])
p("Loading, saving and loading again is stable",
  "For every word/document.xml, whether or not loading reports an error: saving what was loaded and loading it again succeeds and gives the same body, except that flags of a table look that are not one decimal digit may change; saving and loading once more changes nothing at all. So a program that edits a file again and again loses nothing after the first time it was read.",
  "every sequence of bytes in the place of word/document.xml",
  "all loadable contents of all elements at once, including broken documents",
  ["structdoc.go:Document.UnmarshalXML","structtable.go:WTableLook.UnmarshalXML","unpack.go:parseDocument","pack.go:pack"])
p("Parts the library does not know survive editing byte for byte",
  "After Parse of a package of ordinary files with different names and any sequence of API calls other than UseTemplate, WriteTo writes every part outside word/media other than word/document.xml and word/_rels/document.xml.rels (styles, numbering, headers, settings, ...) under the same name with the same bytes as in the package, and writes no further such parts. The pictures of the package keep their bytes, too, if none of them has a number above 100000 (the others are the subject of C07).",
  "every package of ordinary files and every history of calls on any number of documents",
  "unbounded histories and contents; every part of the package at once",
  ["unpack.go:unpack","pack.go:pack","docx.go:Parse","docx.go:WriteTo"])
p("Every namespace prefix in a saved document is declared",
  "In the word/document.xml that WriteTo produces, every prefix of an element or attribute name is declared, with a namespace name that is not empty, on the element itself or on one around it.",
  "every document made by any sequence of calls, loaded or not",
  "unbounded histories and nesting; whether a declaration is written depends on fields set far away from where the prefix is used",
  ["structdoc.go:Document","structdrawing.go:AGraphic","structdrawing.go:AGraphicFrameLocks","structdrawing.go:Picture","structgroup.go:WordprocessingGroup.UnmarshalXML","apidrawing.go:AddInlineDrawing","unpack.go:unpack"])
p("Saving a loaded document invents nothing",
  "For every word/document.xml, whether or not loading reports an error: in the word/document.xml that is saved for it, every attribute value below the root element is empty, a whole number, or an attribute value of the loaded file, and every text is a whole number or consists of texts of the loaded file one after another. So a file never gets text or settings that were not in it, and attribute values and texts are not mixed up.",
  "every sequence of bytes in the place of word/document.xml",
  "all elements and attributes of all documents at once, including broken ones",
  ["structdoc.go:Document.UnmarshalXML","structrun.go:Run.UnmarshalXML","structtext.go:Text.UnmarshalXML","unpack.go:parseDocument","pack.go:pack"])
p("Saved parts follow the WordprocessingML grammar",
  "For every document that can be written, the saved word/document.xml is one w:document element in which every element has the prefix and the name of the standard, stands in a place where the standard (or the Word 2010 extensions) has it and occurs as often as it may there, and has exactly the attributes of its kind, with whole numbers where numbers are due; optional attributes are written only if they are set. The same holds of word/_rels/document.xml.rels. The children of every element are in the order of the standard, but for w:pPr, w:numPr, w:tblPr and w:tcPr, whose children are always in a fixed order of the library; so the whole file is in the order of the standard if and only if none of these four has two children of which the two orders disagree (w:jc and w:pStyle, w:numId and w:ilvl, w:tblpPr and w:tblStyle, w:vMerge and w:gridSpan, and so on).",
  "all documents, built or loaded, and all packages written for them",
  "Tests compare a few documents with themselves after reloading; the reader looks at local names only, so a wrong prefix or place goes unnoticed. That no nesting of shapes, groups, tables and runs gives a misplaced element needs an induction over all of them.",
  ["pack.go:pack","structdoc.go:Document","structpara.go:ParagraphProperties","structtable.go:WTableProperties","structrel.go:Relationships"])
p("Loading depends only on the elements and attributes the library knows",
  "Two word/document.xml files load as the same document, or fail in the same way, if they differ only in: the prefixes of elements and attributes; attributes whose local name means nothing on their element; elements whose local name means nothing anywhere, with any content; comments, processing instructions and text between elements; and in how the XML is written. In particular every file that is a saved document laid out for reading loads as that document. Exceptions: nothing may be put into the elements that have attributes only, nothing but elements into mc:AlternateContent, no elements into w:t and w:tabs, no text where text is read. Each exception is a real one: there is a document which then loads differently or not at all.",
  "all pairs of documents that differ in any number of such places",
  "unbounded numbers of changes at any depth; every decoder has its own loop over the tokens, and each has to pass over the same things",
  ["structdoc.go:Document.UnmarshalXML","structrun.go:Run.UnmarshalXML","structrun.go:Run.parse","structtext.go:Text.UnmarshalXML","structpara.go:Paragraph.UnmarshalXML","structdrawing.go:Drawing.UnmarshalXML","unpack.go:parseDocument"])
p("Saved packages are complete, as long as the content types cover the pictures",
  "Call a package complete if it has a [Content_Types].xml that gives a content type to every other part, if every relationship of the package and of the main document is external or points to a part, and if the package points to word/document.xml as its main document. (1) A document made by New, LoadBodyItems or SplitByParagraph and any further calls, with the default theme, is saved as a complete package if and only if the extension of every picture is jpeg, png, webp, rels or xml. (2) A complete package that is opened and saved is complete; after any sequence of calls other than UseTemplate it is saved as a complete package if and only if its own list of content types covers the pictures that were added. (3) A document whose template has no [Content_Types].xml, such as one made by New alone, is never saved as a complete package.",
  "every history of calls on any number of documents, every package of ordinary files, every saved package",
  "unbounded histories; the relationships, the media and the template are written from three different places and have to agree",
  ["theme.go:WithDefaultTheme","fs.go:DefaultTemplateFilesList","xml/default/[Content_Types].xml","xml/default/_rels/.rels","pack.go:pack","image.go:addImage","empty.go:newEmptyFile","unpack.go:unpack"])
p("A document built by several goroutines",
  "Goroutines add shapes, links and pictures to different paragraphs of one document. (1) Under every schedule all drawing ids, relationship ids, picture file names and numbered shape names that the calls get are different. (2) If only one of the goroutines adds links or pictures, then at every moment ReferTarget finds, for every link and picture added so far, its link or its media file, and the relationships and the media are exactly those that the same calls would have made with no other goroutine, with the same ids. (3) No schedule gets stuck. (4) Condition (2) is needed: whenever two goroutines start by adding a link, some schedule leaves a finished call with a relationship id that the document does not have.",
  "any number of goroutines with any lists of calls, every document, every interleaving of their reads and writes",
  "the number of interleavings is unbounded; a lost append shows up only under rare timing",
  ["apishape.go:AddInlineShape","apishape.go:AddAnchorShape","apidrawing.go:AddInlineDrawing","apilink.go:AddLink","link.go:addLinkRelation","image.go:addImage","media.go:addMedia","id.go:IncreaseID"])
p("Which calls on documents made from scratch panic",
  "Documents are made by New and any sequence of calls that add paragraphs, text, tabs, breaks, links, pictures, shapes, tables and cell paragraphs, style them, set the page size or the template, or remove elements. On such documents a further call panics if and only if it is one of these: it names a document, paragraph, table, row, cell, run or drawing that is not there; AddTable with a negative number of rows, or with a negative number of columns and at least one row; AddInlineDrawing or AddAnchorDrawing of a picture whose width is 0. And String of a paragraph panics if and only if one of its runs holds a picture added by AddInlineDrawing or AddAnchorDrawing; String of a table if and only if it has cells in its first row and the first paragraph of some cell holds such a picture. (Pictures read back from a saved package are not concerned; memory is unlimited.)",
  "every sequence of such calls on any number of documents, every further call, every paragraph and table",
  "no test can try all histories; a nil pointer left behind by one call is met by another much later",
  ["apipara.go:AddParagraph","apirun.go:Bold","apitable.go:AddTable","apidrawing.go:AddInlineDrawing","apilink.go:AddLink","apishape.go:AddInlineShape","structdrawing.go:WPInline.String","structpara.go:Paragraph.String","structtable.go:Table.String"])
p("A document reads the same after saving and opening again",
  "Documents are made by New, Parse and any sequence of calls: adding and styling paragraphs, runs, links, pictures, shapes, tables and cells, removing elements, setting page size and template, AppendFile, SplitByParagraph. If all strings given to the calls consist of XML characters, the parsed packages have no file name twice and room for more numbers, and the template has no file in word/media, then every package that WriteTo makes of such a document is accepted by Parse. The document it gives has the same relationships and pictures and the same body (up to the losses listed for saving and reloading), and whatever String returned for a paragraph or a table of the document, it returns for the paragraph or table at the same place of the document opened again. For documents made by LoadBodyItems from items of another document the last part is false: links are looked up in the other document before saving, and not found afterwards.",
  "every history of calls on any number of documents, every order in which the parts are written, every paragraph and table",
  "unbounded histories; documents are copied into one another and refer to relationships and media by number, and each of the calls has to keep them in agreement",
  ["pack.go:pack","unpack.go:unpack","docx.go:WriteTo","docx.go:Parse","structpara.go:Paragraph.String","structtable.go:Table.String","structdoc.go:AppendFile","structdoc.go:SplitByParagraph","docx.go:LoadBodyItems"])
p("Whatever bytes are passed in, the saved document opens again",
  "Cleaning a string means: the characters XML allows stay; every other character, and every byte that does not begin a well-formed UTF-8 character, is replaced by U+FFFD. (1) Every string has exactly one cleaned version; it consists of XML characters, and a string of XML characters is its own cleaned version. (2) Saving a document and saving the same document with all its strings cleaned give the same packages. (3) Take any history of calls on any number of documents, with any strings: if parsed packages have no file name twice and leave room for more numbers, media given to LoadBodyItems have no name twice and no name that the library gives to pictures added later, and the template has no file in word/media, then every package a document is saved as is parsed without error. The items come back as in the full round trip, with their strings cleaned; relationships come back with their strings cleaned; media come back byte for byte, each under its name.",
  "every history of calls with arbitrary byte strings, every document in it, every order in which the parts are written",
  "arbitrary byte strings can be given to every call; one unescaped control character anywhere would make the saved package unreadable, and tests use plain text",
  ["pack.go:pack","pack.go:marshaller.WriteTo","unpack.go:unpack","docx.go:WriteTo","docx.go:Parse","apitext.go:AddText","apilink.go:AddLink"])
p("Parse and String give the text of the file",
  "Take a package that Parse loads without error and in whose main part no attribute that is read as a number has a value GetInt rejects, and no mc:AlternateContent has text or comments before the Choice that is taken. Then the main part is a well-formed element, and the body items of the document are its paragraphs, tables (with their rows, cells and the paragraphs in them) and section properties, in order. If String of such a paragraph returns, it returns the following, read off the file: for every w:r child of the w:p the contents of its w:t (the last piece of character data), a tab for w:tab, a newline for w:br, and a drawing as nothing or as text starting with ![; for every w:hyperlink child [instruction](target), where the instruction is the last w:instrText in its runs and the target is the anchor, or the target of the first relationship with the id, or else the id itself; and nothing for any other child. If there is no drawing in its runs, String does return, and there is only one such reading. In particular text in w:ins, w:sdt or in the w:t of a hyperlink is not shown.",
  "every package, every document in it, every paragraph of the body and of the table cells",
  "files come from other programs and nest elements in any way; the decoders skip, flatten or keep elements token by token, and a decoder that leaves one token too many shifts the text of everything after it",
  ["structpara.go:Paragraph.UnmarshalXML","structpara.go:Paragraph.String","structrun.go:Run.UnmarshalXML","structrun.go:Run.parse","structtext.go:Text.UnmarshalXML","structlink.go:Hyperlink.UnmarshalXML","structtable.go:WTableCell.UnmarshalXML","structdoc.go:Body.UnmarshalXML","docx.go:Parse"])
p("The saved file is exactly the XML of the calls that made the document",
  "Take a document made by New and then any sequence of AddParagraph, AddText, AddTab, AddPageBreaks, AddLink, the paragraph and run formatting calls, the numbering calls, AddInlineDrawing, AddAnchorDrawing, AddInlineShape, AddAnchorShape and Size on drawings, AddTable, AddTableTwips and the calls that format tables, rows and cells, AddParagraph on a cell, the page sizes, KeepElements and the functions that drop drawings, and UseTemplate (pictures of positive width, both sides below 2^40 pixels; data that is not a picture changes nothing). Describe the content that the calls ask for as plain data (paragraphs with pieces of text, tabs, breaks, links and numbered drawings and the formatting set last, tables with cells, page sections, the list of links and pictures). Then word/document.xml and word/_rels/document.xml.rels in the saved package are byte for byte the XML that spells out this description, where every byte sequence in a string passed in that XML cannot represent is replaced by U+FFFD. If UseTemplate was not called, WriteTo never fails and the package holds exactly these two parts and, for each picture added, its unchanged bytes under word/media/imageN.format, as long as these names can be written to a ZIP archive.",
  "every sequence of these calls, every string (any bytes), number, index and order of calls",
  "each call changes an object deep in the document that other calls go on changing; the order of elements in the file, the escaping and which element a setting lands in depend on the whole history, and only byte-exact output for every history excludes stray, lost or misplaced elements",
  ["apitext.go:AddText","apipara.go:AddParagraph","apirun.go:Run.Bold","apilink.go:AddLink","apidrawing.go:AddInlineDrawing","apishape.go:AddInlineShape","image.go:addImage","id.go:IncreaseID","apitable.go:AddTable","theme.go:UseTemplate","pack.go:pack","structpara.go:Paragraph","structrun.go:Run","structtable.go:Table","link.go:addLinkRelation","structdoc.go:KeepElements","structdoc.go:DropDrawingOf"])
p("Which calls panic, on documents of any origin",
  "After any history of calls on any number of documents - New, Parse, LoadBodyItems, every call that builds, styles, removes or copies - a further call panics if and only if one of the following holds. (1) It names something that is not there; AddTable gets a negative number of rows, or a negative number of columns and at least one row. (2) A run is styled that has no properties (a parsed w:r without w:rPr), or Justification or Shade is called on a table, row or cell without properties. (3) A link, shape or picture is added to a paragraph that belongs to no document, or a picture has width 0. (4) Size is called on a drawing that is not there. (5) AppendFile, or SplitByParagraph: the source holds, in its body or in a table cell, a hyperlink in a paragraph that belongs to no document; or a drawing without graphic; or a picture with a blip that belongs to no document, or whose relationship has a target of fewer than 6 bytes, or whose relationship leads to a media file while the picture has no properties of its own (inside a hyperlink only if the hyperlink's relationship exists); or the splitting rule panics. Parse never panics. For AppendFile the source must not hold anything that belongs to the destination; this is so for all documents made without LoadBodyItems unless a document is appended to itself. In the same way it is determined exactly when String of a paragraph or table panics: a hyperlink in a paragraph that belongs to no document, an inline drawing without graphic, a picture without name and blip, or a picture that belongs to no document, whose target is shorter than 6 bytes, or whose media file is missing.",
  "every history of calls, every further call, every paragraph and table",
  "no test can try all histories and packages; nil pointers come from elements that are missing in a file or from calls made long before",
  ["apirun.go:Bold","apitable.go:Table.Justification","apilink.go:AddLink","apidrawing.go:AddInlineDrawing","structdoc.go:AppendFile","structdoc.go:SplitByParagraph","structdrawing.go:WPInline.copymedia","structdrawing.go:WPInline.String","structpara.go:Paragraph.String","structtable.go:Table.String","docx.go:Parse","docx.go:LoadBodyItems"])
p("Blanks at the ends of text are still seen in the saved file",
  "A program that reads the saved file and follows the rules for white space (XML 1.0 section 2.10, ECMA-376 17.3.3.31) shows the text of w:t without white space at its ends unless xml:space=\"preserve\" holds there. For every paragraph and every string t, after AddText(t) such a reader shows what it showed before, followed by t. Loading a text element and saving it does not change what is shown of it, and MergeText does not change what is shown of a paragraph.",
  "every paragraph, every string, every text element with any attributes, every merge rule",
  "whether blanks survive depends on where tabs, line ends and run boundaries fall in the text; the library's own String does not show the difference",
  ["apitext.go:AddText","structtext.go:Text","structtext.go:Text.UnmarshalXML","structtext.go:MergeText","structrun.go:Run"])
p("Which calls return an error, and which packages Parse accepts",
  "(1) In every state a call returns an error if and only if it is AddInlineDrawing or AddAnchorDrawing on an existing paragraph with data the image decoders reject, or Parse of an archive with an entry that Parse refuses when it is the only entry of an archive. (No entry name occurs twice; the bytes are a ZIP archive.) Parse never panics. (2) word/_rels/document.xml.rels, however its XML is written, is accepted if and only if every Relationship element that is a child of the root has an Id that is rId followed by decimal digits with a value below 2^64; the last attribute with the local name Id counts. So a package with other ids, which the standard allows, is refused. (3) word/document.xml is refused if and only if decoding it gives an error; a file in word/media if and only if its bytes cannot be read. (4) Every other entry is accepted, readable or not, and nothing is required: an archive without any of these parts opens as an empty document.",
  "every call in every state; every archive with distinct names; every spelling of every relationship part",
  "the archives that other programs write are unbounded in number; whether one is accepted depends on every entry in it",
  ["docx.go:Parse","unpack.go:unpack","unpack.go:parseDocument","unpack.go:parseDocRelation","unpack.go:parseMedia","structrel.go:Relationships","apidrawing.go:AddInlineDrawing","apidrawing.go:AddAnchorDrawing"])
p("After DropDrawingOf the saved file has no shape, canvas or group, except in hyperlinks",
  "The saved main part has a wps:wsp, wpc:wpc or wpg:wgp element, at any depth, if and only if a run or a hyperlink of a paragraph in the body, or in a table of the body, has a drawing whose graphic is a shape, canvas or group. After DropDrawingOf(\"ShapeAndCanvasAndGroup\") it has one if and only if a hyperlink had such a drawing: drawings in hyperlinks are not dropped. No call puts a drawing into a hyperlink; so after any history of calls in which nothing that was parsed or given to LoadBodyItems had a drawing in a hyperlink, the file saved right after the call has none of these elements.",
  "every document, every package written from it, every history of calls",
  "shapes nest: a group may hold canvases, a shape paragraphs with further drawings; whether any element is left in the file depends on every path through the document, and files with drawings in hyperlinks come from other programs",
  ["structdoc.go:Body.DropDrawingOf","structpara.go:Paragraph.DropShapeAndCanvasAndGroup","structdrawing.go:AGraphicData","structlink.go:Hyperlink","pack.go:pack"])
p("Splitting a document and appending the parts gives the content back",
  "Split a document of any origin with SplitByParagraph, make a new document with New and append the parts to it, in order, with AppendFile. If these calls return (which calls panic is C64), the new document has one item for every item of the source, in order, with the same properties, text, tabs, breaks and sizes; every hyperlink and picture that resolves in the source is there and resolves to the same target or to the same bytes; hyperlinks that do not resolve are left out. In general a copy of a copy stands to the source as a copy does.",
  "every document in every world of documents, every separator rule; fewer than 2^63 relationships per document",
  "each copy renumbers the relationships and renames the media files; whether a link or picture still means the same after two renumberings depends on all links and pictures copied before it",
  ["structdoc.go:SplitByParagraph","structdoc.go:AppendFile","structdoc.go:copymedia","structdrawing.go:WPInline.copymedia","structdrawing.go:WPAnchor.copymedia","link.go:addLinkRelation","image.go:addImage"])
p("The saved file holds no picture and no address that the document does not show",
  "In the package saved from a document made by New or SplitByParagraph, every file in word/media (whose name consists of XML characters) is shown: a picture in the main part names a relationship that points to it; and every address of an external relationship is the target of a hyperlink in the main part. This holds after every history of calls on any number of documents, including ones in which other documents are parsed, changed and copied from. (It is false once KeepElements or a Drop method takes something out of the document: pictures and relationships that are in the package once are in every package saved later.)",
  "every history of calls, every document of it, every package written from it; any names of media files in template packages excluded",
  "what a call leaves behind is invisible in the document and in String; it depends on every removal, copy and failed call in the history",
  ["structdoc.go:KeepElements","structpara.go:Paragraph.KeepElements","structrun.go:Run.KeepElements","structdoc.go:Body.DropDrawingOf","apidrawing.go:AddInlineDrawing","image.go:addImage","apilink.go:AddLink","link.go:addLinkRelation","structdoc.go:SplitByParagraph","structdoc.go:AppendFile","pack.go:pack"])
p("What GetInt makes of any text",
  "GetInt and GetInt64 of a text that is no decimal integer in the 64 bit range: if ParseFloat accepts it, the result is its value; otherwise, after white space (any that Unicode knows, no line ends), a decimal integer with or without a sign that is not followed by a digit is the result if it is in range, whatever follows it (12pt is 12); a text with no digit at that place gives the error expected integer; an empty text, a sign at the end, a line end or a number out of range gives another error. Beside an error stands 0, or the nearest bound if the text is a decimal integer out of range. The offset of an anchored drawing (wp:posOffset) is read more strictly: white space around the number is ignored, no text is 0, and everything else is an error that fails the whole load.",
  "every text; every spelling of an offset",
  "the three parsers in a row accept different languages; which of them decides depends on every character, on the range and on Unicode white space",
  ["helper.go:GetInt","helper.go:GetInt64","structdrawing.go:WPPositionH","structdrawing.go:WPPositionV"])
p("What Paragraph.String shows, drawings included",
  "After every history of calls and for every paragraph, Paragraph.String returns s if and only if s is the concatenation, in order, of: the text of texts, a tab for tabs, a line end for breaks, [text](target) for hyperlinks with the target of the relationship or else its id, and for a drawing ![inlnim name](md5) or ![anchim name](md5) if it has a picture, with the MD5 of the media file the relationship leads to, nothing if there is no blip, or the error text if there is no such relationship; else ![inlnsp name](kind) for a shape; else ![inlncv name]() for a canvas; else ![inln?](unknown). The name is that of the drawing, else that of the picture or shape, else the relationship id, the kind, or nil. (There is no such s exactly if String panics: C64.)",
  "every history of calls, every paragraph, every nesting of drawings",
  "drawings have many optional parts; a test shows the text for one combination of missing and present parts",
  ["structpara.go:Paragraph.String","structdrawing.go:WPInline.String","structdrawing.go:WPAnchor.String","apirel.go:ReferTarget","media.go:Media"])
p("Only XML 1.0 in UTF-8 is read, and the declaration changes nothing else",
  "If word/document.xml or word/_rels/document.xml.rels starts with an XML declaration in which the first version= is followed by a quoted value other than 1.0 (and not empty), or the first encoding= by a quoted value other than utf-8 in letters of either case (and not empty), Parse does not return a document. Otherwise Parse gives the same body, relationships, media files and list of other parts as for the same part without the declaration, and fails if and only if it fails for that. Declarations inside the part are treated in the same way.",
  "every declaration text, every rest of the part, every other content of the package",
  "declarations are free text: quotes, order and spelling vary between programs",
  ["unpack.go:parseDocument","unpack.go:parseDocRelation","docx.go:Parse"])
p("Nothing but well-formed XML is loaded",
  "A package with the relationship part s alone is opened by Parse if and only if s starts with a well-formed XML element (after comments, processing instructions, declarations and text) in which every child element Relationship has as its last Id the text rId and a decimal number below 2^64; what follows that element does not matter. If Parse opens a package with distinct names, then its relationship part starts with a well-formed element, and so does its main part unless one of its integer attributes has a value that GetInt answers with expected integer. Well-formed is meant byte by byte: names, quotes, references, characters, CDATA sections, comments and matching end tags.",
  "every content of the two parts, every package with distinct names",
  "a damaged file may be damaged anywhere; the decoders of the elements stop early in many places and must not take the rest for read",
  ["unpack.go:parseDocument","unpack.go:parseDocRelation","docx.go:Parse","structdoc.go:Document.UnmarshalXML"])
p("Every other well-formed document loads",
  "If the main part starts with a well-formed XML element, if in it every attribute read with GetInt has a value GetInt accepts (or, for twenty elements, is empty), the sizes and margins of sections are decimal numbers that fit in 64 bits, the position offsets are empty or such a number with white space around it, the twenty-nine elements read for their attributes alone have no content, and alternate content has no text or comment in front of the alternative that is taken, then it loads without an error; so does any well-formed document that differs from such a one only in prefixes, unknown elements, attributes that are not read, white space and comments. A package with distinct names, such a main part, a relationship part with numbered ids and readable media files is opened by Parse, whatever else is in it. For the sizes and margins of a section the condition is needed at each of them.",
  "every content of the main part, every package with distinct names",
  "a loader that must not fail must be tried on every combination of elements in every nesting; the error of any of about ninety decoders refuses the whole file",
  ["unpack.go:parseDocument","docx.go:Parse","structdoc.go:Document.UnmarshalXML","structsect.go:SectPr.UnmarshalXML","structrun.go:Run.parse","helper.go:GetInt"])
p("What the command line program prints and writes",
  "cmd/main run with -a on a package that Parse opens, if it does not panic, prints Plain text:, then String of every paragraph and table of the body in order (with -c: of the body after DropDrawingOf(NilPicture); -p, -u, -s and -d change nothing in it), then End of main. It writes, each in full and under different names, exactly: with -u the document (without paragraph properties if -p is given) as unmarshal_ and the name, in the same directory; with -s one file for each piece of the body, cut in front of the paragraphs whose text matches, as unmarshal_ and the name with _split and the number in front of the extension; with -d n (1 < n < 2^63) an A4 page followed by n copies of the body, as dup_ and the name. No run makes a file of the name it reads. It panics exactly if the package does not open, a text cannot be shown, the expression for -s does not compile, a file that is due cannot be made or written in full, or splitting or copying the document panics. The file for -u, read by the program, prints the same again (without -p). With -s it panics if the name has no extension and the body is not empty; with -d the name for a file in a directory is dir/dup_/name, so it panics unless there is a directory dup_.",
  "every package, every combination of the flags, every file name, every regular expression, every behaviour of os.Create and of writing",
  "the program has no tests; the flags combine, and the names depend on where slashes and dots stand in the path",
  ["cmd/main/main.go:main","structdoc.go:SplitDocxByPlainTextRegex","structdoc.go:SplitByParagraph","structdoc.go:AppendFile","structpara.go:Paragraph.String","structtable.go:Table.String","docx.go:WriteTo"])
p("AppendFile and SplitByParagraph copy content without hyperlinks and pictures byte for byte",
  "If the body of a document has no hyperlinks and no drawings other than shapes and canvases, AppendFile of it to any document (also to itself) succeeds; the main part saved afterwards has between <w:body> and </w:body> exactly the text of the body saved before followed by the text of the body of the appended document, what stands before the body and all other parts of the package are the same as before, and the document can be saved if and only if it could be saved before. SplitByParagraph of it, with a rule that answers, succeeds, and the texts of the bodies of the parts, one after the other, are the text of its body. Every document made by calls that bring in no hyperlinks and no drawings other than shapes and canvases is of this kind, whatever was parsed, loaded, styled, copied or split in between.",
  "every history of calls, every pair of documents, every rule that answers",
  "the copy is made field by field in a hundred copy functions; a test notices a field that is forgotten only if the sample has it",
  ["structdoc.go:AppendFile","structdoc.go:SplitByParagraph","structdoc.go:Run.copymedia","structdoc.go:Paragraph.copymedia","structdrawing.go:WPInline.copymedia","structdrawing.go:WPAnchor.copymedia","pack.go:pack"])
p("Laws of KeepElements and the Drop functions",
  "For every program state: KeepElements with one list of names and then with another leaves the same state as one call with the names in both; with the names of all three kinds of body items it changes nothing. DropDrawingOf with a name twice is the same as once; with two names the order does not matter; Shape then Canvas is ShapeAndCanvas, and ShapeAndCanvas then Group is ShapeAndCanvasAndGroup; DropDrawingOf and KeepElements may be exchanged. The same holds for the methods of a paragraph, in the body and in table cells. (The same state means the same for every document, not only the one called on.)",
  "every state, every document, every paragraph, every name and list of names, known or unknown",
  "equations between sequences of calls; a test compares two sequences on one document",
  ["structdoc.go:KeepElements","structdoc.go:Body.DropDrawingOf","structpara.go:Paragraph.KeepElements","structpara.go:DropShape","structpara.go:DropCanvas","structpara.go:DropGroup","structpara.go:DropShapeAndCanvas","structpara.go:DropShapeAndCanvasAndGroup","structpara.go:DropNilPicture"])
p("The demo document of the command line program",
  "cmd/main without -a, if it comes to its end, whatever its flags, prints Preparing new document to write at and the file name, Document writen and Now trying to read it, Plain text:, the texts of eleven paragraphs and two tables (with the hashes of the three pictures, and without the two shapes if -c is given) and End of main. Without -u, -s and -d it comes to its end exactly if the three picture files can be read, hold pictures with a width other than 0, and the file can be made and written; it makes that file alone, and the document in it has the default template, the data of the pictures, the paragraphs, alignments, text attributes, cells, shades, and the drawings in the sizes that the program asks for. If a picture cannot be used, the program panics before it makes the file.",
  "every content of the picture files, every template asset, every combination of the flags, every file name, every order of entries that WriteTo may choose, every behaviour of os.Create and of writing",
  "the program has no tests; it writes and reads in one run, and what it prints goes through the writer, the zip order, the loader and the text functions",
  ["cmd/main/main.go:main","apidrawing.go:AddInlineDrawing","apidrawing.go:AddAnchorDrawing","apidrawing.go:WPInline.Size","apidrawing.go:WPAnchor.Size","apitable.go:AddTable","apitable.go:AddTableTwips","apishape.go:AddInlineShape","apishape.go:AddAnchorShape","docx.go:WriteTo","docx.go:Parse"])
p("Copies of content with hyperlinks and pictures differ from the source in ids and picture names only",
  "If every hyperlink of the body of a document has a relationship, and every drawing in it is a shape or canvas or a picture (with names, without transparency) whose id leads to a stored media file, AppendFile of it to another document succeeds and changes no other document; the main part saved afterwards has between <w:body> and </w:body> the text of the body saved before followed by a text that is the text of the body of the appended document except for the values of r:id of hyperlinks and r:embed of pictures and for the id and name of pictures. SplitByParagraph, with a rule that answers, succeeds, and the texts of the bodies of the parts, one after the other, are the text of its body with the same exceptions. That the content belongs to documents other than the target is asked for; it holds for any two documents if LoadBodyItems is not used. The transparency of a picture (a:alphaModFix) is lost by AppendFile.",
  "every history of calls, every pair of documents, every rule that answers, every text of links and names",
  "the copy of a picture is put together from parts of the old one in two places; a test notices an attribute that is forgotten only if the sample has it",
  ["structdoc.go:AppendFile","structdoc.go:SplitByParagraph","structdoc.go:Run.copymedia","structdoc.go:Paragraph.copymedia","structdoc.go:Table.copymedia","structdrawing.go:Drawing.copymedia","structdrawing.go:WPInline.copymedia","structdrawing.go:WPAnchor.copymedia","pack.go:pack"])
p("The namespace of the saved relationship part",
  "word/_rels/document.xml.rels is saved as <Relationships xmlns=\"http://schemas.openxmlformats.org/package/2006/relationships\"> for every document made with the API, and for every document opened from a package whose relationship part declares that namespace with the attribute xmlns, whatever was called in between. Any other value of xmlns is kept in the same way. If the relationship part declares its namespace with a prefix only (<p:Relationships xmlns:p=...>, which is the same XML), Parse accepts it, but every save writes the namespace of the officeDocument relationships in its place, which is not the one of relationship parts; if the package has no relationship part, every save writes one with an empty namespace.",
  "every package, every history of calls, every order of the entries that WriteTo may choose",
  "the attribute is set by one function, overwritten by the decoder if it is there and written much later; the files of the tests all declare it in the same way",
  ["unpack.go:parseDocRelation","structrel.go:Relationships","docx.go:New","docx.go:LoadBodyItems","pack.go:pack"])
p("Calls on one document do not depend on calls on others",
  "Take any history of calls without LoadBodyItems that formats before it copies, and a set of documents such that whatever is appended to one of them, and every document that is split, is in the set. If the calls that work on other documents are left out (documents are still made as before), the history still runs, and every document of the set is the same in every respect. Two calls in a row of which neither works on, or copies from, a document that the other works on can be exchanged: afterwards all documents are the same, and one order panics if and only if the other does. With LoadBodyItems the first does not hold: a hyperlink added to a paragraph loaded from another document is registered in that one. (Formatting after copying is C44.)",
  "every history of calls on any number of documents, every set of documents, parsed or made by the API",
  "the documents of a program share counters, maps and file pointers through the library; a test tries a few interleavings",
  ["docx.go:Docx","docx.go:LoadBodyItems","apilink.go:AddLink","apidrawing.go:AddInlineDrawing","apishape.go:AddInlineShape","structdoc.go:AppendFile","structdoc.go:SplitByParagraph","id.go:IncreaseID","link.go:addLinkRelation"])
p("Of formatting calls the last one counts, and their order does not matter otherwise",
  "Take any history of calls that formats before it copies. If two calls in a row set the same thing (one of color, size, complex script size, shade, spacing, bold, italic, underline, highlight, strike and font of a run or hyperlink; one of alignment, style, numbering, numbering font and numbering size of a paragraph; the alignment of a table or of a row; the shade of a cell), the first can be left out: all documents are the same in every respect, and a panic happens just as well. If two such calls in a row set different things, in the same place or in different places or documents, they can be exchanged, with the same documents afterwards, and one order panics if and only if the other does. (Formatting after copying is C44.)",
  "every history of calls, every paragraph in the body or in a cell, every child of it, every table, row and cell, every pair of formatting calls with any values",
  "some of the calls make the properties when they are missing and some overwrite a structure that another one shares; a test tries a few of the pairs",
  ["apirun.go:Color","apirun.go:Size","apirun.go:SizeCs","apirun.go:Shade","apirun.go:Spacing","apirun.go:Bold","apirun.go:Italic","apirun.go:Underline","apirun.go:Highlight","apirun.go:Strike","apirun.go:Font","apipara.go:Justification","apipara.go:Style","apipara.go:NumPr","apipara.go:NumFont","apipara.go:NumSize","apitable.go:Justification","apitable.go:Shade"])
p("Paragraphs can be filled in turns",
  "Take any history of calls that formats before it copies, and in it a stretch of calls on paragraphs (in the body or in cells, of any documents) that add text, tabs and page breaks, set formats of paragraphs and runs, set sizes of drawings, keep elements or drop drawings. If these calls are made in another order, such that every paragraph still gets its own calls in the same order, all documents are the same in every respect afterwards, and one order panics if and only if the other does. With AddLink among the calls it does not hold: relationship ids are given out in the order of the calls.",
  "every history of calls, every stretch in it, every interleaving of the calls on any number of paragraphs",
  "the number of interleavings is exponential; a test tries one or two",
  ["apitext.go:AddText","apitext.go:AddTab","apipara.go:AddPageBreaks","apipara.go:Justification","apipara.go:Style","apipara.go:NumPr","apipara.go:NumFont","apipara.go:NumSize","apirun.go:Color","apirun.go:AddTab","apilink.go:AddLink","structpara.go:Paragraph.KeepElements"])
p("Content can be added first and filled later",
  "Take any history of calls that formats before it copies and does not panic, and in it a stretch of calls that add paragraphs, tables and page sizes to the bodies of documents (AddParagraph, AddTable, AddTableTwips, WithA3Page, WithA4Page) or fill and format what is there (any call on a paragraph or its runs, AddLink and the calls that add drawings and shapes among them, and the formatting calls on tables, rows and cells). If in this stretch everything is added first, in the same order, and then filled and formatted, in the same order, nothing panics and all documents are the same in every respect.",
  "every history of calls, every stretch in it, any number of documents",
  "calls that add to the end of the body could move or replace what is there; a test builds a document in one order",
  ["apipara.go:AddParagraph","apitable.go:AddTable","apitable.go:AddTableTwips","theme.go:WithA3Page","theme.go:WithA4Page","apitext.go:AddText","apilink.go:AddLink","apidrawing.go:AddInlineDrawing","apishape.go:AddInlineShape","apirun.go:Bold","apitable.go:Shade"])
p("The template can be chosen at any time before a document is split",
  "Take any history of calls that formats before it copies. UseTemplate (and WithDefaultTheme) on a document can be called before or after any stretch of calls that change the content of documents (all calls, AppendFile among them, but those that make documents): all documents are the same in every respect, and one order panics if and only if the other does. A template that is replaced by another after such a stretch leaves no trace. Over SplitByParagraph the call cannot be moved: the parts get the template the document has at that time.",
  "every history of calls, every stretch in it, every template, any number of documents, parsed or made by the API",
  "the template is set by one call and used by two others much later; the tests choose it first",
  ["theme.go:UseTemplate","theme.go:WithDefaultTheme","structdoc.go:SplitByParagraph","pack.go:pack"])
with open("/verif/properties.jsonl","w") as f:
    for x in P: f.write(json.dumps(x,ensure_ascii=False)+"\n")
print(len(P))
