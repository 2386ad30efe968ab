(** The template that comes with the package (fs.go:23-43, xml/default). *)
From Coq Require Import String List Bool.
From Verif Require Import GoStr Num Lib Types Docx Api.
Import ListNotations.
Local Open Scope list_scope.
Local Open Scope string_scope.

(** xml/default/_rels/.rels *)
Definition RELS_FILE : string := "<?xml version=""1.0"" encoding=""UTF-8"" standalone=""yes""?>
<Relationships xmlns=""http://schemas.openxmlformats.org/package/2006/relationships"">
    <Relationship Id=""rId3"" Type=""http://schemas.openxmlformats.org/officeDocument/2006/relationships/extended-properties"" Target=""docProps/app.xml""/>
    <Relationship Id=""rId2"" Type=""http://schemas.openxmlformats.org/package/2006/relationships/metadata/core-properties"" Target=""docProps/core.xml""/>
    <Relationship Id=""rId1"" Type=""http://schemas.openxmlformats.org/officeDocument/2006/relationships/officeDocument"" Target=""word/document.xml""/>
</Relationships>".
(** xml/default/[Content_Types].xml *)
Definition TYPES_FILE : string := "<?xml version=""1.0"" encoding=""UTF-8"" standalone=""yes""?>
<Types xmlns=""http://schemas.openxmlformats.org/package/2006/content-types"">
    <Default Extension=""jpeg"" ContentType=""image/jpeg""/>
    <Default Extension=""png"" ContentType=""image/png""/>
    <Default Extension=""webp"" ContentType=""image/webp""/>
    <Default Extension=""rels"" ContentType=""application/vnd.openxmlformats-package.relationships+xml""/>
    <Default Extension=""xml"" ContentType=""application/xml""/>
    <Override PartName=""/word/document.xml"" ContentType=""application/vnd.openxmlformats-officedocument.wordprocessingml.document.main+xml""/>
    <Override PartName=""/word/styles.xml"" ContentType=""application/vnd.openxmlformats-officedocument.wordprocessingml.styles+xml""/>
    <Override PartName=""/word/fontTable.xml"" ContentType=""application/vnd.openxmlformats-officedocument.wordprocessingml.fontTable+xml""/>
    <Override PartName=""/word/theme/theme1.xml"" ContentType=""application/vnd.openxmlformats-officedocument.theme+xml""/>
    <Override PartName=""/docProps/core.xml"" ContentType=""application/vnd.openxmlformats-package.core-properties+xml""/>
    <Override PartName=""/docProps/app.xml"" ContentType=""application/vnd.openxmlformats-officedocument.extended-properties+xml""/>
</Types>".
(** The other files; their contents do not matter here. *)
Record assets := mk_assets { a_app : string; a_core : string; a_theme : string; a_fonts : string; a_styles : string }.
(** fs.go:33-42 DefaultTemplateFilesList *)
Definition default_files : list string :=
  ["_rels/.rels"; "docProps/app.xml"; "docProps/core.xml"; "word/theme/theme1.xml"; "word/fontTable.xml"; "word/styles.xml"; "[Content_Types].xml"].
(** fs.go:27-31 TemplateXMLFS. Only the names above are opened; of the
    directories, which open but cannot be read, nothing is said. *)
Definition template_fs (x : assets) (name : string) : fopen :=
  match mget name
    [("xml/default/_rels/.rels", RELS_FILE); ("xml/default/docProps/app.xml", a_app x); ("xml/default/docProps/core.xml", a_core x);
     ("xml/default/word/theme/theme1.xml", a_theme x); ("xml/default/word/fontTable.xml", a_fonts x); ("xml/default/word/styles.xml", a_styles x);
     ("xml/default/[Content_Types].xml", TYPES_FILE)] with
  | Some s => FData s
  | None => FNone
  end.
(** theme.go:36-38 WithDefaultTheme *)
Definition default_theme (x : assets) : tmpl := mk_tmpl "default" (template_fs x) default_files.
Definition with_default_theme (x : assets) (d : docx) : docx := use_template (default_theme x) d.
