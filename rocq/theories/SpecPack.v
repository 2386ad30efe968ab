(** What a package contains, independent of how it is read and written. *)
From Coq Require Import String Ascii List Bool Arith NArith ZArith.
From Verif Require Import GoStr Num Lib Types XmlTok Marshal Docx Lex Rels SpecNum SpecLex SpecApi.
Import ListNotations.
Local Open Scope list_scope.
Local Open Scope string_scope.

(** the number in a relationship id *)
Definition id_num (id : string) (n : N) : Prop :=
  exists s, id = "rId" ++ s /\ s <> "" /\ decimal s n /\ (n < 18446744073709551616)%N.
Definition has_num (r : rel) : Prop := exists n, id_num (rel_id r) n.
(** [m] is the largest number among the ids, or 0 when there are none *)
Definition largest_id (l : list rel) (m : N) : Prop :=
  (forall r n, In r l -> id_num (rel_id r) n -> (n <= m)%N) /\ (m = 0%N \/ exists r, In r l /\ id_num (rel_id r) m).
(** the strings of a relationship list consist of XML characters *)
Definition rel_strings (r : rel) : list string := [rel_id r; rel_type r; rel_target r; rel_mode r].
Definition xml_rels (g : reg) : Prop := xml_string (relns g) /\ forall r, In r (rels g) -> Forall xml_string (rel_strings r).

(** the files WriteTo should put into the package: the two parts made from the
    document, the media (the last one of each name), and the other files of the
    template *)
Definition RELS_NAME := "word/_rels/document.xml.rels".
Definition DOC_NAME := "word/document.xml".
Definition tmpl_path (t : tmpl) (n : string) : string := if String.eqb (t_name t) "" then n else "xml/" ++ t_name t ++ "/" ++ n.
Inductive part_of (d : docx) : string -> string -> Prop :=
| part_rels : part_of d RELS_NAME (write_xml (m_rels (d_reg d)))
| part_doc : part_of d DOC_NAME (write_xml (m_document_of (if d_ns d then doc_attrs else no_attrs) (d_items d)))
| part_media n m : last_media (media (d_reg d)) n m -> part_of d ("word/media/" ++ n) (snd m)
| part_tmpl n c : In n (t_list (d_tmpl d)) -> t_fs (d_tmpl d) (tmpl_path (d_tmpl d) n) = FData c ->
    n <> RELS_NAME -> n <> DOC_NAME -> (forall x m, n = "word/media/" ++ x -> ~ last_media (media (d_reg d)) x m) -> part_of d n c.

(** an ordinary path: elements separated by single slashes *)
Definition plain_path_elem (x : string) : Prop :=
  x <> "" /\ x <> "." /\ x <> ".." /\ count "/" x = 0 /\ count "\" x = 0.
Definition plain_path (n : string) : Prop :=
  exists l, l <> [] /\ Forall plain_path_elem l /\ n = join "/" l /\ xml_string n.
(** an archive of ordinary files with distinct names *)
Definition ordinary (a : list (string * option string)) : Prop :=
  NoDup (map fst a) /\ forall n c, In (n, c) a -> plain_path n /\ (N.of_nat (String.length n) <= 65535)%N /\ c <> None.

(** the names under which the files of a document are written are ordinary paths *)
Definition plain_names (d : docx) : Prop :=
  (forall n, In n (t_list (d_tmpl d)) -> plain_path n) /\ (forall m, In m (media (d_reg d)) -> plain_path ("word/media/" ++ fst m)).
(** the template has no file in the media folder *)
Definition no_media_tmpl (d : docx) : Prop := forall n, In n (t_list (d_tmpl d)) -> has_prefix "word/media/" n = false.
(** the texts and attribute values in the body and the relationships consist of XML characters *)
Definition xml_docx (d : docx) : Prop := Forall xml_string (values (m_document (d_items d))) /\ xml_rels (d_reg d).

(** the name given to the picture with number [n] *)
Definition picture_name (n : N) (fmt : string) : string := "image" ++ utoa n ++ "." ++ fmt.
(** no media is named like a picture with a number above 100000 *)
Definition low_images (l : list mediaT) : Prop := forall m n fmt, In m l -> fst m = picture_name n fmt -> (n <= 100000)%N.
