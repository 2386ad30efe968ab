(** Reading and writing packages (unpack.go, pack.go, docx.go:96-103 and
    151-157). A zip archive is the list of its entries; that archive/zip stores
    and restores names and contents is assumed. *)
From Coq Require Import String Ascii List Bool Arith NArith ZArith Permutation.
From Verif Require Import GoStr Num Lib Types XmlTok Marshal Unmarshal Docx Lex Rels.
Import ListNotations.
Local Open Scope list_scope.
Local Open Scope string_scope.

(** An entry: name and contents; [None] for an entry that cannot be opened
    (for instance an unsupported compression method). *)
Definition entry := (string * option string)%type.
Definition archive := list entry.

Fixpoint ends_slash (s : string) : bool :=
  match s with
  | EmptyString => false
  | String a s' => match s' with EmptyString => Ascii.eqb a "/" | _ => ends_slash s' end
  end.
(** zip.File.Open and reading everything: a directory entry reads as empty, or
    fails when it has contents *)
Definition read_entry (e : entry) : option string :=
  match snd e with
  | Some s => if ends_slash (fst e) && negb (String.eqb s "") then None else Some s
  | None => None
  end.

(** ** archive/zip Reader.Open (Go 1.20) *)
Fixpoint valid_utf8_go (skip : nat) (s : string) : bool :=
  match s with
  | EmptyString => true
  | String _ s' =>
      match skip with
      | S k => valid_utf8_go k s'
      | O => match rune_at s with Some (_, n) => valid_utf8_go (pred n) s' | None => false end
      end
  end.
(** io/fs ValidPath *)
Definition plain_elem (x : string) : bool :=
  negb (String.eqb x "" || String.eqb x "." || String.eqb x "..").
Definition valid_path (s : string) : bool :=
  valid_utf8_go 0 s && (String.eqb s "." || forallb plain_elem (split "/" s)).
(** path.Clean on the elements; [out] is reversed *)
Fixpoint clean_go (rooted : bool) (out l : list string) : list string :=
  match l with
  | [] => rev out
  | x :: l' =>
      if String.eqb x "" || String.eqb x "." then clean_go rooted out l'
      else if String.eqb x ".." then
        match out with
        | y :: out' => if String.eqb y ".." then clean_go rooted (".." :: out) l' else clean_go rooted out' l'
        | [] => clean_go rooted (if rooted then [] else [".."]) l'
        end
      else clean_go rooted (x :: out) l'
  end.
(** cut leading ../ *)
Fixpoint cut_up (l : list string) : list string :=
  match l with
  | x :: l' => match l' with
               | [] => l
               | _ => if String.eqb x ".." then cut_up l' else l
               end
  | [] => []
  end.
Fixpoint unbackslash (s : string) : string :=
  match s with
  | EmptyString => ""
  | String a s' => String (if Ascii.eqb a "\" then "/" else a)%char (unbackslash s')
  end.
(** toValidName *)
Definition to_valid (name : string) : string :=
  let s := unbackslash name in
  let rooted := has_prefix "/" s in
  match clean_go rooted [] (split "/" s) with
  | [] => if rooted then "" else "."
  | l => join "/" (cut_up l)
  end.
(** Reader.Open: the first entry of that name; the parents of entries are
    directories *)
Definition zip_open (a : archive) (name : string) : fopen :=
  if negb (valid_path name) then FNone
  else if String.eqb name "." then FNoRead
  else match find (fun e => String.eqb (to_valid (fst e)) name) a with
       | Some e => if ends_slash (fst e) then FNoRead
                   else match snd e with Some s => FData s | None => FNone end
       | None => if existsb (fun e => has_prefix (name ++ "/") (to_valid (fst e))) a then FNoRead else FNone
       end.

(** ** reading *)
Definition RELS_PART := "word/_rels/document.xml.rels".
Definition DOC_PART := "word/document.xml".
Definition ERR_OPEN := "open".

Section WithLib.
Context `{GoLib}.

(** structdoc.go:177-202: a second document part is decoded into the same
    structure *)
Definition u_document_from (f : option nat) (s : list item) := loopd
  [("body", childin (u_body f) (fun s => s) (fun x _ => x))] s.
(** unpack.go:77-102 parseDocument *)
Definition parse_doc_part (f : nat) (s : string) (d : docx) : res docx :=
  match root (u_document_from (Some f) (d_items d)) (d_items d) (check [] (lex s)) with
  | (l, SOk) => Ok (mk_docx l (set_docid 100000 (d_reg d)) (d_tmpl d) true)
  | _ => Err ERR_XML
  end.
(** unpack.go:131-144 parseMedia *)
Definition parse_media (name s : string) (d : docx) : docx :=
  set_d_reg (add_media (match drop (String.length MEDIA_FOLDER) name with Some n => n | None => "" end, s) (d_reg d)) d.

(** unpack.go:46-70, one file *)
Definition unpack_entry (f : nat) (d : docx) (e : entry) : res docx :=
  let name := fst e in
  if String.eqb name RELS_PART then
    match read_entry e with
    | Some s => bind (parse_doc_relation s (d_reg d)) (fun g => Ok (set_d_reg g d))
    | None => Err ERR_OPEN
    end
  else if String.eqb name DOC_PART then
    match read_entry e with
    | Some s => parse_doc_part f s d
    | None => Err ERR_OPEN
    end
  else if has_prefix MEDIA_FOLDER name then
    match read_entry e with
    | Some s => Ok (parse_media name s d)
    | None => Err ERR_OPEN
    end
  else Ok (set_d_tmpl (mk_tmpl "" (t_fs (d_tmpl d)) (t_list (d_tmpl d) ++ [name])%list) d).
Fixpoint unpack_entries (f : nat) (d : docx) (l : archive) : res docx :=
  match l with
  | [] => Ok d
  | e :: l' => bind (unpack_entry f d e) (fun d' => unpack_entries f d' l')
  end.
(** unpack.go:40-74 unpack; [f] is the position of the new document. Together
    with an error the code returns the document as far as it has been filled;
    here it is dropped. *)
Definition unpack (f : nat) (a : archive) : res docx :=
  bind (unpack_entries f (mk_docx [] (mk_reg [] "" [] [] 0 0 0 []) (mk_tmpl "" (zip_open a) []) false) a)
       (fun d => Ok (set_d_reg (set_imgid 100000 (d_reg d)) d)).
(** docx.go:96-103 Parse *)
Definition parse (a : archive) (w : world) : res world :=
  bind (unpack (length w) a) (fun d => Ok (w ++ [d])%list).

End WithLib.

(** ** writing *)
(** Go maps with string keys, each key once; [None] is a reader that fails *)
Definition files := list (string * option string).
Fixpoint put (k : string) (v : option string) (m : files) : files :=
  match m with
  | [] => [(k, v)]
  | (k', v') :: m' => if String.eqb k k' then (k, v) :: m' else (k', v') :: put k v m'
  end.
(** pack.go:37-51: the template files; opening may fail *)
Fixpoint tmpl_files (t : tmpl) (l : list string) (m : files) : res files :=
  match l with
  | [] => Ok m
  | name :: l' =>
      match t_fs t (if String.eqb (t_name t) "" then name else "xml/" ++ t_name t ++ "/" ++ name) with
      | FNone => Err ERR_OPEN
      | FData s => tmpl_files t l' (put name (Some s) m)
      | FNoRead => tmpl_files t l' (put name None m)
      end
  end.
(** pack.go:56-58 *)
Definition put_media (m : files) (x : mediaT) : files := put (MEDIA_FOLDER ++ fst x) (Some (snd x)) m.
(** structdoc.go:157-174 Document as it is written *)
Definition m_docx (d : docx) : tree := m_document_of (if d_ns d then doc_attrs else no_attrs) (d_items d).
(** pack.go:34-58: the map of files *)
Definition pack_files (d : docx) : res files :=
  bind (tmpl_files (d_tmpl d) (t_list (d_tmpl d)) []) (fun m =>
  Ok (fold_left put_media (media (d_reg d))
       (put DOC_PART (Some (write_xml (m_docx d)))
         (put RELS_PART (Some (write_xml (m_rels (d_reg d)))) m)))).

(** pack.go:60-70, one file: zip.Writer.Create rejects names longer than 65535
    bytes; a name ending in / creates a directory, which takes no contents *)
Definition ERR_WRITE := "write".
Definition write_entry (x : string * option string) : res entry :=
  if (65535 <? N.of_nat (String.length (fst x)))%N then Err ERR_WRITE
  else match snd x with
       | None => Err ERR_WRITE
       | Some s => if ends_slash (fst x) && negb (String.eqb s "") then Err ERR_WRITE else Ok (fst x, Some s)
       end.
Fixpoint write_entries (l : files) : res archive :=
  match l with
  | [] => Ok []
  | x :: l' => bind (write_entry x) (fun e => bind (write_entries l') (fun a => Ok (e :: a)))
  end.
(** docx.go:151-157 WriteTo with pack.go:34-73, to a destination that does not
    fail (see Bufio.v for one that does): the outcomes, one for each order in
    which Go iterates over the map *)
Definition writes (d : docx) (r : res archive) : Prop :=
  match pack_files d with
  | Ok m => exists o, Permutation m o /\ r = write_entries o
  | Err e => r = Err e
  | Panic => r = Panic
  end.
