(** Documents: relationships, media and counters (docx.go, empty.go, link.go,
    image.go, media.go, id.go, apirel.go). *)
From Coq Require Import String Ascii List Bool Arith NArith ZArith.
From Verif Require Import GoStr Num Lib Types.
Import ListNotations.
Local Open Scope list_scope.
Local Open Scope string_scope.

(** The outcome of a call: a value, an error value, or a run time panic. The
    state at a panic is not modelled. *)
Inductive res (A : Type) :=
| Ok (x : A)
| Err (e : string)
| Panic.
Arguments Ok {A}. Arguments Err {A}. Arguments Panic {A}.

Definition bind {A B} (x : res A) (k : A -> res B) : res B :=
  match x with Ok v => k v | Err e => Err e | Panic => Panic end.

(** structrel.go:39-44 Relationship *)
Record rel := mk_rel { rel_id : string; rel_type : string; rel_target : string; rel_mode : string }.

(** structrel.go:24-30, media.go:24 *)
Definition XMLNS_REL := "http://schemas.openxmlformats.org/package/2006/relationships".
Definition REL_HYPERLINK := "http://schemas.openxmlformats.org/officeDocument/2006/relationships/hyperlink".
Definition REL_IMAGE := "http://schemas.openxmlformats.org/officeDocument/2006/relationships/image".
Definition REL_TARGETMODE := "External".
Definition MEDIA_FOLDER := "word/media/".

(** structdoc.go:33-45, structdrawing.go:36-42, apilink.go:25 *)
Definition XMLNS_R := "http://schemas.openxmlformats.org/officeDocument/2006/relationships".
Definition XMLNS_WPS := "http://schemas.microsoft.com/office/word/2010/wordprocessingShape".
Definition XMLNS_PICTURE := "http://schemas.openxmlformats.org/drawingml/2006/picture".
Definition XMLNS_DRAWINGML_MAIN := "http://schemas.openxmlformats.org/drawingml/2006/main".
Definition XMLNS_DRAWINGML_PICTURE := "http://schemas.openxmlformats.org/drawingml/2006/picture".
Definition HYPERLINK_STYLE := "a3".

(** media.go:27-30 Media: name and data *)
Definition mediaT := (string * string)%type.

(** Go maps with string keys: association lists, newest binding first. *)
Fixpoint mget {V} (k : string) (m : list (string * V)) : option V :=
  match m with
  | [] => None
  | (k', v) :: m' => if String.eqb k k' then Some v else mget k m'
  end.
Definition mset {V} (k : string) (v : V) (m : list (string * V)) : list (string * V) := (k, v) :: m.

(** docx.go:38-47: the part of Docx that is not the body and not the template.
    uintptr counters are numbers below 2^64. *)
Record reg := mk_reg {
  rels : list rel;              (** docRelation.Relationship *)
  relns : string;               (** docRelation.Xmlns *)
  media : list mediaT;
  midx : list (string * nat);   (** mediaNameIdx *)
  rid : N;
  imgid : N;
  docid : N;
  slow : list (string * N)      (** slowIDs *)
}.

(** uintptr arithmetic: atomic.AddUintptr(&x, 1) in link.go:41, image.go:30 *)
Definition uadd1 (n : N) : N := ((n + 1) mod 18446744073709551616)%N.
(** int(n) for a uintptr n: link.go:41, apidrawing.go:38 *)
Definition int_of_u (n : N) : i64 := i64_of (Z.of_N n).
(** strconv.Itoa(int(n)): link.go:41, image.go:30 *)
Definition itoa_u (n : N) : string := itoa (iv (int_of_u n)).

(** the three relationships of a new document: docx.go:120-136, empty.go:49-65,
    structdoc.go:246-262 *)
Definition base_rels : list rel :=
  [mk_rel "rId1" "http://schemas.openxmlformats.org/officeDocument/2006/relationships/styles" "styles.xml" "";
   mk_rel "rId2" "http://schemas.openxmlformats.org/officeDocument/2006/relationships/theme" "theme/theme1.xml" "";
   mk_rel "rId3" "http://schemas.openxmlformats.org/officeDocument/2006/relationships/fontTable" "fontTable.xml" ""].

(** empty.go:27-74 newEmptyFile; structdoc.go:222-264 (a new part of a split
    document) has the same values here *)
Definition empty_reg : reg := mk_reg base_rels XMLNS_REL [] [] 3 0 0 [].

(** "图片" in UTF-8: apidrawing.go:39, docx.go:147 *)
Definition TUPIAN : string :=
  String "229" (String "155" (String "190" (String "231" (String "137" (String "135" ""))))).

(** docx.go:143-146: the index entries of a list of media, from position [i] on *)
Fixpoint index_media (i : nat) (l : list mediaT) (m : list (string * nat)) : list (string * nat) :=
  match l with
  | [] => m
  | x :: l' => index_media (S i) l' (mset (fst x) i m)
  end.

(** docx.go:104-149 LoadBodyItems *)
Definition load_reg (ms : list mediaT) : reg :=
  mk_reg base_rels XMLNS_REL ms (index_media 0 ms []) 3 0 0 [(TUPIAN, N.of_nat (length ms + 1))].

Definition set_rels v g := mk_reg v (relns g) (media g) (midx g) (rid g) (imgid g) (docid g) (slow g).
Definition set_rid v g := mk_reg (rels g) (relns g) (media g) (midx g) v (imgid g) (docid g) (slow g).
Definition set_imgid v g := mk_reg (rels g) (relns g) (media g) (midx g) (rid g) v (docid g) (slow g).
Definition set_docid v g := mk_reg (rels g) (relns g) (media g) (midx g) (rid g) (imgid g) v (slow g).
Definition set_slow v g := mk_reg (rels g) (relns g) (media g) (midx g) (rid g) (imgid g) (docid g) v.
Definition set_media m i g := mk_reg (rels g) (relns g) m i (rid g) (imgid g) (docid g) (slow g).

(** atomic.AddUintptr(&f.docID, 1): apidrawing.go:38, apishape.go:30 *)
Definition inc_docid (g : reg) : i64 * reg :=
  let n := uadd1 (docid g) in (int_of_u n, set_docid n g).

(** id.go:24-31 IncreaseID, run without interference (see Conc.v) *)
Definition increase_id (name : string) (g : reg) : N * reg :=
  let n := uadd1 (match mget name (slow g) with Some v => v | None => 0%N end) in
  (n, set_slow (mset name n (slow g)) g).

(** link.go:38-47, 55-62: the id and the relationship list with the new
    relationship appended *)
Definition add_rel (ty target mode : string) (g : reg) : string * reg :=
  let n := uadd1 (rid g) in
  let id := "rId" ++ itoa_u n in
  (id, set_rid n (set_rels (rels g ++ [mk_rel id ty target mode])%list g)).

(** link.go:39-50 addLinkRelation *)
Definition add_link_relation (link : string) (g : reg) : string * reg :=
  add_rel REL_HYPERLINK link REL_TARGETMODE g.

(** link.go:55-65 addImageRelation *)
Definition add_image_relation (name : string) (g : reg) : string * reg :=
  add_rel REL_IMAGE ("media/" ++ name) "" g.

(** media.go:47-50 addMedia *)
Definition add_media (m : mediaT) (g : reg) : reg :=
  set_media (media g ++ [m])%list (mset (fst m) (length (media g)) (midx g)) g.

(** image.go:29-33 addImage *)
Definition add_image (format data : string) (g : reg) : string * reg :=
  let n := uadd1 (imgid g) in
  let name := "image" ++ itoa_u n ++ "." ++ format in
  add_image_relation name (add_media (name, data) (set_imgid n g)).

(** link.go:68-75 ReferTarget; the error is ErrRefIDNotFound *)
Definition ERR_REFID := "ref id not found".
Fixpoint refer_target_in (l : list rel) (id : string) : res string :=
  match l with
  | [] => Err ERR_REFID
  | a :: l' => if String.eqb (rel_id a) id then Ok (rel_target a) else refer_target_in l' id
  end.
Definition refer_target (g : reg) (id : string) : res string := refer_target_in (rels g) id.

(** link.go:78-85 ReferID *)
Fixpoint refer_id_in (l : list rel) (target : string) : res string :=
  match l with
  | [] => Err ERR_REFID
  | a :: l' => if String.eqb (rel_target a) target then Ok (rel_id a) else refer_id_in l' target
  end.
Definition refer_id (g : reg) (target : string) : res string := refer_id_in (rels g) target.

(** media.go:38-44 Media: nil, a media, or a panic when the index is out of range *)
Definition media_of (g : reg) (name : string) : res (option mediaT) :=
  match mget name (midx g) with
  | None => Ok None
  | Some i => match nth_error (media g) i with Some m => Ok (Some m) | None => Panic end
  end.

(** apirel.go:24-32 RangeRelationships. The callback has a state [S] of its own
    and may overwrite the copy it gets; it returns an error or none. *)
Fixpoint range_rels {S} (iter : rel -> S -> rel * S * option string) (l : list rel) (s : S) : S * option string :=
  match l with
  | [] => (s, None)
  | r :: l' =>
      match iter r s with
      | (_, s', Some e) => (s', Some e)
      | (_, s', None) => range_rels iter l' s'
      end
  end.
Definition range_relationships {S} (iter : rel -> S -> rel * S * option string) (g : reg) (s : S) : S * option string * reg :=
  (range_rels iter (rels g) s, g).

(** An fs.FS as far as pack uses it: opening a name gives an error, a file with
    its contents, or something that opens but fails on reading (a directory). *)
Inductive fopen := FNone | FData (s : string) | FNoRead.
Record tmpl := mk_tmpl { t_name : string; t_fs : string -> fopen; t_list : list string }.
Definition no_tmpl : tmpl := mk_tmpl "" (fun _ => FNone) [].

(** docx.go:36-56 Docx; [d_ns] tells whether the namespace fields of Document
    (structdoc.go:159-164) have been set. They are set all at once, to the same
    values everywhere (docx.go:110-115, empty.go:33-38, structdoc.go:231-239,
    unpack.go:84-92), and stay empty only when a package without document part
    is loaded. *)
Record docx := mk_docx { d_items : list item; d_reg : reg; d_tmpl : tmpl; d_ns : bool }.
Definition set_d_items v d := mk_docx v (d_reg d) (d_tmpl d) (d_ns d).
Definition set_d_reg v d := mk_docx (d_items d) v (d_tmpl d) (d_ns d).
Definition set_d_tmpl v d := mk_docx (d_items d) (d_reg d) v (d_ns d).

(** docx.go:60-62 New *)
Definition new_docx : docx := mk_docx [] empty_reg no_tmpl true.
(** docx.go:104-149 LoadBodyItems; the items keep the document they belong to *)
Definition load_body_items (l : list item) (ms : list mediaT) : docx := mk_docx l (load_reg ms) no_tmpl true.

(** All documents of a program; a [file] pointer is a position in this list. *)
Definition world := list docx.

Fixpoint set_nth {A} (l : list A) (i : nat) (x : A) : list A :=
  match l, i with
  | [], _ => []
  | _ :: l', O => x :: l'
  | y :: l', S i' => y :: set_nth l' i' x
  end.

(** the registry of the document behind a file pointer; nil panics *)
Definition file_reg (w : world) (f : option nat) : res reg :=
  match f with
  | None => Panic
  | Some i => match nth_error w i with Some d => Ok (d_reg d) | None => Panic end
  end.

(** running a registry operation on the document behind a file pointer *)
Definition on_file {A} (w : world) (f : option nat) (k : reg -> A * reg) : res (A * world) :=
  match f with
  | None => Panic
  | Some i => match nth_error w i with
              | Some d => let '(x, g) := k (d_reg d) in Ok (x, set_nth w i (set_d_reg g d))
              | None => Panic
              end
  end.
