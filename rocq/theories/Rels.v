(** word/_rels/document.xml.rels: writing and reading the relationships. *)
From Coq Require Import String Ascii List Bool Arith NArith ZArith.
From Verif Require Import GoStr Num Lib Types XmlTok Docx Lex.
Import ListNotations.
Local Open Scope list_scope.
Local Open Scope string_scope.

(** structrel.go:39-44, encoded by the struct tags *)
Definition m_rel (r : rel) : tree :=
  Elem (nn "Relationship")
    (at_ (nn "Id") (rel_id r) ++ at_ (nn "Type") (rel_type r) ++ at_ (nn "Target") (rel_target r) ++ ato (nn "TargetMode") (rel_mode r))%list [].
(** structrel.go:33-36; the element name is the name of the type *)
Definition m_rels (g : reg) : tree :=
  Elem (nn "Relationships") (at_ (nn "xmlns") (relns g)) (map m_rel (rels g)).

(** structrel.go:39-44, decoded by reflection: attributes are matched by their
    local names, the last one wins, unknown ones are ignored *)
Definition rel_attr (r : rel) (a : attr) : rel :=
  let n := snd (fst a) in let v := snd a in
  if String.eqb n "Id" then mk_rel v (rel_type r) (rel_target r) (rel_mode r)
  else if String.eqb n "Type" then mk_rel (rel_id r) v (rel_target r) (rel_mode r)
  else if String.eqb n "Target" then mk_rel (rel_id r) (rel_type r) v (rel_mode r)
  else if String.eqb n "TargetMode" then mk_rel (rel_id r) (rel_type r) (rel_target r) v
  else r.
Definition u_rel (a : list attr) : rel := fold_left rel_attr a (mk_rel "" "" "" "").

(** structrel.go:33-36, decoded by reflection: child elements named
    Relationship are appended (their own children are skipped), others are
    skipped. [n] bounds the number of tokens read. *)
Fixpoint rels_n (n : nat) (l : list rel) (ts : list token) : list rel * status :=
  match n with
  | O => (l, SFuel)
  | S n' =>
      match ts with
      | [] => (l, SAbort XSyntax)
      | TErr :: _ => (l, SAbort XSyntax)
      | TEof :: _ => (l, SAbort XEOF)
      | TEnd _ :: _ => (l, SOk)
      | TStart q a :: ts' =>
          match skip ts' with
          | (SOk, ts'') => rels_n n' (if String.eqb (snd q) "Relationship" then l ++ [u_rel a] else l)%list ts''
          | (e, _) => (l, e)
          end
      | _ :: ts' => rels_n n' l ts'
      end
  end.
Definition ns_attr (ns : string) (a : attr) : string := if String.eqb (snd (fst a)) "xmlns" then snd a else ns.
(** Decoder.Decode(&f.docRelation): any root element is accepted *)
Fixpoint rels_root (ns : string) (l : list rel) (ts : list token) : string * list rel * status :=
  match ts with
  | [] => (ns, l, SAbort XEOF)
  | TErr :: _ => (ns, l, SAbort XSyntax)
  | TStart q a :: ts' => let (l', st) := rels_n (S (length ts')) l ts' in (fold_left ns_attr a ns, l', st)
  | _ :: ts' => rels_root ns l ts'
  end.

(** unpack.go:116-126: every id must be rId and a number *)
Definition id_number (id : string) : option N :=
  if has_prefix "rId" id then match drop 3 id with Some s => parse_uint s | None => None end else None.
Fixpoint max_id (l : list rel) (m : N) : option N :=
  match l with
  | [] => Some m
  | r :: l' =>
      match id_number (rel_id r) with
      | None => None
      | Some n => max_id l' (if (m <? n)%N then n else m)
      end
  end.

(** unpack.go:104-128 parseDocRelation. A second relationship part is decoded
    into the same structure. *)
Definition ERR_XML := "xml".
Definition ERR_RELID := "invalid rel ID".
Definition parse_doc_relation (s : string) (g : reg) : res reg :=
  match rels_root XMLNS_R (rels g) (check [] (lex s)) with
  | (ns, l, SOk) =>
      match max_id l (rid g) with
      | Some m => Ok (mk_reg l ns (media g) (midx g) m (imgid g) (docid g) (slow g))
      | None => Err ERR_RELID
      end
  | _ => Err ERR_XML
  end.
