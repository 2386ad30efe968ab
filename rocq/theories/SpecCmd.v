(** Specification for the program that comes with the package: names of files,
    the lines it prints, and what dropping the paragraph properties leaves. *)
From Coq Require Import String Ascii List Bool Arith NArith ZArith.
From Verif Require Import GoStr Num Lib Types Docx Api Text Pack Theme History SpecEdit SpecCopy Cmd.
Import ListNotations.
Local Open Scope list_scope.
Local Open Scope string_scope.

(** the directory (empty or ending in a slash) and the name in it *)
Definition stands (loc dir base : string) : Prop :=
  loc = dir ++ base /\ (dir = "" \/ exists d, dir = d ++ "/") /\ count "/" base = 0.
(** a name with an extension *)
Definition dotted (base stem ext : string) : Prop := base = stem ++ "." ++ ext /\ count "." ext = 0.

(** the lines for the items of a body: one for each paragraph and each table *)
Inductive shown {L : GoLib} (w : world) : list item -> list string -> Prop :=
| shown_nil : shown w [] []
| shown_para p s l ls : para_string w p = Ok s -> shown w l ls -> shown w (IPara p :: l) (s :: ls)
| shown_table t s l ls : table_string w t = Ok s -> shown w l ls -> shown w (ITable t :: l) (s :: ls)
| shown_sect x l ls : shown w l ls -> shown w (ISect x :: l) ls.

(** what a program prints, and the names of the files it makes *)
Definition lines (es : list event) : list string := flat_map (fun e => match e with EPrint s => [s] | _ => [] end) es.
Definition made (es : list event) : list string := flat_map (fun e => match e with ECreate n => [n] | _ => [] end) es.

(** the same without the properties of paragraphs *)
Definition bared_para (p q : para) : Prop := para_ppr q = None /\ para_children q = para_children p /\ para_file q = para_file p.
Definition bared_cell (c e : cell) : Prop := cell_props e = cell_props c /\ cell_file e = cell_file c /\ Forall2 bared_para (cell_paras c) (cell_paras e).
Definition bared_row (r s : row) : Prop := row_props s = row_props r /\ Forall2 bared_cell (row_cells r) (row_cells s).
Definition bared (x y : item) : Prop :=
  match x, y with
  | IPara p, IPara q => bared_para p q
  | ITable t, ITable u => table_props u = table_props t /\ table_grid u = table_grid t /\ Forall2 bared_row (table_rows t) (table_rows u)
  | ISect s, ISect r => r = s
  | _, _ => False
  end.
(** what the flags -c and -p leave of the items of a document *)
Definition left_of (fl : flags) (clean : list item -> list item) (l l' : list item) : Prop :=
  exists m, m = (if fl_clean fl then clean l else l) /\ (if fl_droppp fl then Forall2 bared m l' else l' = m).
(** the documents written, with the names of the files *)
Definition written (es : list event) : list (string * docx) := flat_map (fun e => match e with EWrite n d => [(n, d)] | _ => [] end) es.

(** the names of the files *)
Definition part_name (dir stem ext : string) (k : nat) : string := dir ++ "unmarshal_" ++ stem ++ "_split" ++ itoa (Z.of_nat k) ++ "." ++ ext.
(** for a file in a directory other than the root, this is a file in a directory "dup_" *)
Definition dup_at (loc dir base : string) : string := if (2 <=? String.length dir)%nat then dir ++ "dup_/" ++ base else "dup_" ++ loc.

(** the parts for -s: the pieces of the body, cut in front of the paragraphs
    whose text matches; [w] holds the document, [l] are its items *)
Definition split_into {L : GoLib} (fl : flags) (w : world) (l : list item) (parts : list docx) : Prop :=
  match fl_split fl with
  | None => parts = []
  | Some None => False
  | Some (Some re) => exists ps, pieces (fun p => bind (para_string w p) (fun s => Ok (re s))) l ps /\ length parts = length ps /\
      forall k s e, nth_error ps k = Some s -> nth_error parts k = Some e -> (exists d, nth_error w 0 = Some d /\ d_tmpl e = d_tmpl d) /\ map kind_of (d_items e) = map kind_of s /\
        ((N.of_nat (length (rels (d_reg e))) < 2 ^ 63)%N -> Forall2 (same_item w (S k) (d_reg e)) s (d_items e))
  end.
(** the document for -d n: the page, and then the items n times over *)
Definition A4 : sect := mk_sect (Some (mk_pgsz (i64_of 11906) (i64_of 16838))) None None None.
Definition copied_into {L : GoLib} (x : assets) (fl : flags) (w : world) (l : list item) (copies : list docx) : Prop :=
  if (1 <? fl_dup fl)%N
  then exists d new, copies = [d] /\ d_items d = (ISect A4 :: new)%list /\ d_tmpl d = default_theme x /\
    ((N.of_nat (length (rels (d_reg d))) < 2 ^ 63)%N -> exists k,
       if (fl_dup fl <? 2 ^ 63)%N then Forall2 (same_item w k (d_reg d)) (concat (repeat l (N.to_nat (fl_dup fl)))) new else new = [])
  else copies = [].

(** a document can be written to a file of this name *)
Definition can_save (sys : system) (n : string) (d : docx) : Prop := sys_create sys n = true /\ sys_write sys n = true /\ exists ar, writes d (Ok ar).
(** the calls that make the document for -d, the [k]th: a new one with the default
    theme and page, and the first document appended to it again and again *)
Definition copying (x : assets) (fl : flags) (k : nat) : list op :=
  ONew :: OTemplate k (default_theme x) :: OPage k false :: repeat (OAppend k 0) (if (fl_dup fl <? 2 ^ 63)%N then N.to_nat (fl_dup fl) else 0).
