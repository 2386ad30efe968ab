(** The program that comes with the package, in analysis mode (cmd/main/main.go,
    flag -a). Without -a it first writes a fixed document to the file
    (lines 47-169, Demo.v). *)
From Coq Require Import String Ascii List Bool Arith NArith ZArith.
From Verif Require Import GoStr Num Lib Types Docx Api Keep Copy Text Pack Theme History.
Import ListNotations.
Local Open Scope list_scope.
Local Open Scope string_scope.

(** main.go:37-43. [fl_split] is [None] for -s "", [Some None] for an expression
    that regexp.MustCompile rejects, and otherwise says which texts the
    expression matches. *)
Record flags := mk_flags {
  fl_loc : string;
  fl_clean : bool;
  fl_unm : bool;
  fl_split : option (option (string -> bool));
  fl_droppp : bool;
  fl_dup : N }.

(** What the operating system does: whether os.Create succeeds for a name, and
    whether all writes to it and Close do *)
Record system := mk_system { sys_create : string -> bool; sys_write : string -> bool }.

(** What the program does to the outside: a line on the standard output, a file
    made or emptied, and the package of a document written to it in full. *)
Inductive event :=
| EPrint (s : string)
| ECreate (name : string)
| EWrite (name : string) (d : docx).

(** A part of the program: its effects, and its result unless it panics.
    All errors are made panics in main.go. *)
Definition prog (A : Type) : Type := (list event * option A)%type.
Definition ret {A} (x : A) : prog A := ([], Some x).
Definition stop {A} : prog A := ([], None).
Definition emit (e : event) : prog unit := ([e], Some tt).
Definition seqp {A B} (p : prog A) (k : A -> prog B) : prog B :=
  match snd p with
  | None => (fst p, None)
  | Some x => ((fst p ++ fst (k x))%list, snd (k x))
  end.
Definition lift {A} (r : res A) : prog A := match r with Ok x => ret x | _ => stop end.
Fixpoint each {A} (f : A -> prog unit) (l : list A) : prog unit :=
  match l with
  | [] => ret tt
  | x :: l' => seqp (f x) (fun _ => each f l')
  end.

(** strings.LastIndex(s, c): -1 if there is none *)
Fixpoint last_index (c : ascii) (s : string) : Z :=
  match s with
  | "" => -1
  | String a s' =>
      let i := last_index c s' in
      if (0 <=? i)%Z then (i + 1)%Z else if Ascii.eqb a c then 0%Z else (-1)%Z
  end.
(** s[i:j]: panics unless 0 <= i <= j <= len(s) *)
Definition slice (i j : Z) (s : string) : res string :=
  if ((0 <=? i) && (i <=? j) && (j <=? Z.of_nat (String.length s)))%Z%bool
  then Ok (substring (Z.to_nat i) (Z.to_nat (j - i)) s) else Panic.
Definition to_end (i : Z) (s : string) : res string := slice i (Z.of_nat (String.length s)) s.

(** main.go:204-205 *)
Definition unm_name (loc : string) : res string :=
  let i := last_index "/" loc in
  bind (slice 0 (i + 1) loc) (fun x => bind (to_end (i + 1) loc) (fun y => Ok (x ++ "unmarshal_" ++ y))).
(** main.go:229-232 *)
Definition split_name (loc : string) (k : nat) : res string :=
  let a := last_index "/" loc in
  let b := last_index "." loc in
  bind (slice 0 (a + 1) loc) (fun x => bind (slice (a + 1) b loc) (fun y => bind (to_end b loc) (fun z =>
  Ok (x ++ "unmarshal_" ++ y ++ "_split" ++ itoa (Z.of_nat k) ++ z)))).
(** main.go:248-252 *)
Definition dup_name (loc : string) : res string :=
  let a := last_index "/" loc in
  if (0 <? a)%Z
  then bind (slice 0 (a + 1) loc) (fun x => bind (to_end a loc) (fun y => Ok (x ++ "dup_" ++ y)))
  else Ok ("dup_" ++ loc).

Definition two63N : N := 9223372036854775808.
(** main.go:258: i < int( *dupnum), on a machine with 64-bit words *)
Definition turns (n : N) : nat := if (n <? two63N)%N then N.to_nat n else 0.

(** main.go:187-202: the properties of the paragraphs of the body and of the
    cells of its tables *)
Definition bare_para (p : para) : para := mk_para None (para_children p) (para_file p).
Definition bare_cell (c : cell) : cell := mk_cell (cell_props c) (map bare_para (cell_paras c)) (cell_file c).
Definition bare_row (r : row) : row := mk_row (row_props r) (map bare_cell (row_cells r)).
Definition bare_table (t : table) : table := mk_table (table_props t) (table_grid t) (map bare_row (table_rows t)).
Definition bare_item (x : item) : item :=
  match x with
  | IPara p => IPara (bare_para p)
  | ITable t => ITable (bare_table t)
  | ISect s => ISect s
  end.

Section Tool.
Context `{GoLib}.
Variable x : assets.
Variable sys : system.
Variable fl : flags.

(** main.go:206-217, 233-244: os.Create, WriteTo, Close. Where [writes] leaves
    the order of the entries open, whether it succeeds does not depend on it;
    the order of pack_files is taken. *)
Definition packs (d : docx) : bool :=
  match bind (pack_files d) write_entries with Ok _ => true | _ => false end.
Definition create (name : string) : prog unit := if sys_create sys name then emit (ECreate name) else stop.
Definition fill (name : string) (d : docx) : prog unit := if (packs d && sys_write sys name)%bool then emit (EWrite name d) else stop.
Definition save (name : string) (d : docx) : prog unit := seqp (create name) (fun _ => fill name d).

(** the document; it is the first of the world *)
Definition doc_of (w : world) : prog docx := match nth_error w 0 with Some d => ret d | None => stop end.

(** main.go:184-186 *)
Definition clean_step (w : world) : prog world :=
  if fl_clean fl then lift (exec (ODropAll 0 "NilPicture") w) else ret w.
(** main.go:187-202 *)
Definition bare_step (w : world) : prog world :=
  if fl_droppp fl
  then lift (on_doc w 0 (fun d => Ok (set_d_items (map bare_item (d_items d)) d)))
  else ret w.
(** main.go:203-218 *)
Definition unm_step (w : world) : prog unit :=
  if fl_unm fl
  then seqp (lift (unm_name (fl_loc fl))) (fun name => seqp (doc_of w) (fun d => save name d))
  else ret tt.
(** main.go:219-227 *)
Definition print_item (w : world) (i : item) : prog unit :=
  match i with
  | IPara p => seqp (lift (para_string w p)) (fun s => emit (EPrint s))
  | ITable t => seqp (lift (table_string w t)) (fun s => emit (EPrint s))
  | ISect _ => ret tt
  end.
Definition print_step (w : world) : prog unit :=
  seqp (emit (EPrint "Plain text:")) (fun _ => seqp (doc_of w) (fun d => each (print_item w) (d_items d))).
(** structdoc.go:208-212 SplitDocxByPlainTextRegex. Splitting does not change the
    document it splits, so the text is the same whenever it is asked for. *)
Definition by_text (w : world) (re : string -> bool) (p : para) : res bool := bind (para_string w p) (fun s => Ok (re s)).
(** main.go:228-246: all parts are made before the first one is written *)
Definition part_step (k : nat * docx) : prog unit :=
  seqp (lift (split_name (fl_loc fl) (fst k))) (fun name => save name (snd k)).
Definition split_step (w : world) : prog world :=
  match fl_split fl with
  | None => ret w
  | Some None => stop
  | Some (Some re) =>
      seqp (lift (split_by_paragraph 0 (by_text w re) w)) (fun w' =>
      let parts := skipn (length w) w' in
      seqp (each part_step (combine (seq 0 (length parts)) parts)) (fun _ => ret w'))
  end.
(** main.go:258-260 *)
Fixpoint append_times (n to : nat) (w : world) : res world :=
  match n with
  | O => Ok w
  | S n' => bind (append_file to 0 w) (append_times n' to)
  end.
(** main.go:247-265. The file is not closed. *)
Definition dup_step (w : world) : prog unit :=
  if (1 <? fl_dup fl)%N
  then
    seqp (lift (dup_name (fl_loc fl))) (fun name =>
    seqp (create name) (fun _ =>
    seqp (lift (append_times (turns (fl_dup fl)) (length w) (w ++ [with_a4 (with_default_theme x new_docx)])%list)) (fun w' =>
    match nth_error w' (length w) with
    | Some d => fill name d
    | None => stop
    end)))
  else ret tt.

(** main.go:171-267 for a file that can be opened and holds the archive [a] *)
Definition tool (a : archive) : prog unit :=
  seqp (lift (parse a [])) (fun w0 =>
  seqp (clean_step w0) (fun w1 =>
  seqp (bare_step w1) (fun w2 =>
  seqp (unm_step w2) (fun _ =>
  seqp (print_step w2) (fun _ =>
  seqp (split_step w2) (fun w3 =>
  seqp (dup_step w3) (fun _ =>
  emit (EPrint "End of main")))))))).
End Tool.
