(** Merging the runs of a paragraph (structtext.go). *)
From Coq Require Import String Ascii List Bool Arith NArith ZArith.
From Verif Require Import GoStr Num Lib Types Docx.
Import ListNotations.
Local Open Scope list_scope.
Local Open Scope string_scope.

(** structtext.go:147 RunMergeRule: a function of the two runs, which may panic.
    The rule is not given the chance to change the runs or to be called with a
    nil run: MergeText passes two existing runs. *)
Definition rule := run -> run -> res bool.

(** structtext.go:150-152 MergeAllRuns *)
Definition merge_all_runs : rule := fun _ _ => Ok true.

(** The fields of RunProperties from the second on (structrun.go:202-220) as
    reflection sees them: the name of the field and, when the pointer is not
    nil, the fields of the struct behind it from the second on (the first one is
    XMLName everywhere; RunFonts structrun.go:323-329, Bold, Italic, Highlight,
    Color, Size, SizeCs, RunStyle, Style, Kern, Underline, VertAlign, Strike,
    Shade structeffects.go:30-127, Spacing structpara.go; ICs points to an empty
    struct). *)
Inductive fieldv := FS (s : string) | FI (z : i64).
Definition fieldv_eqb (a b : fieldv) : bool :=
  match a, b with
  | FS a, FS b => (a =? b)%string
  | FI a, FI b => i64_eqb a b
  | _, _ => false
  end.
Definition flag (b : bool) : option (list fieldv) := if b then Some [] else None.
Definition strf (o : option string) : option (list fieldv) := option_map (fun s => [FS s]) o.
Definition rpr_fields (q : rpr) : list (string * option (list fieldv)) :=
  [("Fonts", option_map (fun f => [FS (rfonts_ascii f); FS (rfonts_eastAsia f); FS (rfonts_hAnsi f); FS (rfonts_hint f)]) (rpr_fonts q));
   ("Bold", flag (rpr_bold q));
   ("ICs", flag (rpr_ics q));
   ("Italic", flag (rpr_italic q));
   ("Highlight", strf (rpr_highlight q));
   ("Color", strf (rpr_color q));
   ("Size", strf (rpr_size q));
   ("SizeCs", strf (rpr_sizeCs q));
   ("Spacing", option_map (fun s => [FI (spacing_val s); FI (spacing_beforeLines s); FI (spacing_before s); FI (spacing_line s); FS (spacing_lineRule s)]) (rpr_spacing q));
   ("RunStyle", strf (rpr_runStyle q));
   ("Style", strf (rpr_style q));
   ("Shade", option_map (fun s => [FS (shade_val s); FS (shade_color s); FS (shade_fill s); FS (shade_themeFill s); FS (shade_themeFillTint s)]) (rpr_shade q));
   ("Kern", option_map (fun k => [FI k]) (rpr_kern q));
   ("Underline", strf (rpr_underline q));
   ("VertAlign", strf (rpr_vertAlign q));
   ("Strike", strf (rpr_strike q))].

(** structtext.go:187-191: the fields of two structs of the same type *)
Fixpoint inner_same (a b : list fieldv) : bool :=
  match a, b with
  | x :: a', y :: b' => if fieldv_eqb x y then inner_same a' b' else false
  | _, _ => true
  end.
(** structtext.go:174-191 and 217-234: one field of the properties *)
Definition field_same (x1 x2 : option (list fieldv)) : bool :=
  match x1, x2 with
  | None, None => true
  | None, Some _ => false
  | Some _, None => false
  | Some a, Some b => match a with [] => true | _ => inner_same a b end
  end.
Fixpoint fields_same (a b : list (string * option (list fieldv))) : bool :=
  match a, b with
  | (_, x) :: a', (_, y) :: b' => if field_same x y then fields_same a' b' else false
  | _, _ => true
  end.

(** structtext.go:155-194 MergeSamePropRuns; a nil run is [None]. [shared] tells
    whether the two runs point to the same properties, which then of course have
    the same contents; two nil pointers are equal too. *)
Definition same_prop (shared : bool) (r1 r2 : option run) : bool :=
  match r1, r2 with
  | Some r1, Some r2 =>
      match runR_rpr r1, runR_rpr r2 with
      | None, None => true
      | None, Some _ => false
      | Some _, None => false
      | Some q1, Some q2 => if shared then true else fields_same (rpr_fields q1) (rpr_fields q2)
      end
  | _, _ => false
  end.

(** structtext.go:212-235: FieldByName of a name that is not a field gives the
    zero Value, on which IsZero panics. The field XMLName is never set, neither
    by the loader nor by the API, so that it is the zero struct in both. *)
Fixpoint field_by_name (n : string) (l : list (string * option (list fieldv))) : option (option (list fieldv)) :=
  match l with
  | [] => if (n =? "XMLName")%string then Some None else None
  | (m, v) :: l' => if (n =? m)%string then Some v else field_by_name n l'
  end.
Fixpoint names_same (names : list string) (q1 q2 : rpr) : res bool :=
  match names with
  | [] => Ok true
  | n :: names' =>
      match field_by_name n (rpr_fields q1), field_by_name n (rpr_fields q2) with
      | Some x1, Some x2 => if field_same x1 x2 then names_same names' q1 q2 else Ok false
      | _, _ => Panic
      end
  end.
(** structtext.go:197-238 MergeSamePropRunsOf *)
Definition same_prop_of (names : list string) (shared : bool) (r1 r2 : option run) : res bool :=
  match r1, r2 with
  | Some r1, Some r2 =>
      match runR_rpr r1, runR_rpr r2 with
      | None, None => Ok true
      | None, Some _ => Ok false
      | Some _, None => Ok false
      | Some q1, Some q2 => if shared then Ok true else names_same names q1 q2
      end
  | _, _ => Ok false
  end.

(** the two as rules: structtext.go:269 passes prevrun and &r, neither of them
    nil. Two runs with one properties pointer have equal properties, so that the
    shortcut does not matter for MergeSamePropRuns; for MergeSamePropRunsOf it
    hides the panic on unknown names, and is left out here. *)
Definition merge_same_prop_runs : rule := fun r1 r2 => Ok (same_prop false (Some r1) (Some r2)).
Definition merge_same_prop_runs_of (names : list string) : rule := fun r1 r2 => same_prop_of names false (Some r1) (Some r2).

(** structtext.go:243-314 MergeText works on pointers to Text: the cells it
    allocates are numbers into a heap of strings. A child of a run under
    construction is such a cell, or a child taken over from the source. *)
Inductive mchild := MCell (a : nat) | MRest (c : rchild).
Definition heap := list string.
Definition hget (h : heap) (a : nat) : string := nth a h "".
(** [t.Text += s] *)
Fixpoint happ (h : heap) (a : nat) (s : string) : heap :=
  match h, a with
  | x :: h', O => (x ++ s) :: h'
  | x :: h', S a' => x :: happ h' a' s
  | [], _ => []
  end.
(** [&Text{}] *)
Definition halloc (h : heap) : heap * nat := ((h ++ [""])%list, length h).
Definition empty (s : string) : bool := (s =? "")%string.

(** structtext.go:252-268: the children of the run with texts joined; [t] is the
    current cell. Gives the heap, the last cell and the children. *)
Fixpoint collect (l : list rchild) (h : heap) (t : nat) (acc : list mchild) : heap * nat * list mchild :=
  match l with
  | [] => if empty (hget h t) then (h, t, acc) else (h, t, (acc ++ [MCell t])%list)
  | RText x :: l' =>
      if empty (text_text x) then collect l' h t acc
      else collect l' (happ h t (text_text x)) t acc
  | c :: l' =>
      if empty (hget h t) then collect l' h t (acc ++ [MRest c])%list
      else let (h', t') := halloc h in collect l' h' t' (acc ++ [MCell t] ++ [MRest c])%list
  end.

(** structtext.go:270-284: the cell to which text is added first, and whether it
    is already in the list *)
Definition last_cell (acc : list mchild) (h : heap) : heap * nat * bool :=
  match last (map Some acc) None with
  | Some (MCell a) => (h, a, true)
  | _ => let (h', a) := halloc h in (h', a, false)
  end.

(** structtext.go:285-304: the children [l] of the run are added to the children
    [acc] of the previous run; [pt] is prevtext, [na] is noappend, [t] the cell
    left over from [collect] *)
Fixpoint merge_into (l : list mchild) (h : heap) (pt : nat) (na : bool) (t : nat) (acc : list mchild) : heap * list mchild :=
  match l with
  | [] => if empty (hget h pt) then (h, acc)
          else if na then (h, acc) else (h, (acc ++ [MCell t])%list)
  | MCell a :: l' =>
      if empty (hget h a) then merge_into l' h pt na t acc
      else merge_into l' (happ h pt (hget h a)) pt na t acc
  | MRest c :: l' =>
      if empty (hget h pt) then merge_into l' h pt na t (acc ++ [MRest c])%list
      else
        let acc' := if na then acc else (acc ++ [MCell t])%list in
        let (h', pt') := halloc h in
        merge_into l' h' pt' false t (acc' ++ [MRest c])%list
  end.

(** what a reader of the result sees *)
Definition look_child (h : heap) (c : mchild) : rchild :=
  match c with MCell a => RText (mk_text "" (hget h a)) | MRest c => c end.
Definition look_run (h : heap) (r : runR mchild) : run :=
  mk_runR (runR_space r) (runR_rpr r) (runR_instr r) (map (look_child h) (runR_children r)).
Inductive mitem := MRun (r : runR mchild) | MPass (c : pchild).
Definition look_item (h : heap) (i : mitem) : pchild :=
  match i with MRun r => PRun (look_run h r) | MPass c => c end.

(** structtext.go:247-312: the loop. [np] are the children of the result so far.
    prevrun is the last run among them, [prev] is that run, [before] the children
    before it and [after] those after it. The hyperlinks and other children of
    the paragraph are passed on. *)
Record mstate := mk_mstate { ms_before : list mitem; ms_prev : option (runR mchild); ms_after : list mitem; ms_heap : heap }.
Definition ms_items (s : mstate) : list mitem :=
  match ms_prev s with
  | None => (ms_before s ++ ms_after s)%list
  | Some r => (ms_before s ++ MRun r :: ms_after s)%list
  end.
Definition merge_run (f : rule) (o : run) (s : mstate) : res mstate :=
  let (h0, t0) := halloc (ms_heap s) in
  let '(h, t, ch) := collect (runR_children o) h0 t0 [] in
  let r := mk_runR (runR_space o) (runR_rpr o) (runR_instr o) ch in
  let push := Ok (mk_mstate (ms_items s) (Some r) [] h) in
  match ms_prev s with
  | None => push
  | Some pr =>
      match f (look_run h pr) (look_run h r) with
      | Ok true =>
          let '(h1, pt, na) := last_cell (runR_children pr) h in
          let (h2, ch') := merge_into ch h1 pt na t (runR_children pr) in
          Ok (mk_mstate (ms_before s) (Some (set_runR_children ch' pr)) (ms_after s) h2)
      | Ok false => push
      | Err e => Err e
      | Panic => Panic
      end
  end.
Fixpoint merge_loop (f : rule) (l : list pchild) (s : mstate) : res mstate :=
  match l with
  | [] => Ok s
  | PRun o :: l' => bind (merge_run f o s) (merge_loop f l')
  | c :: l' => merge_loop f l' (mk_mstate (ms_before s) (ms_prev s) (ms_after s ++ [MPass c])%list (ms_heap s))
  end.
Definition merge_text (f : rule) (p : para) : res para :=
  bind (merge_loop f (para_children p) (mk_mstate [] None [] [])) (fun s =>
  Ok (mk_para (para_ppr p) (map (look_item (ms_heap s)) (ms_items s)) (para_file p))).
