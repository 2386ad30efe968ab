(** Specifications for merging runs, independent of how MergeText works. *)
From Coq Require Import String Ascii List Bool Arith NArith ZArith.
From Verif Require Import GoStr Num Lib Types SpecApi.
Import ListNotations.
Local Open Scope list_scope.
Local Open Scope string_scope.

(** what a reader of a paragraph meets one after the other: characters, objects
    other than text, and hyperlinks; the boundaries of texts and runs and the
    formatting are not part of it *)
Inductive piece := Ch (a : ascii) | Obj (c : rchild) | Lnk (id : string) (r : run).
Fixpoint chars (s : string) : list piece :=
  match s with EmptyString => [] | String a s' => Ch a :: chars s' end.
Definition child_pieces (c : rchild) : list piece :=
  match c with RText t => chars (text_text t) | c => [Obj c] end.
Definition run_pieces (r : run) : list piece := flat_map child_pieces (runR_children r).
Definition pchild_pieces (c : pchild) : list piece :=
  match c with PRun r => run_pieces r | PLink id r => [Lnk id r] | PRPr _ => [] end.
Definition pieces (p : para) : list piece := flat_map pchild_pieces (para_children p).

(** the runs of a paragraph, and its other children *)
Definition run_of (c : pchild) : list run := match c with PRun r => [r] | _ => [] end.
Definition runs (p : para) : list run := flat_map run_of (para_children p).
Definition is_run (c : pchild) : bool := match c with PRun _ => true | _ => false end.
Definition non_runs (p : para) : list pchild := filter (fun c => negb (is_run c)) (para_children p).

(** The paragraphs whose text survives merging. A run is harmless when no
    non-empty text in it comes before a tab, break or drawing; behind a run that
    ends with text it may also begin with text. The first run is not restricted.
    No run comes after a hyperlink that comes after a run. *)
Definition blank (c : rchild) : bool := match c with RText t => (text_text t =? "")%string | _ => false end.
Fixpoint late_text (l : list rchild) : bool :=
  match l with
  | [] => true
  | c :: l' => if blank c || negb (is_text c) then late_text l' else forallb is_text l'
  end.
Fixpoint drop_text (l : list rchild) : list rchild :=
  match l with c :: l' => if is_text c then drop_text l' else l | [] => [] end.
Fixpoint ends_text (e : bool) (l : list rchild) : bool :=
  match l with
  | [] => e
  | c :: l' => ends_text (if blank c then e else is_text c) l'
  end.
Fixpoint mergeable (e : option bool) (l : list pchild) : bool :=
  match l with
  | [] => true
  | PRun r :: l' =>
      match e with
      | None => true
      | Some e => late_text (runR_children r) || e && late_text (drop_text (runR_children r))
      end && mergeable (Some (ends_text false (runR_children r))) l'
  | PLink _ _ :: l' =>
      match e with
      | None => mergeable None l'
      | Some _ => forallb (fun c => negb (is_run c)) l'
      end
  | PRPr _ :: l' => mergeable e l'
  end.

(** the properties of a run by name *)
Definition rnames : list (string * rfield) :=
  [("Fonts", FFonts); ("Bold", FBold); ("ICs", FIcs); ("Italic", FItalic); ("Highlight", FHighlight); ("Color", FColor);
   ("Size", FSize); ("SizeCs", FSizeCs); ("Spacing", FSpacing); ("RunStyle", FRunStyle); ("Style", FStyle); ("Shade", FShade);
   ("Kern", FKern); ("Underline", FUnderline); ("VertAlign", FVertAlign); ("Strike", FStrike)].
