(** What a reader of the saved XML shows that follows the rules for white
    space: XML 1.0, 2.10 (xml:space holds for everything inside an element until
    it is set again) and ECMA-376, 17.3.3.31 (without it, white space at the
    ends of w:t is not shown). *)
From Coq Require Import String Ascii List Bool Arith NArith ZArith.
From Verif Require Import GoStr Types XmlTok.
Import ListNotations.
Local Open Scope list_scope.
Local Open Scope string_scope.

Definition white_char (a : ascii) : bool :=
  let n := N_of_ascii a in ((n =? 32) || (n =? 9) || (n =? 10) || (n =? 13))%N.
Fixpoint no_front (s : string) : string :=
  match s with String a s' => if white_char a then no_front s' else s | EmptyString => "" end.
Fixpoint no_back (s : string) : string :=
  match s with
  | EmptyString => ""
  | String a s' => match no_back s' with EmptyString => if white_char a then "" else String a "" | t => String a t end
  end.
Definition trim (s : string) : string := no_back (no_front s).
(** no white space at the ends *)
Definition tight (s : string) : Prop :=
  (forall a s', s = String a s' -> white_char a = false) /\ (forall a s', s = s' ++ String a "" -> white_char a = false).

Fixpoint space_attr (l : list attr) : option string :=
  match l with
  | [] => None
  | (q, v) :: l' => if String.eqb (fst q) "xml" && String.eqb (snd q) "space" then Some v else space_attr l'
  end.
Definition keeps (keep : bool) (l : list attr) : bool :=
  match space_attr l with
  | Some v => if String.eqb v "preserve" then true else if String.eqb v "default" then false else keep
  | None => keep
  end.
Definition char_data (t : tree) : string := match t with Chr s => s | _ => "" end.
Definition is_w (n : string) (q : qname) : bool := String.eqb (fst q) "w" && String.eqb (snd q) n.
(** the text of an element: w:t, w:tab and w:br count, properties do not. With
    [all] nothing is taken away; [keep] is the xml:space around the element. *)
Fixpoint shown (all keep : bool) (t : tree) : string :=
  match t with
  | Elem q a c =>
      let k := keeps keep a in
      if is_w "t" q then (let s := sconcat (map char_data c) in if all || k then s else trim s)
      else if is_w "tab" q then String "009" ""
      else if is_w "br" q then String "010" ""
      else if is_w "pPr" q || is_w "rPr" q then ""
      else sconcat (map (shown all k) c)
  | _ => ""
  end.
(** what is stored in the element, and what is seen of it *)
Definition stored (t : tree) : string := shown true false t.
Definition seen (t : tree) : string := shown false false t.

(** text with each piece between tabs and line ends shown by itself *)
Definition TABs : string := String "009" "".
Definition NLs : string := String "010" "".
Definition trimmed (t : string) : string :=
  join NLs (map (fun l => join TABs (map trim (split "009" l))) (split "010" t)).
Definition all_tight (t : string) : Prop := forall l k, In l (split "010" t) -> In k (split "009" l) -> tight k.

(** a list of children of a run whose texts need no mark, and runs with such
    children and without a mark of their own *)
Definition tight_texts (l : list rchild) : Prop := forall x, In (RText x) l -> tight (text_text x).
Definition plain_runs (l : list pchild) : Prop := forall r, In (PRun r) l -> runR_space r = "" /\ tight_texts (runR_children r).
