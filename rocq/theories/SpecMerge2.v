(** What MergeText makes of every paragraph, without pointers. *)
From Coq Require Import String Ascii List Bool Arith NArith ZArith.
From Verif Require Import GoStr Num Lib Types SpecApi SpecMerge.
Import ListNotations.
Local Open Scope list_scope.
Local Open Scope string_scope.

(** the children of a run as objects (tabs, breaks, drawings), each with the text
    between it and the object before, and the text after the last object *)
Fixpoint segments (l : list rchild) : list (string * rchild) * string :=
  match l with
  | [] => ([], "")
  | RText t :: l' =>
      match segments l' with
      | ((s, o) :: a, z) => ((text_text t ++ s, o) :: a, z)
      | ([], z) => ([], text_text t ++ z)
      end
  | o :: l' => let (a, z) := segments l' in (("", o) :: a, z)
  end.
Definition plain (s : string) : rchild := RText (mk_text "" s).
Definition text_if (s : string) : list rchild := if (s =? "")%string then [] else [plain s].

(** the text with which the runs [rest] continue a text that is still open: up
    to the next object *)
Fixpoint goes_on (rest : list run) : string :=
  match rest with
  | [] => ""
  | r :: rest' =>
      match segments (runR_children r) with
      | ([], z) => z ++ goes_on rest'
      | ((s, _) :: _, _) => s
      end
  end.
(** the text after the last object of a run, with its continuation; a run that
    ends with an object is not continued *)
Definition final (z : string) (rest : list run) : string := if (z =? "")%string then "" else z ++ goes_on rest.

(** The runs [rest] behind a run that ends with text ([open]; the text they
    continue is shown there) or with an object. Wherever a run of them has text
    before an object, its final text is shown instead. *)
Definition instead (t : string) (x : string * rchild) : list rchild :=
  if (fst x =? "")%string then [snd x] else [plain t; snd x].
Fixpoint behind (open : bool) (rest : list run) : list rchild :=
  match rest with
  | [] => []
  | r :: rest' =>
      let (a, z) := segments (runR_children r) in
      let t := final z rest' in
      match a with
      | [] => if open then behind true rest'
              else (text_if t ++ behind (negb (z =? "")%string) rest')%list
      | x :: a' => ((if open then [snd x] else instead t x) ++ flat_map (instead t) a' ++ text_if t ++
                    behind (negb (z =? "")%string) rest')%list
      end
  end.
(** the first run of a group keeps its place, its properties and its texts *)
Definition joined (r : run) (rest : list run) : run :=
  let (a, z) := segments (runR_children r) in
  mk_runR (runR_space r) (runR_rpr r) (runR_instr r)
    (flat_map (fun x => text_if (fst x) ++ [snd x]) a ++ text_if (final z rest) ++ behind (negb (z =? "")%string) rest)%list.

(** The paragraph: [ds] tells of each run whether it joins the run before. The
    runs that join a run move over everything between them. *)
Fixpoint joining (ds : list bool) (l : list pchild) : list run :=
  match l with
  | [] => []
  | PRun r :: l' => match ds with true :: ds' => r :: joining ds' l' | _ => [] end
  | _ :: l' => joining ds l'
  end.
Fixpoint merged (ds : list bool) (l : list pchild) : list pchild :=
  match l with
  | [] => []
  | PRun r :: l' =>
      if hd false ds then merged (tl ds) l'
      else PRun (joined r (joining (tl ds) l')) :: merged (tl ds) l'
  | c :: l' => c :: merged ds l'
  end.
(** the decisions of a rule that looks at the properties: every run is compared
    with the first one of the group before *)
Fixpoint decisions (same : option rpr -> option rpr -> bool) (q : option (option rpr)) (l : list pchild) : list bool :=
  match l with
  | [] => []
  | PRun r :: l' =>
      match q with
      | Some p => if same p (runR_rpr r) then true :: decisions same q l' else false :: decisions same (Some (runR_rpr r)) l'
      | None => false :: decisions same (Some (runR_rpr r)) l'
      end
  | _ :: l' => decisions same q l'
  end.
