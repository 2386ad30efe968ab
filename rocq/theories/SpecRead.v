(** Specification: the text of a WordprocessingML file, as String shows it.
    Nothing here uses the decoder. *)
From Coq Require Import String Ascii List Bool Arith NArith ZArith.
From Verif Require Import GoStr Num Lib Types Docx Text XmlTok SpecXml SpecStrict.
Import ListNotations.
Local Open Scope string_scope.
Local Open Scope list_scope.

(** ** runs *)

(** what a run shows *)
Inductive bit := BText (s : string) | BTab | BBreak | BDrawing | BInstr (s : string).

(** the value of the first attribute with a local name *)
Definition first_value (n : string) (a : list attr) : string :=
  match find (fun x => String.eqb (snd (fst x)) n) a with Some x => snd x | None => "" end.
(** an mc:Choice that the library takes *)
Definition supported (q : qname) (a : list attr) : bool :=
  (String.eqb (snd q) "Choice" && existsb (String.eqb (first_value "Requires" a)) ["wps"; "wpc"; "wpg"])%bool.

(** the last character data in a tree, [d] if there is none *)
Fixpoint last_in (d : string) (t : tree) : string :=
  match t with
  | Elem _ _ c => fold_left (fun x u => last_in x u) c d
  | Chr s => s
  | Cmt => d
  end.

(** What a child of a run shows. The content of w:tab counts as if it followed
    the element. Of mc:AlternateContent the first Choice that the library takes
    counts, together with what follows it. *)
Fixpoint bits (t : tree) : list bit :=
  match t with
  | Elem q a c =>
      if String.eqb (snd q) "t" then [BText (fold_left last_in c "")]
      else if String.eqb (snd q) "tab" then BTab :: flat_map bits c
      else if String.eqb (snd q) "br" then [BBreak]
      else if String.eqb (snd q) "drawing" then [BDrawing]
      else if String.eqb (snd q) "instrText" then [BInstr (chardata c)]
      else if String.eqb (snd q) "AlternateContent" then
        (fix alt l := match l with
                      | [] => []
                      | Elem q' a' c' :: l' => if supported q' a' then flat_map bits c' ++ flat_map bits l' else alt l'
                      | _ :: l' => alt l'
                      end) c
      else []
  | _ => []
  end.
Definition run_bits (r : tree) : list bit := flat_map bits (children r).

(** No mc:AlternateContent has character data or a comment before the Choice
    that is taken. *)
Fixpoint led (l : list tree) : Prop :=
  match l with
  | [] => True
  | Elem q a _ :: l' => supported q a = true \/ led l'
  | _ => False
  end.
Fixpoint tidy (t : tree) : Prop :=
  match t with
  | Elem q a c => (snd q = "AlternateContent" -> led c) /\ fold_right (fun x P => tidy x /\ P) True c
  | _ => True
  end.

(** the text of a run: a drawing is shown as nothing or as a markdown picture *)
Inductive reads : list bit -> string -> Prop :=
| rd_end : reads [] ""
| rd_text : forall t l s, reads l s -> reads (BText t :: l) (t ++ s)%string
| rd_tab : forall l s, reads l s -> reads (BTab :: l) (String "009" s)
| rd_break : forall l s, reads l s -> reads (BBreak :: l) (String "010" s)
| rd_drawing : forall d l s, d = "" \/ (exists x, d = "![" ++ x)%string -> reads l s -> reads (BDrawing :: l) (d ++ s)%string
| rd_instr : forall i l s, reads l s -> reads (BInstr i :: l) s.

(** ** paragraphs *)

(** the last field instruction *)
Definition last_instr (d : string) (l : list bit) : string :=
  fold_left (fun x b => match b with BInstr s => s | _ => x end) l d.
(** where a link goes: to a bookmark, or to the relationship with the id *)
Definition link_ref (a : list attr) : string :=
  if String.eqb (first_value "anchor" a) "" then first_value "id" a else first_value "anchor" a.
Definition target_in (rs : list rel) (id : string) : string :=
  match find (fun r => String.eqb (rel_id r) id) rs with Some r => rel_target r | None => id end.

Inductive reads_para (rs : list rel) : list tree -> string -> Prop :=
| rp_end : reads_para rs [] ""
| rp_run : forall t l s s', named "r" t = true -> reads (run_bits t) s -> reads_para rs l s' -> reads_para rs (t :: l) (s ++ s')%string
| rp_link : forall q a c l s, snd q = "hyperlink" -> reads_para rs l s ->
    reads_para rs (Elem q a c :: l) ("[" ++ last_instr "" (flat_map run_bits (filter (named "r") c)) ++ "](" ++ target_in rs (link_ref a) ++ ")" ++ s)%string
| rp_other : forall t l s, named "r" t = false -> named "hyperlink" t = false -> reads_para rs l s -> reads_para rs (t :: l) s.

(** ** documents *)
Section Shows.
Context `{GoLib}.
Variable w : world.
Variable rs : list rel.

(** String of a paragraph: if it returns, it returns the text of the paragraph;
    it does return if there are no drawings *)
Definition shows_para (t : tree) (p : para) : Prop :=
  (forall s, para_string w p = Ok s -> reads_para rs (children t) s) /\
  ((forall r, In r (children t) -> named "r" r = true -> ~ In BDrawing (run_bits r)) -> exists s, para_string w p = Ok s).
Definition shows_cell (t : tree) (c : cell) : Prop := Forall2 shows_para (filter (named "p") (children t)) (cell_paras c).
Definition shows_row (t : tree) (r : row) : Prop := Forall2 shows_cell (filter (named "tc") (children t)) (row_cells r).
Definition shows (t : tree) (x : item) : Prop :=
  match x with
  | IPara p => named "p" t = true /\ shows_para t p
  | ITable tb => named "tbl" t = true /\ Forall2 shows_row (filter (named "tr") (children t)) (table_rows tb)
  | ISect _ => named "sectPr" t = true
  end.
End Shows.
(** the paragraphs, tables and section properties of a document *)
Definition blocks (t : tree) : list tree :=
  filter (fun x => named "p" x || named "tbl" x || named "sectPr" x)%bool (body_children t).
