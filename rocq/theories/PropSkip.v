(** Property theorems: elements unknown to the loader. *)
From Coq Require Import String List Relations.
From Verif Require Import GoStr Num Lib Types XmlTok Unmarshal SpecSkip SkipFacts.
Import ListNotations.
Local Open Scope string_scope.
Local Open Scope list_scope.

(** C34: putting elements of unknown names, with any content, among the children
    of elements changes neither the loaded document nor success or failure. *)
Theorem C34_unknown_elements_ignored : forall (L : GoLib) f t t', same_but_unknown t t' ->
  parse_document f (toks t) = parse_document f (toks t').
Proof. exact @parse_unknown. Qed.
Print Assumptions C34_unknown_elements_ignored.

Definition ex_lib : GoLib := {| lib_float := fun _ => None; lib_md5 := fun s => s; lib_imgsize := fun _ => None |}.

(** an unknown element with content that would mean something elsewhere *)
Definition ex_x : tree := Elem (w "proofErr") [(w "val", "0")] [Elem (w "p") [] [Elem (w "r") [] [Elem (w "t") [] [Chr "no"]]]; Cmt; Chr "x"].

(** a document, with [b] put into the body, a table, a row, a cell, a
    paragraph, its properties, a run, its properties *)
Definition ex_doc (b tb r c p pp ru rp : list tree) : tree :=
  Elem (w "document") [] [Elem (w "body") [] (b ++
    [Elem (w "tbl") [] (tb ++ [Elem (w "tr") [] (r ++ [Elem (w "tc") [] (c ++
      [Elem (w "p") [] (p ++
        [Elem (w "pPr") [] (pp ++ [Elem (w "jc") [(w "val", "center")] []]);
         Elem (w "r") [] (ru ++
           [Elem (w "rPr") [] (rp ++ [Elem (w "b") [] []]); Elem (w "t") [] [Chr "hello"]])])])])])])].

Ltac ex_out := apply notin; reflexivity.
(** go down to the child behind the children [l] *)
Ltac down l := unfold ex_doc; cbn [app]; match goal with |- adds (Elem ?q ?a ?c) (Elem ?q ?a ?c') =>
  let d := eval cbv in (skipn (List.length l) c) in let d' := eval cbv in (skipn (List.length l) c') in
  match d with ?x :: ?m => match d' with ?y :: _ => apply (adds_in q a l m x y); [ex_out|] end end end.
Ltac here := match goal with |- adds (Elem ?q ?a ?c) _ => apply (adds_here q a [] c); ex_out end.

Example C34_ex : same_but_unknown (ex_doc [] [] [] [] [] [] [] [])
                                  (ex_doc [ex_x] [ex_x] [ex_x] [ex_x] [ex_x] [ex_x] [ex_x] [ex_x]).
Proof.
  unfold same_but_unknown.
  apply (rst_trans _ _ _ (ex_doc [ex_x] [] [] [] [] [] [] [])). { apply rst_step. down (@nil tree). here. }
  apply (rst_trans _ _ _ (ex_doc [ex_x] [ex_x] [] [] [] [] [] [])). { apply rst_step. down (@nil tree). down [ex_x]. here. }
  apply (rst_trans _ _ _ (ex_doc [ex_x] [ex_x] [ex_x] [] [] [] [] [])). { apply rst_step. down (@nil tree). down [ex_x]. down [ex_x]. here. }
  apply (rst_trans _ _ _ (ex_doc [ex_x] [ex_x] [ex_x] [ex_x] [] [] [] [])). { apply rst_step. down (@nil tree). down [ex_x]. down [ex_x]. down [ex_x]. here. }
  apply (rst_trans _ _ _ (ex_doc [ex_x] [ex_x] [ex_x] [ex_x] [ex_x] [] [] [])). { apply rst_step. down (@nil tree). down [ex_x]. down [ex_x]. down [ex_x]. down [ex_x]. here. }
  apply (rst_trans _ _ _ (ex_doc [ex_x] [ex_x] [ex_x] [ex_x] [ex_x] [ex_x] [] [])). { apply rst_step. down (@nil tree). down [ex_x]. down [ex_x]. down [ex_x]. down [ex_x]. down [ex_x]. here. }
  apply (rst_trans _ _ _ (ex_doc [ex_x] [ex_x] [ex_x] [ex_x] [ex_x] [ex_x] [ex_x] [])). { apply rst_step. down (@nil tree). down [ex_x]. down [ex_x]. down [ex_x]. down [ex_x]. down [ex_x; Elem (w "pPr") [] [ex_x; Elem (w "jc") [(w "val", "center")] []]]. here. }
  apply rst_step. down (@nil tree). down [ex_x]. down [ex_x]. down [ex_x]. down [ex_x]. down [ex_x; Elem (w "pPr") [] [ex_x; Elem (w "jc") [(w "val", "center")] []]]. down [ex_x]. here.
Qed.

Example C34_ex_loaded : exists p, @parse_document ex_lib None (toks (ex_doc [ex_x] [ex_x] [ex_x] [ex_x] [ex_x] [ex_x] [ex_x] [ex_x]))
   = ([ITable p], SOk) /\ map (fun r => map (fun c => List.length (cell_paras c)) (row_cells r)) (table_rows p) = [[1]].
Proof. eexists. split; vm_compute; reflexivity. Qed.
