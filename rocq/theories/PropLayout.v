(** Adding paragraphs and tables first and filling them later. *)
From Coq Require Import String List Bool Arith ZArith.
From Verif Require Import GoStr Num Lib Types Docx Api Pack History Alias SpecAlias SpecSep SpecLayout LayoutFacts.
Import ListNotations.
Local Open Scope list_scope.
Local Open Scope string_scope.

(** If a stretch of calls adds paragraphs, tables and page sizes and fills them in
    between, and nothing panics, all that is added can be added first and filled
    afterwards: the documents are the same. *)
Theorem C84_layout_first : forall (L : GoLib) l1 l l2 w, Forall (fun o => adds_item o = true \/ fills o) l -> formatted_first (l1 ++ l ++ l2)%list -> documents (l1 ++ l ++ l2)%list = Some w ->
  documents (l1 ++ (filter adds_item l ++ filter (fun o => negb (adds_item o)) l) ++ l2)%list = Some w.
Proof. exact @laid_out. Qed.
Print Assumptions C84_layout_first.

Definition ex_lib : GoLib := {| lib_float := fun _ => None; lib_md5 := fun s => s; lib_imgsize := fun s => Some (i64_of 1, i64_of 1, "png") |}.
Definition ex_l : list op :=
  [OAddPara 0; OPara 0 (ABody 0) (OText "x"); OPara 0 (ABody 0) (ORun 0 RBold); OTable 0 (i64_of 1) (i64_of 2) (i64_of 100) None; OCellShade 0 1 0 1 "clear" "auto" "red";
   OAddPara 1; OPara 1 (ABody 0) (OText "z"); OAddPara 0; OPara 0 (ABody 2) (OText "y"); OPara 0 (ABody 0) (OLink "l" "http://l"); OAddPara 0; OPara 0 (ABody 3) (OLink "m" "http://m"); OPage 0 false].
Example C84_layout_first_ex : Forall (fun o => adds_item o = true \/ fills o) ex_l /\ formatted_first ([ONew; ONew] ++ ex_l ++ [OAppend 1 0])%list /\
  map adds_item ex_l = [true; false; false; true; false; true; false; true; false; false; true; false; true] /\
  match @documents ex_lib ([ONew; ONew] ++ ex_l ++ [OAppend 1 0])%list with Some w => map (fun d => length (d_items d)) w = [5; 6] | None => False end.
Proof.
  split; [|split; [|split; [reflexivity|vm_compute; reflexivity]]].
  - repeat (apply Forall_cons; [first [left; reflexivity|right; exact I]|]). apply Forall_nil.
  - exists ([ONew; ONew] ++ ex_l)%list, [OAppend 1 0]. split; [reflexivity|]. split; intros o I; cbn in I; repeat destruct I as [<-|I]; try reflexivity; destruct I.
Qed.
