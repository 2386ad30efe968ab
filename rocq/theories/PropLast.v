(** Sequences of formatting calls. *)
From Coq Require Import String List Bool Arith ZArith.
From Verif Require Import GoStr Num Lib Types Docx Api Pack History Alias SpecAlias SpecSep SpecLast LastFacts.
Import ListNotations.
Local Open Scope list_scope.
Local Open Scope string_scope.

(** Of two calls that set the same thing the last one counts: with the first left
    out the documents are the same, and a panic happens just as well. *)
Theorem C82_last_wins : forall (L : GoLib) l1 o1 o2 l2 t, sets o1 = Some t -> sets o2 = Some t -> formatted_first (l1 ++ o1 :: o2 :: l2)%list ->
  documents (l1 ++ o1 :: o2 :: l2)%list = documents (l1 ++ o2 :: l2)%list.
Proof. exact @last_wins. Qed.
Print Assumptions C82_last_wins.

(** Two calls that set different things, in one place or in two, can be made in
    either order. *)
Theorem C82_any_order : forall (L : GoLib) l1 o1 o2 l2 s t, sets o1 = Some s -> sets o2 = Some t -> s <> t -> formatted_first (l1 ++ o1 :: o2 :: l2)%list ->
  documents (l1 ++ o1 :: o2 :: l2)%list = documents (l1 ++ o2 :: o1 :: l2)%list.
Proof. exact @any_order. Qed.
Print Assumptions C82_any_order.

Definition ex_lib : GoLib := {| lib_float := fun _ => None; lib_md5 := fun s => s; lib_imgsize := fun s => Some (i64_of 1, i64_of 1, "png") |}.
Definition ex_start : list op := [ONew; OAddPara 0; OPara 0 (ABody 0) (OText "a"); OPara 0 (ABody 0) (OText "b"); ONew].
Definition ex_colors (l : option world) : list (list (option (option string * bool))) :=
  match l with
  | Some w => map (fun d => match get_para (d_items d) (ABody 0) with
      | Some p => map (fun c => match c with PRun r => match runR_rpr r with Some q => Some (rpr_color q, rpr_bold q) | None => None end | _ => None end) (para_children p)
      | None => [] end) w
  | None => []
  end.
Definition ex_color (v : string) : op := OPara 0 (ABody 0) (ORun 1 (RColor v)).
Definition ex_bold (k : nat) : op := OPara 0 (ABody 0) (ORun k RBold).
Lemma ex_first : forall o1 o2, copies o1 = false -> copies o2 = false -> formatted_first (ex_start ++ o1 :: o2 :: [OAppend 1 0])%list.
Proof.
  intros o1 o2 A B. exists (ex_start ++ [o1; o2])%list, [OAppend 1 0]. split; [reflexivity|]. split; intros o I; cbn in I; repeat destruct I as [<-|I]; auto; destruct I.
Qed.
Example C82_last_wins_ex : sets (ex_color "red") = sets (ex_color "blue") /\ sets (ex_color "blue") <> None /\
  formatted_first (ex_start ++ ex_color "red" :: ex_color "blue" :: [OAppend 1 0])%list /\
  ex_colors (@documents ex_lib (ex_start ++ ex_color "red" :: ex_color "blue" :: [OAppend 1 0])%list) = [[Some (None, false); Some (Some "blue", false)]; [Some (None, false); Some (Some "blue", false)]].
Proof. split; [reflexivity|]. split; [discriminate|]. split; [apply ex_first; reflexivity|vm_compute; reflexivity]. Qed.
Example C82_any_order_ex : sets (ex_color "red") = Some (TRun 0 (ABody 0) 1 AColor) /\ sets (ex_bold 1) = Some (TRun 0 (ABody 0) 1 ABold) /\ sets (ex_bold 0) = Some (TRun 0 (ABody 0) 0 ABold) /\
  formatted_first (ex_start ++ ex_color "red" :: ex_bold 1 :: [OAppend 1 0])%list /\
  ex_colors (@documents ex_lib (ex_start ++ ex_bold 1 :: ex_color "red" :: [OAppend 1 0])%list) = [[Some (None, false); Some (Some "red", true)]; [Some (None, false); Some (Some "red", true)]] /\
  ex_colors (@documents ex_lib (ex_start ++ ex_bold 0 :: ex_color "red" :: [OAppend 1 0])%list) = [[Some (None, true); Some (Some "red", false)]; [Some (None, true); Some (Some "red", false)]].
Proof. repeat (split; [reflexivity|]). split; [apply ex_first; reflexivity|]. split; vm_compute; reflexivity. Qed.
