(** C64: which calls panic, on documents of any origin. *)
From Coq Require Import String Ascii List Bool Arith NArith ZArith.
From Verif Require Import GoStr Num Lib Types Docx Api Text Pack History SpecApi SpecPanic SpecBreak BreakFacts PropPanic.
Import ListNotations.
Local Open Scope list_scope.
Local Open Scope string_scope.

(** After any history of calls, a call panics exactly if [breaks] lists it. The
    condition [apart] concerns AppendFile and SplitByParagraph only. *)
Theorem C64_calls : forall (L : GoLib) l w o, run_ops l [] = Some w -> apart o w -> (exec o w = Panic <-> breaks o w).
Proof. exact @any_panics. Qed.
Print Assumptions C64_calls.

(** Without LoadBodyItems and with no entry twice in the opened packages, that
    condition holds unless a document is appended to itself. *)
Theorem C64_own : forall (L : GoLib) l w o, Forall own_pieces l -> run_ops l [] = Some w -> other_document o ->
  (exec o w = Panic <-> breaks o w).
Proof. exact @own_panics. Qed.
Print Assumptions C64_own.

(** String of any paragraph and of any table *)
Theorem C64_strings : forall (L : GoLib) l w, run_ops l [] = Some w ->
  (forall p, para_string w p = Panic <-> string_breaks w p) /\ (forall t, table_string w t = Panic <-> table_breaks w t).
Proof. exact @any_strings. Qed.
Print Assumptions C64_strings.

(** A package with a run without properties, a picture whose target is
    "media/a.png", one whose target is "a.png", and a table without properties. *)
Definition pic_xml (id : string) : string :=
  "<w:p><w:r><w:drawing><wp:inline><a:graphic><a:graphicData><pic:pic><pic:nvPicPr></pic:nvPicPr><pic:blipFill><a:blip r:embed=""" ++ id ++
  """></a:blip></pic:blipFill></pic:pic></a:graphicData></a:graphic></wp:inline></w:drawing></w:r></w:p>".
Definition package (id : string) : archive :=
  [("word/_rels/document.xml.rels",
    Some "<Relationships><Relationship Id=""rId1"" Type=""t"" Target=""media/a.png""/><Relationship Id=""rId2"" Type=""t"" Target=""a.png""/></Relationships>");
   ("word/document.xml",
    Some ("<w:document><w:body><w:p><w:r><w:t>a</w:t></w:r></w:p>" ++ pic_xml id ++
          "<w:tbl><w:tr><w:tc></w:tc></w:tr></w:tbl></w:body></w:document>"));
   ("word/media/a.png", Some "P")].
Definition ex_ops2 : list op := [ONew; OAddPara 0; OParse (package "rId1"); OParse (package "rId2"); OParse (package "rId3")].
Example C64_ex : Forall own_pieces ex_ops2 /\ ok_ops ex_ops2 = true /\
  map (panics ex_ops2)
    [OPara 1 (ABody 0) (ORun 0 RBold); OPara 1 (ABody 0) (ORun 0 RAddTab); OPara 1 (ABody 0) (OText "b"); OPara 1 (ABody 0) (OLink "b" "c");
     OTableJc 1 2 "center"; OCellShade 1 2 0 0 "clear" "auto" "FF0000"; OCellPara 1 2 0 0;
     OAppend 0 1; OAppend 0 2; OAppend 0 3; OSplit 1 (fun _ => Ok true); OSplit 2 (fun _ => Ok true); OSplit 1 (fun _ => Panic);
     ODetached (mk_para None [] None) (OLink "b" "c"); ODetached (mk_para None [] None) (OText "b")] =
    [true; false; false; false;
     true; true; false;
     false; true; false; false; true; true;
     true; false].
Proof.
  assert (N : forall id, NoDup (map fst (package id))).
  { intros id. cbn. constructor; [|constructor; [|constructor; [|constructor]]]; cbn; intuition discriminate. }
  split; [|split; vm_compute; reflexivity]. constructor; [exact I|]. constructor; [exact I|]. do 3 (constructor; [apply N|]). constructor.
Qed.
Definition shown (l : list op) : list bool :=
  match @run_ops ex_lib l [] with
  | Some w => map (fun x => match nth_error (d_items x) 1 with
                            | Some (IPara p) => match @para_string ex_lib w p with Ok _ => true | _ => false end
                            | _ => true
                            end) w
  | None => []
  end.
(** String of the picture: found, a target shorter than "media/", no such relationship *)
Example C64_ex_strings : shown ex_ops2 = [true; true; false; true].
Proof. vm_compute. reflexivity. Qed.
