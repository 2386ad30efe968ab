(** Documents whose children are not in the order of the standard. *)
From Coq Require Import String Ascii List Bool Arith NArith ZArith Lia.
From Verif Require Import GoStr Num Lib Types XmlTok Marshal Unmarshal Docx Lex Rels Pack SpecLex SpecApi SpecPack History SpecGrammar GrammarFacts2.
Import ListNotations.
Local Open Scope list_scope.
Local Open Scope string_scope.

Definition ex_ppr : list op := [ONew; OAddPara 0; OPara 0 (ABody 0) (OStyle "Title"); OPara 0 (ABody 0) (OJc "center")].
Definition ex_numpr : list op := [ONew; OAddPara 0; OPara 0 (ABody 0) (ONum "1" "0")].
Definition doc_package (s : string) : archive := [("word/document.xml", Some s); ("word/_rels/document.xml.rels", Some "<Relationships></Relationships>")].
Definition ex_tblpr : list op := [OParse (doc_package "<w:document><w:body><w:tbl><w:tblPr><w:tblStyle w:val='Grid'/><w:tblpPr w:tblpX='5'/></w:tblPr></w:tbl></w:body></w:document>")].
Definition ex_tcpr : list op := [OParse (doc_package "<w:document><w:body><w:tbl><w:tr><w:tc><w:tcPr><w:gridSpan w:val='2'/><w:vMerge/></w:tcPr></w:tc></w:tr></w:tbl></w:body></w:document>")].

Section S.
Context {L : GoLib}.
Definition one_doc (o : list op) (t : tree) : Prop := match run_ops o [] with Some [d] => m_docx d = t | _ => False end.
Lemma misplaced : forall o t p q a c r l, one_doc o t -> lex (write_xml t) = TMisc :: TChar (String "010" "") :: toks t ->
  sub_at p t = Some (Elem q a c) -> rule_of grammar q = Some r -> r_content r = Seq l ->
  existsb (fun k => String.eqb (fst k) (fst q) && String.eqb (snd k) (snd q)) (but q own_order) = false -> ~ slots_fit l c ->
  exists w d s, run_ops o [] = Some w /\ nth_error w 0 = Some d /\ part_of d DOC_NAME s /\ ~ follows grammar (but q own_order) (q_ "w" "document") (lex s).
Proof.
  intros o t p q a c r l D X S R Q N F. unfold one_doc in D. destruct (run_ops o []) as [[|d [|]]|]; try contradiction.
  exists [d], d, (write_xml (m_docx d)). split; [reflexivity|]. split; [reflexivity|]. split; [apply part_doc|].
  rewrite D. intros K. apply F. eapply slots_of; [|exact R|exact Q|exact N]. eapply conforms_at; [|exact S]. eapply follows_tree; eauto.
Qed.
Ltac nofit := let H := fresh in intros H; repeat match goal with
  | H : slots_fit [] (_ :: _) |- _ => inversion H
  | H : slots_fit (_ :: _) _ |- _ => inversion H; clear H; subst
  | H : In _ _ |- _ => cbn in H; repeat (destruct H as [H|H]; [try discriminate H|]); try contradiction
  end.
Ltac mis p := eapply (misplaced _ _ p); [vm_compute; reflexivity|vm_compute; reflexivity|vm_compute; reflexivity|vm_compute; reflexivity|reflexivity|vm_compute; reflexivity|nofit].
Theorem own_order_needed : forall q, In q own_order -> exists l w d s, run_ops l [] = Some w /\ nth_error w 0 = Some d /\ part_of d DOC_NAME s /\
  ~ follows grammar (but q own_order) (q_ "w" "document") (lex s).
Proof.
  intros q [<-|[<-|[<-|[<-|[]]]]].
  - exists ex_ppr. mis [0; 0; 0].
  - exists ex_numpr. mis [0; 0; 0; 0].
  - exists ex_tblpr. mis [0; 0; 0].
  - exists ex_tcpr. mis [0; 0; 0; 0; 0].
Qed.
End S.
