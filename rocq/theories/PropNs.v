(** The properties of namespace prefixes. *)
From Coq Require Import String Ascii List Bool Arith NArith ZArith.
From Verif Require Import GoStr Num Lib Types XmlTok Marshal Unmarshal Reload Docx Api Copy Pack History Lex SpecLex SpecPack SpecNs SpecNs2 NsFacts NsFacts2 NsFacts3.
Import ListNotations.
Local Open Scope list_scope.
Local Open Scope string_scope.

Definition ex_lib : GoLib := {| lib_float := fun _ => None; lib_md5 := fun s => s;
  lib_imgsize := fun s => match s with String "P" _ => Some (i64_of 400, i64_of 300, "png") | _ => None end |}.
Definition ex_ops : list op :=
  [ONew; OAddPara 0; OPara 0 (ABody 0) (OText "a<b"); OPara 0 (ABody 0) (OLink "t" "http://e"); OPara 0 (ABody 0) (ODrawing false "Pic"); OPara 0 (ABody 0) (ODrawing true "Pic")].

(** C53. The full statement: whatever document is saved, every prefix used in
    word/document.xml is declared there. It holds for documents whose graphics,
    frame locks and pictures carry their own declarations. *)
Theorem C53_declared_partial : forall gp d s, declared gp d -> part_of d DOC_NAME s -> ns_tokens [] (lex s) = true.
Proof. exact ns_part'. Qed.
Print Assumptions C53_declared_partial.

(** Every document that is made by calls is such a document: new documents,
    text, links, tables, pictures, shapes, resizing, dropping, splitting and
    appending, in any order. Only loading can bring in others. *)
Theorem C53_history : forall (L : GoLib) gp l w d s, run_ops l [] = Some w -> Forall (brings_declared gp) l -> In d w -> part_of d DOC_NAME s ->
  ns_tokens [] (lex s) = true.
Proof. exact ns_history'. Qed.
Print Assumptions C53_history.
Definition ex_doc : docx := match @run_ops ex_lib ex_ops [] with Some [d] => d | _ => new_docx end.
Example C53_history_ex : Forall (@brings_declared false ex_lib) ex_ops /\ length (d_items ex_doc) = 1 /\
  exists s, part_of ex_doc DOC_NAME s /\
    existsb (fun t => match t with TStart (p, n) a => (String.eqb p "pic" && String.eqb n "pic" && declares a "pic")%bool | _ => false end) (lex s) = true.
Proof. split; [repeat constructor|]. split; [vm_compute; reflexivity|]. eexists. split; [apply part_doc|]. vm_compute. reflexivity. Qed.

(** Such a document still is one after it has been saved and loaded, when no
    picture is in a group. *)
Theorem C53_reload : forall f l, forallb (nd_item false) l = true -> forallb (nd_item false) (map (reload_item f) l) = true.
Proof. exact ns_reload. Qed.
Print Assumptions C53_reload.
Example C53_reload_ex : forallb (nd_item false) (d_items ex_doc) = true /\ Nat.leb 50 (length (values (m_document (d_items ex_doc)))) = true.
Proof. vm_compute. auto. Qed.

(** The test tells documents with undeclared prefixes apart. *)
Example C53_tells : ns_tokens [] (lex "<w:p><w:r/></w:p>") = false /\ ns_tokens [] (lex "<w:p xmlns:w='u'><w:r a='1' w:b='2'/></w:p>") = true /\
  ns_tokens [] (lex "<p><q xmlns:w='u'/><w:r/></p>") = false /\ ns_tokens [] (lex "<w:p xmlns:w=''/>") = false /\ ns_tokens [] (lex "<p w:a='1'/>") = false.
Proof. vm_compute. auto. Qed.

(** Correct documents that are not correct any more after loading and saving. *)
Definition spoils (s : string) : Prop :=
  ns_tokens [] (lex s) = true /\ snd (@parse_document ex_lib None (lex s)) = SOk /\
  ns_tokens [] (lex (write_xml (m_document (fst (@parse_document ex_lib None (lex s)))))) = false.
Definition in_run (s : string) : string :=
  "<w:document xmlns:w='u' xmlns:wp='v' xmlns:wpg='x'><w:body><w:p><w:r><w:drawing><wp:inline>" ++ s ++ "</wp:inline></w:drawing></w:r></w:p></w:body></w:document>".
(** a frame without locks, as Word writes for text boxes *)
Theorem C53_frame_refuted : spoils (in_run "<wp:cNvGraphicFramePr/>").
Proof. vm_compute. auto. Qed.
Print Assumptions C53_frame_refuted.
(** the prefix declared further out *)
Theorem C53_outer_refuted : spoils ("<w:document xmlns:w='u' xmlns:wp='v' xmlns:a='x'><w:body><w:p><w:r><w:drawing><wp:inline><a:graphic><a:graphicData uri='y'/></a:graphic></wp:inline></w:drawing></w:r></w:p></w:body></w:document>").
Proof. vm_compute. auto. Qed.
Print Assumptions C53_outer_refuted.
(** a picture in a group *)
Theorem C53_group_refuted : spoils (in_run "<a:graphic xmlns:a='y'><a:graphicData uri='z'><wpg:wgp><pic:pic xmlns:pic='p'/></wpg:wgp></a:graphicData></a:graphic>").
Proof. vm_compute. auto. Qed.
Print Assumptions C53_group_refuted.
(** a package without document part: the namespace names are never set *)
Theorem C53_empty_refuted : exists d s, @unpack ex_lib 0 [] = Ok d /\ part_of d DOC_NAME s /\ ns_tokens [] (lex s) = false.
Proof. do 2 eexists. split; [reflexivity|]. split; [apply part_doc|]. vm_compute. reflexivity. Qed.
Print Assumptions C53_empty_refuted.

(** Exactly which documents are saved correctly, whatever their origin: the
    namespace names of the document are set, every picture has a namespace name of
    its own, and every graphic and frame lock that is not inside another graphic. *)
Theorem C53_exactly : forall d s, part_of d DOC_NAME s ->
  (ns_tokens [] (lex s) = true <-> d_ns d = true /\ forallb dp_item (d_items d) = true).
Proof. exact declared_exactly. Qed.
Print Assumptions C53_exactly.
(** a text box in a graphic, in it a graphic without declaration; the same graphic outside *)
Definition ex_inner : string := "<w:p><w:r><w:drawing><wp:inline><wp:cNvGraphicFramePr/><a:graphic><a:graphicData uri='z'/></a:graphic></wp:inline></w:drawing></w:r></w:p>".
Definition ex_items (s : string) : list item := fst (@parse_document ex_lib None (lex s)).
Example C53_exactly_ex :
  forallb dp_item (ex_items (in_run ("<a:graphic xmlns:a='y'><a:graphicData uri='z'><wps:wsp><wps:txbx><w:txbxContent>" ++ ex_inner ++ "</w:txbxContent></wps:txbx></wps:wsp></a:graphicData></a:graphic>"))) = true /\
  forallb (nd_item true) (ex_items (in_run ("<a:graphic xmlns:a='y'><a:graphicData uri='z'><wps:wsp><wps:txbx><w:txbxContent>" ++ ex_inner ++ "</w:txbxContent></wps:txbx></wps:wsp></a:graphicData></a:graphic>"))) = false /\
  forallb dp_item (ex_items ("<w:document xmlns:w='u' xmlns:wp='v' xmlns:a='y'><w:body>" ++ ex_inner ++ "</w:body></w:document>")) = false.
Proof. vm_compute. auto. Qed.
