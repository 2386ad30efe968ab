(** Properties of the bytes of the XML parts. *)
From Coq Require Import String Ascii List Bool Arith NArith ZArith Lia.
From Verif Require Import GoStr Num Lib Types XmlTok Marshal Unmarshal Reload Lex SpecLex LexFacts LexFacts3 LexFacts2 PropXml.
Import ListNotations.
Local Open Scope list_scope.
Local Open Scope string_scope.

(** C40: an element written with the XML header reads back as exactly its tokens
    (behind the header and the line break after it), whatever characters its
    texts and attribute values consist of. *)
Theorem C40_written_reads_back : forall t, (exists q a c, t = Elem q a c) -> good_shape t = true -> Forall xml_string (values t) ->
  lex (write_xml t) = (TMisc :: TChar (String "010" "") :: toks t)%list.
Proof. exact lex_write. Qed.
Print Assumptions C40_written_reads_back.

Example C40_ex :
  let t := Elem (w "p") [(w "val", "a<b>" ++ String QUOTE ("'&amp;" ++ String "013" (String "010" "")))] [Elem (w "t") [] [Chr ("]]></w:t><w:t>" ++ encode 233 ++ encode 128512)]; Elem (w "br") [] []] in
  good_shape t = true /\ Forall xml_string (values t) /\ lex (write_xml t) = (TMisc :: TChar (String "010" "") :: toks t)%list.
Proof.
  split; [reflexivity|]. split; [|vm_compute; reflexivity]. apply Forall_cons; [|apply Forall_cons; [|apply Forall_nil]].
  - exists [97; 60; 98; 62; 34; 39; 38; 97; 109; 112; 59; 13; 10]%N. split; [repeat (apply Forall_cons; [unfold xml_char; lia|]); apply Forall_nil|vm_compute; reflexivity].
  - exists [93; 93; 62; 60; 47; 119; 58; 116; 62; 60; 119; 58; 116; 62; 233; 128512]%N. split; [repeat (apply Forall_cons; [unfold xml_char; lia|]); apply Forall_nil|vm_compute; reflexivity].
Qed.

(** values that are not made of XML characters (any bytes at all) are replaced,
    but break nothing: names, attributes and nesting read back the same *)
Theorem C40_any_bytes : forall t, (exists q a c, t = Elem q a c) -> good_shape t = true ->
  exists t', cleaned_tree t t' /\ lex (write_xml t) = (TMisc :: TChar (String "010" "") :: toks t')%list.
Proof. exact lex_write_any. Qed.
Print Assumptions C40_any_bytes.

Example C40_any_ex :
  let t := Elem (w "t") [] [Chr (String "000" (String "255" "<x>"))] in
  good_shape t = true /\ lex (write_xml t) = (TMisc :: TChar (String "010" "") :: toks (Elem (w "t") [] [Chr (encode 65533 ++ encode 65533 ++ "<x>")]))%list.
Proof. split; [reflexivity|vm_compute; reflexivity]. Qed.

(** every document is such an element *)
Theorem C40_document : forall l, good_shape (m_document l) = true /\
  exists t', cleaned_tree (m_document l) t' /\ lex (write_xml (m_document l)) = (TMisc :: TChar (String "010" "") :: toks t')%list.
Proof. exact (fun l => conj (ok_document l) (write_document l)). Qed.
Print Assumptions C40_document.

(** C29 for the bytes of word/document.xml *)
Theorem C29_bytes : forall (L : GoLib) f l, Forall xml_string (values (m_document l)) ->
  parse_document f (lex (write_xml (m_document l))) = (map (reload_item f) l, SOk).
Proof. exact @read_document. Qed.
Print Assumptions C29_bytes.

Example C29_bytes_ex :
  let l := [IPara (mk_para None [PRun (mk_runR "" None "" [RText (mk_text "preserve" "a<&>b")])] (Some 0))] in
  @parse_document ex_lib (Some 0) (lex (write_xml (m_document l))) = (l, SOk) /\ In "a<&>b" (values (m_document l)).
Proof. split; [vm_compute; reflexivity|cbn; tauto]. Qed.
