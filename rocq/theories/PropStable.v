(** Properties of loading, saving and loading again. *)
From Coq Require Import String Ascii List Bool Arith NArith ZArith Lia Permutation.
From Verif Require Import GoStr Num Lib Types XmlTok Marshal Unmarshal Docx Api Copy Keep History Lex Rels Pack SpecLex SpecApi SpecEdit SpecPack SpecStable StableFacts StableFacts2
  RelsFacts PackFacts3 PackFacts5 PropXml PropPack.
Import ListNotations.
Local Open Scope list_scope.
Local Open Scope string_scope.

(** C51: whatever bytes a document is loaded from, saving what was loaded and
    loading it again gives the same body, with the flags of table looks reduced
    to digits, and reports success. *)
Theorem C51_only_flags_change : forall (L : GoLib) f s, let items := fst (parse_document f (lex s)) in
  parse_document f (lex (write_xml (m_document items))) = (map reflag_item items, SOk).
Proof. exact @first_cycle_bytes. Qed.
Print Assumptions C51_only_flags_change.

(** Nothing at all changes if the flags were digits. *)
Theorem C51_digits_stay : forall (L : GoLib) f s, let items := fst (parse_document f (lex s)) in Forall digit_flag (body_flags items) ->
  parse_document f (lex (write_xml (m_document items))) = (items, SOk).
Proof. exact @digits_stay_bytes. Qed.
Print Assumptions C51_digits_stay.

(** The second and every later round changes nothing. *)
Theorem C51_settles : forall (L : GoLib) f s, let once := fst (parse_document f (lex (write_xml (m_document (fst (parse_document f (lex s))))))) in
  parse_document f (lex (write_xml (m_document once))) = (once, SOk).
Proof. exact @later_cycles_bytes. Qed.
Print Assumptions C51_settles.

(** The exception is real: a document that loads without error and has another
    body after saving and loading. *)
Theorem C51_flags_do_change : exists s, forall (L : GoLib) f, let items := fst (parse_document f (lex s)) in
  snd (parse_document f (lex s)) = SOk /\ fst (parse_document f (lex (write_xml (m_document items)))) <> items.
Proof. exact flag_witness. Qed.
Print Assumptions C51_flags_do_change.

(** The same for tokens that come from elsewhere than bytes. *)
Theorem C51_tokens : forall (L : GoLib) f ts, let items := fst (parse_document f ts) in
  parse_document f (toks (m_document items)) = (map reflag_item items, SOk).
Proof. exact @first_cycle. Qed.
Print Assumptions C51_tokens.

(** a file with things that are not kept when a document is built by hand: list
    numbering, adjustments of a shape, attributes of a tab; and with a character
    reference and a CDATA section *)
Definition ex_loaded : string :=
  "<w:document><w:body><w:p><w:pPr><w:numPr><w:numId w:val='1'/></w:numPr><w:jc w:val='center'/></w:pPr><w:r><w:t>a&#233;<![CDATA[<b>]]></w:t><w:tab w:val='x'/></w:r></w:p>" ++
  "<w:tbl><w:tblPr><w:tblLook w:val='04A0' w:firstRow='1' w:lastRow='0'/></w:tblPr><w:tblGrid><w:gridCol w:w='100'/></w:tblGrid></w:tbl><w:sectPr/></w:body></w:document>".
Example C51_ex : let items := fst (@parse_document ex_lib (Some 0) (lex ex_loaded)) in
  snd (@parse_document ex_lib (Some 0) (lex ex_loaded)) = SOk /\ List.length items = 3 /\ Forall digit_flag (body_flags items) /\ List.length (body_flags items) = 6.
Proof.
  cbv zeta. split; [vm_compute; reflexivity|]. split; [vm_compute; reflexivity|]. split; [|vm_compute; reflexivity].
  vm_compute. repeat constructor; discriminate.
Qed.

(** The same for whole packages of ordinary files: reading, writing and reading
    again succeeds and gives the same document: the same body as above, the same
    relationships, media and other files and the same counters. *)
Theorem C51_package : forall (L : GoLib) f a d r, ordinary a -> unpack f a = Ok d -> writes d r ->
  exists ar d', r = Ok ar /\ unpack f ar = Ok d' /\
    d_items d' = map reflag_item (d_items d) /\
    rels (d_reg d') = rels (d_reg d) /\ relns (d_reg d') = relns (d_reg d) /\ rid (d_reg d') = rid (d_reg d) /\ imgid (d_reg d') = imgid (d_reg d) /\
    Permutation (media (d_reg d')) (media (d_reg d)) /\ (forall n, media_of (d_reg d') n = media_of (d_reg d) n) /\
    (forall n, In n (t_list (d_tmpl d')) <-> In n (t_list (d_tmpl d))) /\
    (forall n c, In n (t_list (d_tmpl d)) -> (t_fs (d_tmpl d') n = FData c <-> t_fs (d_tmpl d) n = FData c)).
Proof. exact @package_cycle. Qed.
Print Assumptions C51_package.

(** C52: parts that are not made from the document are written exactly as they
    were read, whatever was done to the document in between, and no part is added. *)
Theorem C52_other_parts : forall (L : GoLib) a w0 w1 l w d ar, ordinary a -> parse a w0 = Ok w1 -> run_ops l w1 = Some w -> Forall (no_template (length w0)) l ->
  nth_error w (length w0) = Some d -> writes d (Ok ar) ->
  forall n c, n <> RELS_NAME -> n <> DOC_NAME -> has_prefix "word/media/" n = false -> (In (n, c) ar <-> In (n, c) a).
Proof. exact @edited_parts. Qed.
Print Assumptions C52_other_parts.
(** Pictures keep their bytes if none of them has a number that a new picture
    gets (see C07 for what happens otherwise). *)
Theorem C52_media : forall (L : GoLib) a w0 w1 l w d ar, ordinary a -> parse a w0 = Ok w1 -> run_ops l w1 = Some w ->
  nth_error w (length w0) = Some d -> writes d (Ok ar) ->
  (forall n fmt c, In ("word/media/" ++ picture_name n fmt, c) a -> (n <= 100000)%N) -> (100000 + N.of_nat (length (media (d_reg d))) < two63)%N ->
  forall n c, In ("word/media/" ++ n, c) a -> In ("word/media/" ++ n, c) ar.
Proof. exact @edited_media. Qed.
Print Assumptions C52_media.
(** Without edits all parts but the two made from the document are the same. *)
Theorem C52_unedited : forall (L : GoLib) f a d ar, ordinary a -> unpack f a = Ok d -> writes d (Ok ar) ->
  forall n c, n <> RELS_NAME -> n <> DOC_NAME -> (In (n, c) ar <-> In (n, c) a).
Proof. exact @other_parts. Qed.
Print Assumptions C52_unedited.

(** a package with a style sheet and a picture; a link and a picture are added *)
Definition ex_styled : archive := (ex_small ++ [("word/styles.xml", Some "<styles/>"); ("word/media/image7.png", Some "Old")])%list.
Lemma ex_styled_ordinary : ordinary ex_styled.
Proof.
  split; [vm_compute; repeat (apply NoDup_cons; [intros I; repeat (destruct I as [I|I]; [discriminate I|]); exact I|]); apply NoDup_nil|].
  intros n c [E|[E|[E|[E|[E|[]]]]]]; injection E as <- <-; (split; [|split; [vm_compute; discriminate|discriminate]]); try exact doc_plain; try exact rels_plain.
  - exists ["docProps"; "app.xml"]. split; [discriminate|]. split; [repeat constructor; discriminate|]. split; [reflexivity|].
    apply (legal_xml _ _ (le_n _)). vm_compute. reflexivity.
  - exists ["word"; "styles.xml"]. split; [discriminate|]. split; [repeat constructor; discriminate|]. split; [reflexivity|].
    apply (legal_xml _ _ (le_n _)). vm_compute. reflexivity.
  - exists ["word"; "media"; "image7.png"]. split; [discriminate|]. split; [repeat constructor; discriminate|]. split; [reflexivity|].
    apply (legal_xml _ _ (le_n _)). vm_compute. reflexivity.
Qed.
Example C51_package_ex : match @unpack ex_lib 0 ex_styled with
  | Ok d => match pack_files d with Ok ar => List.length ar = 5 /\ In ("word/styles.xml", Some "<styles/>") ar | _ => False end
  | _ => False end.
Proof. vm_compute. auto. Qed.
Definition ex_edits : list op := [OPara 0 (ABody 0) (OLink "t" "http://e"); OPara 0 (ABody 0) (ODrawing false "Pic"); OAddPara 0].
Example C52_ex : Forall (no_template 0) ex_edits /\ match @parse ex_lib ex_styled [] with
  | Ok w1 => match @run_ops ex_lib ex_edits w1 with
             | Some [d] => match pack_files d with
                           | Ok ar => map fst ar = ["docProps/app.xml"; "word/styles.xml"; RELS_PART; DOC_PART; "word/media/image7.png"; "word/media/image100001.png"] /\
                               In ("word/styles.xml", Some "<styles/>") ar /\ In ("word/media/image7.png", Some "Old") ar
                           | _ => False end
             | _ => False end
  | _ => False end.
Proof. split; [repeat constructor|]. vm_compute. auto 12. Qed.
