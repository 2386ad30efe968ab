(** C62: Parse and String give the text of the file. *)
From Coq Require Import String Ascii List Bool Arith NArith ZArith.
From Verif Require Import GoStr Num Lib Types XmlTok Unmarshal Docx Text Lex Pack SpecXml SpecStrict SpecPack SpecRead ReadFacts2 ReadFacts3.
Import ListNotations.
Local Open Scope list_scope.
Local Open Scope string_scope.

(** Every paragraph of the body and of the cells of its tables, in order, shows
    what [reads_para] reads in its element. *)
Theorem C62_text : forall (L : GoLib) w f d, nth_error w f = Some d ->
  forall ts items, numeric ts -> ~ In TEof ts -> parse_document (Some f) ts = (items, SOk) ->
  exists pre q a c post, (ts = pre ++ toks (Elem q a c) ++ post)%list /\ prolog pre /\
    (tidy (Elem q a c) -> Forall2 (shows w (rels (d_reg d))) (blocks (Elem q a c)) items).
Proof. exact @loaded_shows. Qed.
Print Assumptions C62_text.

(** The same for a package and the bytes of its main part. *)
Theorem C62_package : forall (L : GoLib) f a d w s, NoDup (map fst a) -> In (DOC_NAME, Some s) a -> unpack f a = Ok d -> nth_error w f = Some d -> numeric (lex s) ->
  exists pre q at_ c post, (lex s = pre ++ toks (Elem q at_ c) ++ post)%list /\ prolog pre /\
    (tidy (Elem q at_ c) -> Forall2 (shows w (rels (d_reg d))) (blocks (Elem q at_ c)) (d_items d)).
Proof. exact @package_shows. Qed.
Print Assumptions C62_package.

(** A paragraph without drawings has one reading. *)
Theorem C62_unique : forall rs c s s', (forall r, In r c -> named "r" r = true -> ~ In BDrawing (run_bits r)) ->
  reads_para rs c s -> reads_para rs c s' -> s = s'.
Proof. exact reading_unique. Qed.
Print Assumptions C62_unique.

(** A file as it is found: links with a field instruction and with plain text, a
    tab, a break, an insertion, a CDATA section, a picture in an
    mc:AlternateContent, a table. The text of the insertion and of the second
    link is not shown, and of the text with a CDATA section only the last
    piece. *)
Definition ex_lib : GoLib := {| lib_float := fun _ => None; lib_md5 := fun s => s; lib_imgsize := fun _ => None |}.
Definition ex_xml : string :=
  "<?xml version='1.0'?><w:document><w:body><w:p><w:pPr><w:jc w:val='center'/></w:pPr><w:r><w:t>one</w:t><w:tab/><w:t xml:space='preserve'>two &amp; </w:t><w:br/></w:r>" ++
  "<w:hyperlink r:id='rId7'><w:r><w:instrText>site</w:instrText></w:r></w:hyperlink><w:ins><w:r><w:t>inserted</w:t></w:r></w:ins>" ++
  "<w:hyperlink w:anchor='here'><w:r><w:t>linked</w:t></w:r></w:hyperlink><w:r><w:t>three<![CDATA[four]]></w:t></w:r></w:p>" ++
  "<w:tbl><w:tr><w:tc><w:p><w:r><w:t>cell</w:t></w:r></w:p></w:tc></w:tr></w:tbl>" ++
  "<w:p><w:r><mc:AlternateContent><mc:Choice Requires='wps'><w:drawing/></mc:Choice><mc:Fallback><w:t>old</w:t></mc:Fallback></mc:AlternateContent><w:t>five</w:t></w:r></w:p>" ++
  "</w:body></w:document>".
Definition ex_rels : string :=
  "<Relationships><Relationship Id='rId7' Type='t' Target='https://a.b/' TargetMode='External'/></Relationships>".
Definition ex_archive : archive := [(DOC_NAME, Some ex_xml); (RELS_NAME, Some ex_rels)].
Definition ex_doc : docx := match @unpack ex_lib 0 ex_archive with Ok d => d | _ => new_docx end.
Definition ex_loaded : bool := match @unpack ex_lib 0 ex_archive with Ok _ => true | _ => false end.
Definition plain_token (t : token) : bool :=
  match t with TStart q a => forallb (fun x => negb (is_int_attr (snd q) (snd (fst x)))) a | _ => true end.
Lemma plain_numeric : forall ts, forallb plain_token ts = true -> @numeric ex_lib ts.
Proof.
  intros ts F q a I q' v J E. rewrite forallb_forall in F. specialize (F _ I). cbn [plain_token] in F. rewrite forallb_forall in F. specialize (F _ J).
  cbn [fst snd] in F. rewrite E in F. discriminate F.
Qed.
Lemma ex_unpacked : match @unpack ex_lib 0 ex_archive with Ok _ => true | _ => false end = true -> @unpack ex_lib 0 ex_archive = Ok ex_doc.
Proof. unfold ex_doc. destruct (@unpack ex_lib 0 ex_archive); try discriminate. reflexivity. Qed.
Definition ex_strings : list (res string) :=
  flat_map (fun x => match x with
                     | IPara p => [@para_string ex_lib [ex_doc] p]
                     | ITable t => flat_map (fun r => flat_map (fun c => map (@para_string ex_lib [ex_doc]) (cell_paras c)) (row_cells r)) (table_rows t)
                     | ISect _ => []
                     end) (d_items ex_doc).
Example C62_ex : NoDup (map fst ex_archive) /\ @unpack ex_lib 0 ex_archive = Ok ex_doc /\ @numeric ex_lib (lex ex_xml) /\
  ex_strings = [Ok ("one" ++ String "009" ("two & " ++ String "010" "[site](https://a.b/)[](here)four")); Ok "cell"; Ok "five"].
Proof.
  split; [repeat constructor; cbn; intuition discriminate|]. split; [apply ex_unpacked; vm_compute; reflexivity|].
  split; [apply plain_numeric; vm_compute; reflexivity|vm_compute; reflexivity].
Qed.
(** the element of the file meets the condition of the theorems *)
Definition ex_p : tree :=
  Elem (w "p") [] [Elem (w "r") [] [Elem ("mc", "AlternateContent") [] [Elem ("mc", "Choice") [(nn "Requires", "wps")] [Elem (w "drawing") [] []];
    Elem ("mc", "Fallback") [] [Elem (w "t") [] [Chr "old"]]]; Elem (w "t") [] [Chr "five"]]].
Example C62_ex_reading : tidy ex_p /\ reads_para [] (children ex_p) "five".
Proof.
  split; [cbn; intuition discriminate|]. apply (rp_run [] _ [] "five" ""); [reflexivity| |constructor].
  cbn. apply (rd_drawing ""); [now left|]. apply (rd_text "five" [] ""). constructor.
Qed.
