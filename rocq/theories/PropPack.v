(** The properties of reading and writing packages. *)
From Coq Require Import String Ascii List Bool Arith NArith ZArith Lia Permutation.
From Verif Require Import GoStr Num Lib Types XmlTok Marshal Unmarshal Reload Docx Text Api Copy Keep History Lex Rels Pack SpecLex SpecNum SpecApi SpecEdit SpecPack
  RelsFacts PackFacts PackFacts2 PackFacts3 PackFacts4 PackFacts6 SpecPath SpecError PackFacts7 Bufio BufioFacts SpecDest BufioFacts2.
Import ListNotations.
Local Open Scope list_scope.
Local Open Scope string_scope.

Definition ex_lib : GoLib := {| lib_float := fun _ => None; lib_md5 := fun s => s;
  lib_imgsize := fun s => match s with String "P" _ => Some (i64_of 400, i64_of 300, "png") | _ => None end |}.
(** a document with text, a link, a picture and a template of two files, one of
    which is replaced by the document part *)
Definition ex_tmpl : tmpl := mk_tmpl "t" (fun n => if String.eqb n "xml/t/docProps/app.xml" then FData "<app/>" else if String.eqb n "xml/t/word/document.xml" then FData "<old/>" else FNone)
  ["docProps/app.xml"; "word/document.xml"].
Definition ex_doc : docx :=
  match @run_ops ex_lib [OTemplate 0 ex_tmpl; OAddPara 0; OPara 0 (ABody 0) (OText "a<b"); OPara 0 (ABody 0) (OLink "t" "http://e"); OPara 0 (ABody 0) (ODrawing false "Pic")] [new_docx] with
  | Some [d] => d
  | _ => new_docx
  end.
Definition ex_archive : archive := match pack_files ex_doc with Ok m => rev m | _ => [] end.
Lemma ex_writes : writes ex_doc (Ok ex_archive).
Proof.
  assert (E : exists m, pack_files ex_doc = Ok m /\ write_entries (rev m) = Ok (rev m)) by (eexists; split; vm_compute; reflexivity).
  destruct E as (m & E & W). unfold writes, ex_archive. rewrite E. exists (rev m). split; [apply Permutation_rev|now symmetry].
Qed.

(** C30: relationships survive saving and loading. [g0] is the registry before. *)
Theorem C30_relationships : forall g g0, rels g0 = [] -> rid g0 = 0%N -> xml_rels g -> Forall has_num (rels g) ->
  exists m, parse_doc_relation (write_xml (m_rels g)) g0 = Ok (mk_reg (rels g) (relns g) (media g0) (midx g0) m (imgid g0) (docid g0) (slow g0)) /\
  largest_id (rels g) m.
Proof. exact save_load_rels. Qed.
Print Assumptions C30_relationships.
Example C30_ex : map rel_id (rels (d_reg ex_doc)) = ["rId1"; "rId2"; "rId3"; "rId4"; "rId5"] /\
  match parse_doc_relation (write_xml (m_rels (d_reg ex_doc))) (mk_reg [] "" [] [] 0 0 0 []) with Ok g => rels g = rels (d_reg ex_doc) /\ rid g = 5%N | _ => False end.
Proof. vm_compute. auto. Qed.

(** C36: exactly the expected files are written, each once, in any order. *)
Theorem C36_parts : forall d ar, writes d (Ok ar) -> NoDup (map fst ar) /\
  forall n c, In (n, c) ar <-> exists s, c = Some s /\ part_of d n s.
Proof. exact written_parts. Qed.
Print Assumptions C36_parts.
Example C36_ex : writes ex_doc (Ok ex_archive) /\ map fst ex_archive = ["word/media/image1.png"; "word/_rels/document.xml.rels"; "word/document.xml"; "docProps/app.xml"] /\
  In ("docProps/app.xml", Some "<app/>") ex_archive /\ In ("word/media/image1.png", Some "Pic") ex_archive.
Proof. split; [exact ex_writes|]. vm_compute. auto 8. Qed.

(** C37: reading what was written. *)
Theorem C37_write_read : forall (L : GoLib) f d ar, writes d (Ok ar) -> xml_docx d -> Forall has_num (rels (d_reg d)) ->
  NoDup (map fst (media (d_reg d))) -> no_media_tmpl d ->
  exists d', unpack f ar = Ok d' /\
    d_items d' = map (reload_item (Some f)) (d_items d) /\
    rels (d_reg d') = rels (d_reg d) /\ relns (d_reg d') = relns (d_reg d) /\ largest_id (rels (d_reg d)) (rid (d_reg d')) /\
    Permutation (media (d_reg d')) (media (d_reg d)) /\
    (forall m, In m (media (d_reg d)) <-> media_of (d_reg d') (fst m) = Ok (Some m)) /\
    NoDup (t_list (d_tmpl d')) /\
    (forall n, In n (t_list (d_tmpl d')) <-> In n (t_list (d_tmpl d)) /\ n <> RELS_NAME /\ n <> DOC_NAME) /\
    t_name (d_tmpl d') = "" /\
    (plain_names d -> forall n c, In n (t_list (d_tmpl d')) -> (t_fs (d_tmpl d') n = FData c <-> t_fs (d_tmpl d) (tmpl_path (d_tmpl d) n) = FData c)).
Proof. exact @write_read. Qed.
Print Assumptions C37_write_read.
Example C37_ex : writes ex_doc (Ok ex_archive) /\ no_media_tmpl ex_doc /\ Forall has_num (rels (d_reg ex_doc)) /\ NoDup (map fst (media (d_reg ex_doc))) /\
  match @unpack ex_lib 7 ex_archive with
  | Ok d => write_xml (m_document (d_items d)) = write_xml (m_document (d_items ex_doc)) /\ media_of (d_reg d) "image1.png" = Ok (Some ("image1.png", "Pic")) /\
      t_list (d_tmpl d) = ["docProps/app.xml"] /\ t_fs (d_tmpl d) "docProps/app.xml" = FData "<app/>"
  | _ => False
  end.
Proof.
  split; [exact ex_writes|]. split; [vm_compute; intros n [<-|[<-|[]]]; reflexivity|]. split.
  - apply (max_id_inv _ 0%N 5%N). vm_compute. reflexivity.
  - split; [vm_compute; repeat constructor; intros []|]. vm_compute. repeat split.
Qed.

(** C39: an archive of ordinary files can be written again after parsing ... *)
Theorem C39_rewrite_partial : forall (L : GoLib) f a d r, ordinary a -> unpack f a = Ok d -> writes d r -> exists ar, r = Ok ar.
Proof. exact @rewrite_ok. Qed.
Print Assumptions C39_rewrite_partial.
(** ... but not every archive that Parse accepts: directory entries. *)
Definition ex_dir : archive := [("word/", Some ""); (DOC_PART, Some "<document><body></body></document>"); (RELS_PART, Some "<Relationships></Relationships>")].
Theorem C39_refuted : exists a d, @unpack ex_lib 0 a = Ok d /\ forall r, writes d r -> exists e, r = Err e.
Proof.
  exists ex_dir, (match @unpack ex_lib 0 ex_dir with Ok d => d | _ => new_docx end).
  assert (E : match @unpack ex_lib 0 ex_dir with Ok d => match pack_files d with Err _ => true | _ => false end | _ => false end = true) by (vm_compute; reflexivity).
  destruct (@unpack ex_lib 0 ex_dir) as [d| |]; [|discriminate E|discriminate E]. split; [reflexivity|]. intros r W. unfold writes in W.
  destruct (pack_files d); [discriminate E|eauto|discriminate E].
Qed.
Print Assumptions C39_refuted.
(** Exactly: if no name is longer than a ZIP archive allows and the media files
    have ordinary paths, the document can be written again if and only if every
    other entry that Parse does not read is a readable file with an ordinary path. *)
Theorem C39_exactly : forall (L : GoLib) f a d, NoDup (map fst a) -> (forall n c, In (n, c) a -> (N.of_nat (String.length n) <= 65535)%N) ->
  (forall x c, In ("word/media/" ++ x, c) a -> path ("word/media/" ++ x)) -> unpack f a = Ok d ->
  ((exists ar, writes d (Ok ar)) <-> forall n c, In (n, c) a -> ~ looked_at n -> path n /\ c <> None) /\
  (forall r, writes d r -> (exists ar, r = Ok ar) <-> exists ar, writes d (Ok ar)).
Proof. exact @rewrite_exactly. Qed.
Print Assumptions C39_exactly.
(** a name with a control character, a name with a backslash, an absolute path *)
Definition ex_named (n : string) : bool :=
  match @unpack ex_lib 0 [(n, Some "x"); ("word/media/a.png", Some "P")] with Ok d => match pack_files d with Ok _ => true | _ => false end | _ => false end.
Example C39_ex_names : map ex_named [String "001" "/b"; "a\b"; "/a"; "a/../b"; "a//b"; "a"] = [true; false; false; false; false; true].
Proof. vm_compute. reflexivity. Qed.
Definition ex_small : archive := [("docProps/app.xml", Some "<app/>"); (DOC_PART, Some "<document><body><p></p></body></document>"); (RELS_PART, Some "<Relationships></Relationships>")].
Example C39_ex : ordinary ex_small /\ match @unpack ex_lib 0 ex_small with
  | Ok d => match pack_files d with Ok m => map fst m = ["docProps/app.xml"; RELS_PART; DOC_PART] | _ => False end
  | _ => False end.
Proof.
  split; [|vm_compute; reflexivity]. split; [vm_compute; repeat (apply NoDup_cons; [intros I; repeat (destruct I as [I|I]; [discriminate I|]); exact I|]); apply NoDup_nil|].
  intros n c [E|[E|[E|[]]]]; injection E as <- <-; (split; [|split; [vm_compute; discriminate|discriminate]]); [|exact doc_plain|exact rels_plain].
  exists ["docProps"; "app.xml"]. split; [discriminate|]. split; [repeat constructor; discriminate|]. split; [reflexivity|].
  exists (map N_of_ascii (list_ascii_of_string "docProps/app.xml")). split; [cbn; repeat (apply Forall_cons; [unfold xml_char; lia|]); apply Forall_nil|reflexivity].
Qed.

(** C06: ids of relationships added to a parsed document. *)
Theorem C06_parsed_ids : forall (L : GoLib) a w0 w1 d0 l w d, parse a w0 = Ok w1 -> nth_error w1 (length w0) = Some d0 ->
  run_ops l w1 = Some w -> nth_error w (length w0) = Some d ->
  exists new, rels (d_reg d) = (rels (d_reg d0) ++ new)%list /\
    (forall id t, refer_target (d_reg d0) id = Ok t -> refer_target (d_reg d) id = Ok t) /\
    ((N.of_nat (length new) < two63)%N -> (forall r n, In r (rels (d_reg d0)) -> id_num (rel_id r) n -> (n + N.of_nat (length new) < two63)%N) ->
     NoDup (map rel_id new) /\ (forall r, In r new -> ~ In (rel_id r) (map rel_id (rels (d_reg d0))) /\ refer_target (d_reg d) (rel_id r) = Ok (rel_target r))).
Proof. exact @parsed_ids. Qed.
Print Assumptions C06_parsed_ids.
Theorem C06_parsed_link : forall (L : GoLib) a w0 w1 d0 l1 w j b t link w2 x p l2 w3 d3, parse a w0 = Ok w1 -> nth_error w1 (length w0) = Some d0 ->
  run_ops l1 w1 = Some w ->
  nth_error w j = Some x -> get_para (d_items x) b = Some p -> para_file p = Some (length w0) ->
  exec (OPara j b (OLink t link)) w = Ok w2 -> run_ops l2 w2 = Some w3 -> nth_error w3 (length w0) = Some d3 ->
  (N.of_nat (length (rels (d_reg d3)) - length (rels (d_reg d0))) < two63)%N ->
  (forall r n, In r (rels (d_reg d0)) -> id_num (rel_id r) n -> (n + N.of_nat (length (rels (d_reg d3)) - length (rels (d_reg d0))) < two63)%N) ->
  exists x1 id r, nth_error w2 j = Some x1 /\
    get_para (d_items x1) b = Some (mk_para (para_ppr p) (para_children p ++ [PLink id r])%list (para_file p)) /\
    runR_instr r = t /\ refer_target (d_reg d3) id = Ok link.
Proof. exact @parsed_link. Qed.
Print Assumptions C06_parsed_link.
(** At the largest number and above, the new id is negative and the saved file is
    rejected. *)
Theorem C06_overflow : forall (L : GoLib) a w0 w1 d0 j b t link x p w2 d2, parse a w0 = Ok w1 -> nth_error w1 (length w0) = Some d0 ->
  (exists r n, In r (rels (d_reg d0)) /\ id_num (rel_id r) n /\ (two63 - 1 <= n)%N) ->
  (forall r n, In r (rels (d_reg d0)) -> id_num (rel_id r) n -> (n < 18446744073709551615)%N) ->
  nth_error w1 j = Some x -> get_para (d_items x) b = Some p -> para_file p = Some (length w0) ->
  exec (OPara j b (OLink t link)) w1 = Ok w2 -> nth_error w2 (length w0) = Some d2 ->
  (exists r s, In r (rels (d_reg d2)) /\ rel_id r = "rId-" ++ s /\ rel_target r = link) /\
  (forall ar f d', xml_rels (d_reg d2) -> writes d2 (Ok ar) -> unpack f ar <> Ok d').
Proof. exact @overflow. Qed.
Print Assumptions C06_overflow.
Definition ex_package (id : string) (ms : archive) : archive :=
  ([(RELS_PART, Some ("<Relationships><Relationship Id=""rId9"" Target=""x""></Relationship><Relationship Id=""" ++ id ++ """ Target=""y""></Relationship></Relationships>")%string);
    (DOC_PART, Some "<document><body><p></p></body></document>")] ++ ms)%list.
Example C06_ex : match @parse ex_lib (ex_package "rId007" []) [] with
  | Ok w1 => match @run_ops ex_lib [OPara 0 (ABody 0) (OLink "t" "u"); OPara 0 (ABody 0) (OLink "t2" "v")] w1 with
             | Some [d] => map rel_id (rels (d_reg d)) = ["rId9"; "rId007"; "rId10"; "rId11"] | _ => False end
  | _ => False end.
Proof. vm_compute. reflexivity. Qed.
Example C06_ex2 : match @parse ex_lib (ex_package "rId9223372036854775807" []) [] with
  | Ok w1 => match @run_ops ex_lib [OPara 0 (ABody 0) (OLink "t" "u")] w1 with
             | Some [d] => map rel_id (rels (d_reg d)) = ["rId9"; "rId9223372036854775807"; "rId-9223372036854775808"] | _ => False end
  | _ => False end.
Proof. vm_compute. reflexivity. Qed.

(** C07: pictures added to a parsed document, when no media of the package is
    named like a picture with a number above 100000 ... *)
Theorem C07_parsed_media_partial : forall (L : GoLib) a w0 w1 d0 l w d, parse a w0 = Ok w1 -> nth_error w1 (length w0) = Some d0 ->
  run_ops l w1 = Some w -> nth_error w (length w0) = Some d -> low_images (media (d_reg d0)) ->
  exists new, media (d_reg d) = (media (d_reg d0) ++ new)%list /\
    ((100000 + N.of_nat (length new) < two63)%N ->
      NoDup (map fst new) /\ (forall m, In m new -> ~ In (fst m) (map fst (media (d_reg d0)))) /\
      (forall n, In n (map fst (media (d_reg d0))) -> media_of (d_reg d) n = media_of (d_reg d0) n) /\
      (forall ar, writes d (Ok ar) -> (forall n m, last_media (media (d_reg d0)) n m -> In ("word/media/" ++ n, Some (snd m)) ar) /\
         (forall m, In m new -> In ("word/media/" ++ fst m, Some (snd m)) ar))).
Proof. exact @parsed_media. Qed.
Print Assumptions C07_parsed_media_partial.
Theorem C07_parsed_picture_partial : forall (L : GoLib) a w0 w1 d0 l1 w j b anch data w2 x p l2 w3 d3, parse a w0 = Ok w1 -> nth_error w1 (length w0) = Some d0 ->
  low_images (media (d_reg d0)) -> run_ops l1 w1 = Some w ->
  nth_error w j = Some x -> get_para (d_items x) b = Some p -> para_file p = Some (length w0) ->
  exec (OPara j b (ODrawing anch data)) w = Ok w2 -> run_ops l2 w2 = Some w3 -> nth_error w3 (length w0) = Some d3 ->
  (100000 + N.of_nat (length (rels (d_reg d3))) < two63)%N ->
  (forall r n, In r (rels (d_reg d0)) -> id_num (rel_id r) n -> (n + N.of_nat (length (rels (d_reg d3))) < two63)%N) ->
  exists x1 r c pc embed name, nth_error w2 j = Some x1 /\
    get_para (d_items x1) b = Some (mk_para (para_ppr p) (para_children p ++ [PRun r])%list (para_file p)) /\
    runR_children r = [c] /\ drawing_pics c = [pc] /\ pic_embed pc = Some embed /\
    refer_target (d_reg d3) embed = Ok ("media/" ++ name) /\
    media_of (d_reg d3) name = Ok (Some (name, data)).
Proof. exact @parsed_picture. Qed.
Print Assumptions C07_parsed_picture_partial.
(** In general the pictures added are named image100001, image100002 and so on,
    and exactly the media files of these names are overwritten. *)
Theorem C07_exactly : forall (L : GoLib) a w0 w1 d0 l w d, parse a w0 = Ok w1 -> nth_error w1 (length w0) = Some d0 ->
  run_ops l w1 = Some w -> nth_error w (length w0) = Some d ->
  exists new, media (d_reg d) = (media (d_reg d0) ++ new)%list /\
    ((100000 + N.of_nat (length new) < two63)%N ->
      (forall k m, nth_error new k = Some m -> exists fmt, fst m = picture_name (100001 + N.of_nat k) fmt) /\
      (forall n, ~ In n (map fst new) -> media_of (d_reg d) n = media_of (d_reg d0) n) /\
      (forall m, In m new -> media_of (d_reg d) (fst m) = Ok (Some m)) /\
      (forall ar, writes d (Ok ar) ->
         (forall n m, last_media (media (d_reg d0)) n m -> (In ("word/media/" ++ n, Some (snd m)) ar <-> ~ In n (map fst new) \/ In (n, snd m) new)) /\
         (forall m, In m new -> In ("word/media/" ++ fst m, Some (snd m)) ar))).
Proof. exact @parsed_media_exactly. Qed.
Print Assumptions C07_exactly.
(** So a picture image100001.png that is already there is overwritten. *)
Definition ex_old : world := match @parse ex_lib (ex_package "rId8" [("word/media/image100001.png", Some "old")]) [] with Ok w => w | _ => [] end.
Definition ex_new : world := match @run_ops ex_lib [OPara 0 (ABody 0) (ODrawing false "Pnew")] ex_old with Some w => w | None => [] end.
Definition ex_at (w : world) : docx := match w with d :: _ => d | [] => new_docx end.
Theorem C07_refuted : exists a w1 w d0 d, @parse ex_lib a [] = Ok w1 /\ nth_error w1 0 = Some d0 /\
  media_of (d_reg d0) "image100001.png" = Ok (Some ("image100001.png", "old")) /\
  @run_ops ex_lib [OPara 0 (ABody 0) (ODrawing false "Pnew")] w1 = Some w /\ nth_error w 0 = Some d /\
  media_of (d_reg d) "image100001.png" = Ok (Some ("image100001.png", "Pnew")) /\
  (exists m, pack_files d = Ok m) /\ forall ar n, writes d (Ok ar) -> ~ In (n, Some "old") ar.
Proof.
  exists (ex_package "rId8" [("word/media/image100001.png", Some "old")]), ex_old, ex_new, (ex_at ex_old), (ex_at ex_new).
  assert (A : forall (x : res world), match x with Ok _ => true | _ => false end = true -> x = Ok (match x with Ok w => w | _ => [] end)) by (intros [| |] E; [reflexivity|discriminate E|discriminate E]).
  assert (B : forall (x : option world), match x with Some _ => true | _ => false end = true -> x = Some (match x with Some w => w | _ => [] end)) by (intros [|] E; [reflexivity|discriminate E]).
  assert (C : forall (x : world), match x with [] => false | _ => true end = true -> nth_error x 0 = Some (ex_at x)) by (intros [|] E; [discriminate E|reflexivity]).
  split; [apply A; vm_compute; reflexivity|]. split; [apply C; vm_compute; reflexivity|]. split; [vm_compute; reflexivity|].
  split; [apply B; vm_compute; reflexivity|]. split; [apply C; vm_compute; reflexivity|]. split; [vm_compute; reflexivity|].
  assert (E : match pack_files (ex_at ex_new) with Ok m => forallb (fun x => match snd x with Some s => negb (String.eqb s "old") | None => true end) m | _ => false end = true) by (vm_compute; reflexivity).
  destruct (pack_files (ex_at ex_new)) as [m| |] eqn:P; [|discriminate E|discriminate E]. split; [eauto|]. intros ar n W I.
  unfold writes in W. rewrite P in W. destruct W as (o & PM & W). symmetry in W. apply write_entries_ok in W. destruct W as (-> & _).
  apply (Permutation_in _ (Permutation_sym PM)) in I. rewrite forallb_forall in E. specialize (E _ I). discriminate E.
Qed.
Print Assumptions C07_refuted.
Example C07_ex : match @parse ex_lib (ex_package "rId8" [("word/media/image7.png", Some "old"); ("word/media/x.bin", Some "bin")]) [] with
  | Ok w1 => match @run_ops ex_lib [OPara 0 (ABody 0) (ODrawing false "Pnew")] w1 with
             | Some [d] => map fst (media (d_reg d)) = ["image7.png"; "x.bin"; "image100001.png"] | _ => False end
  | _ => False end.
Proof. vm_compute. reflexivity. Qed.

(** C38: [body] is written before Close, [tail] by Close. What arrives is a
    beginning of the archive; with a nil error at most the 4096 bytes buffered
    before Close, and what Close writes, are missing ... *)
Theorem C38_arrived_partial : forall D body tail ok out, write_to D body tail = (ok, out) ->
  (exists r, sconcat body ++ sconcat tail = out ++ r) /\
  (ok = true -> String.length (sconcat body) <= String.length out + 64 * 64).
Proof. exact arrived. Qed.
Print Assumptions C38_arrived_partial.
Theorem C38_complete_partial : forall D, (forall n p, D n p = None) -> forall body tail, write_to D body tail = (true, sconcat body ++ sconcat tail).
Proof. exact never_fails. Qed.
Print Assumptions C38_complete_partial.
(** ... Exactly: the file is given to the destination in pieces that depend on the
    file alone. What arrives is what it takes of them up to the first one it does
    not take; this failure is reported if and only if it is one of the pieces
    written before Close, which are the files but for the last 4096 bytes. *)
Theorem C38_exactly : forall body tail, exists before after,
  sconcat before ++ sconcat after = sconcat body ++ sconcat tail /\
  (exists rest, sconcat body = sconcat before ++ rest /\ String.length rest <= 64 * 64) /\
  Forall (fun p => p <> "") (before ++ after)%list /\
  forall D, write_to D body tail = (fst (deliver D 0 before), snd (deliver D 0 (before ++ after)%list)).
Proof. exact exactly_arrived. Qed.
Print Assumptions C38_exactly.
(** ... but a destination that takes nothing at all goes unnoticed for every
    archive whose files need no more than the buffer. *)
Theorem C38_refuted : forall body tail, String.length (sconcat body) <= 64 * 64 -> exists D, write_to D body tail = (true, "").
Proof. intros body tail L. exists (fun _ _ => Some 0). exact (nothing_arrives body tail L). Qed.
Print Assumptions C38_refuted.
Example C38_ex2 : deliver (fun n _ => if Nat.eqb n 1 then Some 2 else None) 0 ["PKa"; "file"; "dir"] = (false, "PKafi").
Proof. reflexivity. Qed.
Example C38_ex : write_to (fun n _ => if Nat.eqb n 0 then Some 2 else None) ["PK"; "file"] ["directory"] = (true, "PK") /\
  write_to (fun n _ => None) ["PK"; "file"] ["directory"] = (true, "PKfiledirectory").
Proof. vm_compute. auto. Qed.
