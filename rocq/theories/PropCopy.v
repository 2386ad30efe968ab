(** Properties of AppendFile and SplitByParagraph. *)
From Coq Require Import String Ascii List Bool Arith NArith ZArith.
From Verif Require Import GoStr Num Lib Types Docx Text Api Keep Copy History Pack SpecApi SpecEdit SpecNum SpecPack SpecCopy CopyFacts CopyFacts2 CopyMedia.
Import ListNotations.
Local Open Scope list_scope.
Local Open Scope string_scope.

Definition ex_lib : GoLib := {| lib_float := fun _ => None; lib_md5 := fun s => s;
  lib_imgsize := fun s => match s with String "P" _ => Some (i64_of 400, i64_of 300, "png") | _ => None end |}.
(** a document with a link, a picture attached to it, a table and text, such as
    Parse returns it, at position 1; an empty one at position 0 *)
Definition ex_inline : inline := set_inlineR_file (Some 1) (pic_inline (i64_of 5) (i64_of 6) "n" "rId5" (i64_of 7) (i64_of 8)).
Definition ex_src : docx :=
  mk_docx
    [IPara (mk_para None [PRun (api_run [RText (mk_text "" "chapter")])] (Some 1));
     IPara (mk_para None [PLink "rId4" (mk_runR "" None "see" []); PRun (api_run [RDraw (Some ex_inline) None])] (Some 1));
     IPara (mk_para None [PRun (api_run [RText (mk_text "" "chapter")]); PLink "rId4" (mk_runR "" None "see" [])] (Some 1));
     ITable (mk_table None (Some []) [mk_row None [mk_cell None [mk_para None [PLink "rId4" (mk_runR "" None "see" [])] (Some 1)] (Some 1)]])]
    (snd (add_image "jpeg" "DATA" (snd (add_link_relation "http://e" empty_reg)))) no_tmpl true.
Definition ex_world : world := [new_docx; ex_src].
Definition ex_sep (p : para) : res bool :=
  match para_children p with PRun r :: _ => match runR_children r with RText _ :: _ => Ok true | _ => Ok false end | _ => Ok false end.

(** C19: the parts and the pieces of the body. *)
Theorem C19_split_partition : forall i sep w w' d, nth_error w i = Some d -> split_by_paragraph i sep w = Ok w' ->
  exists ps ds, pieces sep (d_items d) ps /\ w' = (w ++ ds)%list /\ length ds = length ps /\
    forall k s e, nth_error ps k = Some s -> nth_error ds k = Some e -> d_tmpl e = d_tmpl d /\ map kind_of (d_items e) = map kind_of s.
Proof. exact split_partition. Qed.
Print Assumptions C19_split_partition.
Example C19_ex : exists a b, split_by_paragraph 1 ex_sep ex_world = Ok (ex_world ++ [a; b])%list /\
  map kind_of (d_items a) = [KPara; KPara] /\ map kind_of (d_items b) = [KPara; KTable].
Proof. do 2 eexists. split; [vm_compute; reflexivity|]. split; reflexivity. Qed.

(** C20: copies and what they refer to. [same_item w to g x y] says that [y] is
    [x] with its links and pictures renumbered for the destination [to], and
    that every link and picture of [x] that resolves in [w] resolves to the
    same target or bytes in [g]. *)
Theorem C20_split_same : forall i sep w w' d, nth_error w i = Some d -> split_by_paragraph i sep w = Ok w' ->
  exists ps, concat ps = d_items d /\ length w' = length w + length ps /\
    forall k s, nth_error ps k = Some s -> exists e, nth_error w' (length w + k) = Some e /\
      ((N.of_nat (length (rels (d_reg e))) < two63)%N -> Forall2 (same_item w (length w + k) (d_reg e)) s (d_items e)).
Proof. exact split_same. Qed.
Print Assumptions C20_split_same.
Theorem C20_append_same : forall (L : GoLib) w0 l w d from s w' l2 w2 d2,
  run_ops l (w0 ++ [new_docx])%list = Some w -> nth_error w (length w0) = Some d -> nth_error w from = Some s ->
  append_file (length w0) from w = Ok w' -> run_ops l2 w' = Some w2 -> nth_error w2 (length w0) = Some d2 ->
  (N.of_nat (length (rels (d_reg d2))) < two63)%N ->
  exists d' new, nth_error w' (length w0) = Some d' /\ d_items d' = (d_items d ++ new)%list /\
    Forall2 (same_item w (length w0) (d_reg d2)) (d_items s) new.
Proof. exact @append_links_pictures. Qed.
Print Assumptions C20_append_same.
Theorem C20_same_text : forall (L : GoLib) w to d2 w2 p p', same_para w to (d_reg d2) p p' -> nth_error w2 to = Some d2 ->
  plain p -> links_resolve w p -> para_string w2 p' = para_string w p.
Proof. exact @same_para_string. Qed.
Print Assumptions C20_same_text.
Example C20_ex : exists w' d', append_file 0 1 ex_world = Ok w' /\ nth_error w' 0 = Some d' /\
  refer_target (d_reg d') "rId4" = Ok "http://e" /\ picture_at (d_reg d') "rId5" "media/image1.jpeg" "DATA" /\
  map (fun p => @para_string ex_lib w' p) (skipn 2 (body_paras (d_items d'))) = [Ok "chapter[see](http://e)"; Ok "[see](http://e)"] /\
  picture_in ex_world (Some 1) "rId5" "media/image1.jpeg" "DATA" /\ of_kind "media/image1.jpeg" "jpeg" /\ link_in ex_world (Some 1) "rId4" "http://e".
Proof.
  do 2 eexists. split; [vm_compute; reflexivity|]. split; [reflexivity|]. split; [reflexivity|]. split.
  { exists "image1.jpeg", "image1.jpeg". vm_compute. auto. }
  split; [vm_compute; reflexivity|]. split; [|split].
  - exists 1, ex_src. split; auto. split; auto. exists "image1.jpeg", "image1.jpeg". vm_compute. auto.
  - exists "media/image1". auto.
  - exists 1, ex_src. vm_compute. auto.
Qed.

(** C21, in full: no call of String, AppendFile or SplitByParagraph panics on
    documents built with New and Add*. It fails: a picture added by the API has
    no document pointer. *)
Theorem C21_refuted : exists (L : GoLib) l w d p, run_ops l [] = Some w /\ nth_error w 0 = Some d /\ d_items d = [IPara p] /\
  para_string w p = Panic /\ append_file 1 0 w = Panic /\ split_by_paragraph 0 (fun _ => Ok false) w = Panic.
Proof.
  exists ex_lib, [ONew; ONew; OAddPara 0; OPara 0 (ABody 0) (ODrawing false "P")]. do 3 eexists.
  split; [vm_compute; reflexivity|]. split; [reflexivity|]. split; [reflexivity|]. vm_compute. auto.
Qed.
Print Assumptions C21_refuted.
(** Every picture added by the API does that. *)
Theorem C21_picture_panics : forall (L : GoLib) anch data w p w1 p1, add_drawing anch data w p = Ok (w1, p1) -> exists r, p1 = add_child (PRun r) p /\
  forall p2, In (PRun r) (para_children p2) ->
    (forall w2, para_string w2 p2 = Panic) /\
    (forall w2 to from s, nth_error w2 from = Some s -> In p2 (body_paras (d_items s)) -> append_file to from w2 = Panic) /\
    (forall w2 i s sep, nth_error w2 i = Some s -> In p2 (body_paras (d_items s)) -> (forall p e, sep p <> Err e) -> split_by_paragraph i sep w2 = Panic).
Proof. exact @picture_panics. Qed.
Print Assumptions C21_picture_panics.
Example C21_ex_picture : exists w1 p1, @add_drawing ex_lib true "P" [new_docx] (mk_para None [] (Some 0)) = Ok (w1, p1).
Proof. do 2 eexists. vm_compute. reflexivity. Qed.
(** Without pictures the claim holds, for any number of documents. *)
Theorem C21_without_pictures_partial : forall (L : GoLib) l w, run_ops l [] = Some w -> Forall (fun o => picture_free o = true) l ->
  (forall i d p, nth_error w i = Some d -> In p (body_paras (d_items d)) -> exists s, para_string w p = Ok s) /\
  (forall i j, i < length w -> j < length w -> exists w', append_file i j w = Ok w') /\
  (forall i sep, i < length w -> (forall p, exists b, sep p = Ok b) -> exists w', split_by_paragraph i sep w = Ok w').
Proof. exact @picture_free_total. Qed.
Print Assumptions C21_without_pictures_partial.
Example C21_ex : exists l w, Forall (fun o => picture_free o = true) l /\ @run_ops ex_lib l [] = Some w /\ length w = 4.
Proof.
  exists [ONew; ONew; OAddPara 0; OPara 0 (ABody 0) (OLink "t" "u"); OPara 0 (ABody 0) (OShape true (i64_of 1) (i64_of 1) "n" "b" "p" None);
          OAppend 1 0; OAppend 1 1; OAddPara 1; OSplit 1 (fun p => match para_children p with [] => Ok true | _ => Ok false end)].
  eexists. split; [repeat constructor|]. split; [vm_compute; reflexivity|]. reflexivity.
Qed.

(** C22: AppendFile leaves the rest alone. For the media the destination is a
    document made by New: see the refutation below. *)
Theorem C22_append_undisturbed : forall to from w w' d s, nth_error w to = Some d -> nth_error w from = Some s -> append_file to from w = Ok w' ->
  length w' = length w /\ (forall i, i <> to -> nth_error w' i = nth_error w i) /\
  exists d' new, nth_error w' to = Some d' /\ d_items d' = (d_items d ++ new)%list /\ map kind_of new = map kind_of (d_items s) /\
    d_tmpl d' = d_tmpl d /\
    (exists r, rels (d_reg d') = (rels (d_reg d) ++ r)%list) /\ (exists m, media (d_reg d') = (media (d_reg d) ++ m)%list) /\
    (forall id t, refer_target (d_reg d) id = Ok t -> refer_target (d_reg d') id = Ok t) /\
    (forall id t, refer_id (d_reg d) id = Ok t -> refer_id (d_reg d') id = Ok t).
Proof. exact append_keeps. Qed.
Print Assumptions C22_append_undisturbed.
Theorem C22_media_kept_partial : forall (L : GoLib) w0 l w d from w' d',
  run_ops l (w0 ++ [new_docx])%list = Some w -> nth_error w (length w0) = Some d ->
  append_file (length w0) from w = Ok w' -> nth_error w' (length w0) = Some d' ->
  (N.of_nat (length (rels (d_reg d'))) < two63)%N ->
  forall n m, media_of (d_reg d) n = Ok (Some m) -> media_of (d_reg d') n = Ok (Some m).
Proof. exact @append_media_kept. Qed.
Print Assumptions C22_media_kept_partial.
Example C22_ex : exists w d w', @run_ops ex_lib [OAddPara 1; OPara 1 (ABody 0) (ODrawing false "P")] ([mk_docx [] empty_reg no_tmpl true] ++ [new_docx])%list = Some w /\
  nth_error w 1 = Some d /\ media_of (d_reg d) "image1.png" = Ok (Some ("image1.png", "P")) /\ append_file 1 0 w = Ok w'.
Proof. do 3 eexists. split; [vm_compute; reflexivity|]. split; [reflexivity|]. split; [reflexivity|]. vm_compute. reflexivity. Qed.
(** C22, in full, would have the media of every destination kept. It fails for a
    destination made by LoadBodyItems: the copied picture takes over the name. *)
Theorem C22_refuted : exists w w' d d' n m m', made d /\ nth_error w 0 = Some d /\ append_file 0 1 w = Ok w' /\ nth_error w' 0 = Some d' /\
  media_of (d_reg d) n = Ok (Some m) /\ media_of (d_reg d') n = Ok (Some m') /\ m <> m'.
Proof.
  exists [load_body_items [] [("image1.jpeg", "OLD")]; ex_src]. do 2 eexists. eexists. exists "image1.jpeg". do 2 eexists.
  split; [apply made_load|]. split; [reflexivity|]. split; [vm_compute; reflexivity|]. split; [reflexivity|]. split; [vm_compute; reflexivity|].
  split; [vm_compute; reflexivity|]. discriminate.
Qed.
Print Assumptions C22_refuted.
(** Exactly which lookups change, for a destination of any origin: those of the
    names under which the copied pictures are stored; of these names the last
    picture stored is found. *)
Theorem C22_exactly : forall (L : GoLib) l w to from w' d d', run_ops l [] = Some w -> nth_error w to = Some d ->
  append_file to from w = Ok w' -> nth_error w' to = Some d' ->
  exists new, media (d_reg d') = (media (d_reg d) ++ new)%list /\
    (forall n, ~ In n (map fst new) -> media_of (d_reg d') n = media_of (d_reg d) n) /\
    (forall n m, last_media new n m -> media_of (d_reg d') n = Ok (Some m)).
Proof. exact @append_media_exactly. Qed.
Print Assumptions C22_exactly.
(** These names are distinct and have the numbers following those of the pictures
    added before; the numbers begin at 1, and at 100001 in a parsed document. *)
Theorem C22_names : forall (L : GoLib) w0 d0 l w from w' d d' b, (made d0 /\ b = 0%N) \/ (exists a, parse a w0 = Ok (w0 ++ [d0])%list /\ b = 100000%N) ->
  run_ops l (w0 ++ [d0])%list = Some w -> nth_error w (length w0) = Some d ->
  append_file (length w0) from w = Ok w' -> nth_error w' (length w0) = Some d' ->
  exists old new, media (d_reg d) = (media (d_reg d0) ++ old)%list /\ media (d_reg d') = (media (d_reg d) ++ new)%list /\
    ((b + N.of_nat (length old + length new) < two63)%N ->
     NoDup (map fst new) /\
     forall k m, nth_error new k = Some m -> exists fmt, fst m = picture_name (b + N.of_nat (length old + k + 1)) fmt).
Proof. exact @append_media_names. Qed.
Print Assumptions C22_names.
(** a loaded document with media of its own and a picture added, then two appended *)
Definition ex_pic (id : string) : string :=
  "<w:p><w:r><w:drawing><wp:inline><a:graphic><a:graphicData><pic:pic><pic:nvPicPr></pic:nvPicPr><pic:blipFill><a:blip r:embed=""" ++ id ++
  """></a:blip></pic:blipFill></pic:pic></a:graphicData></a:graphic></wp:inline></w:drawing></w:r></w:p>".
Definition ex_pics : archive :=
  [("word/_rels/document.xml.rels",
    Some "<Relationships><Relationship Id=""rId1"" Type=""t"" Target=""media/a.png""/><Relationship Id=""rId2"" Type=""t"" Target=""media/b.png""/></Relationships>");
   ("word/document.xml", Some ("<w:document><w:body>" ++ ex_pic "rId1" ++ ex_pic "rId2" ++ "</w:body></w:document>"));
   ("word/media/a.png", Some "A"); ("word/media/b.png", Some "B")].
Definition ex_l22 : list op := [OLoad [] [("image3.png", "OLD"); ("image7.png", "KEPT")]; OAddPara 0; OPara 0 (ABody 0) (ODrawing false "P1"); OParse ex_pics; OAppend 0 1].
Example C22_ex_exactly : option_map (map (fun d => (map fst (media (d_reg d)), media_of (d_reg d) "image3.png", media_of (d_reg d) "image7.png"))) (@run_ops ex_lib ex_l22 []) =
  Some [(["image3.png"; "image7.png"; "image1.png"; "image2.png"; "image3.png"], Ok (Some ("image3.png", "B")), Ok (Some ("image7.png", "KEPT")));
        (["a.png"; "b.png"], Ok None, Ok None)].
Proof. vm_compute. reflexivity. Qed.
