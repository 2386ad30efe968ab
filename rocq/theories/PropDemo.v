(** The document that the command line program makes when it is not told to read one. *)
From Coq Require Import String Ascii List Bool Arith NArith ZArith.
From Verif Require Import GoStr Num Lib Types Docx Api Keep Copy Text Pack Theme History SpecApi SpecEdit SpecPack SpecCmd SpecSize SpecDemo Cmd Demo CmdFacts2 DemoFacts4.
Import ListNotations.
Local Open Scope list_scope.
Local Open Scope string_scope.

(** C78: whatever the flags, a run that comes to its end prints these lines: the
    texts of the document come from the file it has written and read again.
    [entries d] are the entries of that file; every order that WriteTo may choose
    is allowed. With -c the two shapes are left out, the pictures are not. *)
Theorem C78_prints : forall (L : GoLib) x sys fl rd entries, (forall d, (exists ar, writes d (Ok ar)) -> writes d (Ok (entries d))) ->
  forall p1 p2 p3 w1 h1 w2 h2 w3 h3, picture_in rd "testdata/fumiama.JPG" "jpeg" p1 w1 h1 -> picture_in rd "testdata/fumiama2x.webp" "webp" p2 w2 h2 ->
  picture_in rd "testdata/fumiamayoko.png" "png" p3 w3 h3 -> forall es u, demo x sys fl rd entries = (es, Some u) ->
  lines es = ([("Preparing new document to write at " ++ fl_loc fl)%string; ("Document writen. " ++ newline ++ "Now trying to read it")%string; "Plain text:"] ++
              demo_texts (lib_md5 p1) (lib_md5 p2) (lib_md5 p3) (negb (fl_clean fl)) ++ ["End of main"])%list.
Proof. exact @prints. Qed.
Print Assumptions C78_prints.

(** Without -u, -s and -d the run comes to its end, and makes one file: a document
    with the default template, the pictures as they are in their files (one of
    them twice), these paragraphs and tables, and the drawings in these sizes. *)
Theorem C78_makes : forall (L : GoLib) x sys fl rd entries, (forall d, (exists ar, writes d (Ok ar)) -> writes d (Ok (entries d))) ->
  forall p1 p2 p3 w1 h1 w2 h2 w3 h3, picture_in rd "testdata/fumiama.JPG" "jpeg" p1 w1 h1 -> picture_in rd "testdata/fumiama2x.webp" "webp" p2 w2 h2 ->
  picture_in rd "testdata/fumiamayoko.png" "png" p3 w3 h3 -> sys_create sys (fl_loc fl) = true -> sys_write sys (fl_loc fl) = true ->
  fl_unm fl = false -> fl_split fl = None -> (fl_dup fl <= 1)%N ->
  exists es d, demo x sys fl rd entries = (es, Some tt) /\ made es = [fl_loc fl] /\ written es = [(fl_loc fl, d)] /\
    d_tmpl d = default_theme x /\ media (d_reg d) = [("image1.jpeg", p1); ("image2.jpeg", p1); ("image3.webp", p2); ("image4.png", p3)] /\
    map kind_of (d_items d) = [KSect; KPara; KPara; KPara; KPara; KPara; KPara; KPara; KPara; KPara; KTable; KPara; KTable; KPara] /\
    looks (d_items d) = demo_looks /\ tables (d_items d) = demo_tables /\ flat_map outline (drawings (d_items d)) = demo_outlines /\
    ((0 < iv w1 < 2 ^ 32)%Z -> (0 <= iv h1 < 2 ^ 32)%Z -> (0 < iv w2 < 2 ^ 32)%Z -> (0 <= iv h2 < 2 ^ 32)%Z -> (0 < iv w3 < 2 ^ 32)%Z -> (0 <= iv h3 < 2 ^ 32)%Z ->
     let s1 := quarter (fitted (iv w1) (iv h1)) in let s2 := four_fifths (fitted (iv w1) (iv h1)) in let s3 := four_fifths (fitted (iv w2) (iv h2)) in let s4 := fitted (iv w3) (iv h3) in
     map outer_size (drawings (d_items d)) = [Some s1; Some s2; Some s3; Some s4; Some (808355, 238760); Some (808355, 238760)]%Z /\
     map inner_size (drawings (d_items d)) = [Some s1; Some s2; Some s3; Some s4; None; None] /\
     map placed (firstn 1 (drawings (d_items d))) = [Some (1, fst s1, Some 50000)]%Z).
Proof. exact @makes. Qed.
Print Assumptions C78_makes.

(** It comes to its end exactly if the three pictures can be read, have a width,
    and the file can be made and written. *)
Theorem C78_finishes : forall (L : GoLib) x sys fl rd entries, (forall d, (exists ar, writes d (Ok ar)) -> writes d (Ok (entries d))) ->
  (forall data w h fmt, rd "testdata/fumiama.JPG" = Ok data -> lib_imgsize data = Some (w, h, fmt) -> fmt = "jpeg") ->
  (forall data w h fmt, rd "testdata/fumiama2x.webp" = Ok data -> lib_imgsize data = Some (w, h, fmt) -> fmt = "webp") ->
  (forall data w h fmt, rd "testdata/fumiamayoko.png" = Ok data -> lib_imgsize data = Some (w, h, fmt) -> fmt = "png") ->
  fl_unm fl = false -> fl_split fl = None -> (fl_dup fl <= 1)%N ->
  (snd (demo x sys fl rd entries) = Some tt <->
   (exists data w h, picture_in rd "testdata/fumiama.JPG" "jpeg" data w h) /\ (exists data w h, picture_in rd "testdata/fumiama2x.webp" "webp" data w h) /\
   (exists data w h, picture_in rd "testdata/fumiamayoko.png" "png" data w h) /\ sys_create sys (fl_loc fl) = true /\ sys_write sys (fl_loc fl) = true).
Proof. exact @finishes. Qed.
Print Assumptions C78_finishes.

(** If one of the pictures cannot be read, is no picture or has no width, the
    program panics before it makes the file; of the file in its place, nothing is lost. *)
Theorem C78_undrawn : forall (L : GoLib) x sys fl rd entries,
  forall f, In f ["testdata/fumiama.JPG"; "testdata/fumiama2x.webp"; "testdata/fumiamayoko.png"] -> (forall fmt data w h, ~ picture_in rd f fmt data w h) ->
  demo x sys fl rd entries = ([EPrint ("Preparing new document to write at " ++ fl_loc fl)], None).
Proof. exact @undrawn. Qed.
Print Assumptions C78_undrawn.

(** Pictures of 400 x 300, 300 x 400 and 1000 x 500 *)
Definition demo_lib : GoLib := {| lib_float := fun _ => None; lib_md5 := fun s => "#" ++ s;
  lib_imgsize := fun s => if String.eqb s "J" then Some (i64_of 400, i64_of 300, "jpeg") else if String.eqb s "W" then Some (i64_of 300, i64_of 400, "webp") else if String.eqb s "P" then Some (i64_of 1000, i64_of 500, "png") else None |}.
Definition demo_rd (f : string) : res string :=
  if String.eqb f "testdata/fumiama.JPG" then Ok "J" else if String.eqb f "testdata/fumiama2x.webp" then Ok "W" else if String.eqb f "testdata/fumiamayoko.png" then Ok "P" else Err "open".
Definition demo_sys : system := mk_system (fun _ => true) (fun _ => true).
Definition demo_fl : flags := mk_flags "new-file.docx" true false None true 1%N.
Definition demo_entries (d : docx) : archive := match bind (pack_files d) write_entries with Ok ar => ar | _ => [] end.
Definition demo_assets : assets := mk_assets "<app/>" "<core/>" "<theme/>" "<fonts/>" "<styles/>".
Example C78_ex : (forall d, (exists ar, writes d (Ok ar)) -> writes d (Ok (demo_entries d))) /\
  @picture_in demo_lib demo_rd "testdata/fumiama.JPG" "jpeg" "J" (i64_of 400) (i64_of 300) /\ @picture_in demo_lib demo_rd "testdata/fumiama2x.webp" "webp" "W" (i64_of 300) (i64_of 400) /\
  @picture_in demo_lib demo_rd "testdata/fumiamayoko.png" "png" "P" (i64_of 1000) (i64_of 500) /\
  quarter (fitted 400 300) = (1318577, 988933)%Z /\ four_fifths (fitted 400 300) = (4219448, 3164585)%Z /\ four_fifths (fitted 300 400) = (2109724, 2812964)%Z /\ fitted 1000 500 = (5274310, 2637155)%Z /\
  nth 4 (demo_texts "#J" "#W" "#P" false) "" = "![inlnim 图片 2](#J)" ++ String "009" (String "009" "![inlnim 图片 3](#W)").
Proof.
  split.
  - intros d K. apply packs_writes in K. unfold packs, demo_entries, writes in *. destruct (pack_files d) as [m| |]; cbn [bind] in *; try discriminate. exists m. split; [apply Permutation.Permutation_refl|].
    destruct (write_entries m); congruence || discriminate.
  - repeat split; try (vm_compute; reflexivity); vm_compute; discriminate.
Qed.
(** [testdata/fumiama.JPG] missing *)
Example C78_missing : @demo demo_lib demo_assets demo_sys demo_fl (fun f => if String.eqb f "testdata/fumiama2x.webp" then Ok "W" else Err "open") demo_entries =
  ([EPrint "Preparing new document to write at new-file.docx"], None).
Proof. vm_compute. reflexivity. Qed.
