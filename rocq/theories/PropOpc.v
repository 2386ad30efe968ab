(** Which saved packages are complete. *)
From Coq Require Import String Ascii List Bool Arith NArith ZArith Lia Permutation.
From Verif Require Import GoStr Num Lib Types XmlTok Docx Api Keep Copy Marshal Lex Rels Pack History Theme SpecLex SpecPack SpecEdit SpecOpc PackFacts OpcFacts OpcFacts2.
Import ListNotations.
Local Open Scope list_scope.
Local Open Scope string_scope.

(** C57: a document that was not loaded and has the default theme is saved as a
    complete package when, and only when, the default theme knows the extension
    of every picture. *)
Theorem C57_new : forall (L : GoLib) x l w i d ar, run_ops l [] = Some w -> Forall no_parse l -> nth_error w i = Some d ->
  d_tmpl d = default_theme x -> writes d (Ok ar) -> (forall m, In m (media (d_reg d)) -> xml_string (fst m)) ->
  (complete (files_of ar) <-> forall m, In m (media (d_reg d)) -> exists e, extension (fst m) e /\ In (lower e) typed).
Proof. intros L x l w i d ar R F N T W. exact (default_complete x d ar T W (history_placed l w i d R F N)). Qed.
Print Assumptions C57_new.

(** A package that was complete when it was opened is complete when it is saved
    after any calls, when and only when its list of content types, which is never
    changed, has types for the pictures that were added. *)
Theorem C57_edited : forall (L : GoLib) a w0 w1 l w d ar, ordinary a -> parse a w0 = Ok w1 -> complete (files_of a) -> plain_rels a ->
  run_ops l w1 = Some w -> Forall (no_template (length w0)) l -> nth_error w (length w0) = Some d -> writes d (Ok ar) ->
  (forall m, In m (media (d_reg d)) -> (forall c, ~ files_of a ("word/media/" ++ fst m) c) -> xml_string (fst m)) ->
  exists ct, files_of a TYPES_NAME ct /\
    (complete (files_of ar) <-> forall m, In m (media (d_reg d)) -> (forall c, ~ files_of a ("word/media/" ++ fst m) c) -> exists ty, content_type ct ("word/media/" ++ fst m) ty).
Proof. exact @edited_complete. Qed.
Print Assumptions C57_edited.
Theorem C57_saved : forall (L : GoLib) f a d ar, ordinary a -> unpack f a = Ok d -> complete (files_of a) -> plain_rels a -> writes d (Ok ar) -> complete (files_of ar).
Proof. exact @saved_complete. Qed.
Print Assumptions C57_saved.

(** Without a template, or with one that has no list of content types, no saved
    package is complete. *)
Theorem C57_no_theme : forall d ar, writes d (Ok ar) -> ~ In TYPES_NAME (t_list (d_tmpl d)) -> ~ complete (files_of ar).
Proof. exact no_types. Qed.
Print Assumptions C57_no_theme.

(** ** cases *)
Definition ex_lib : GoLib := {| lib_float := fun _ => None; lib_md5 := fun s => s;
  lib_imgsize := fun s => match s with String "P" _ => Some (i64_of 400, i64_of 300, "png") | String "G" _ => Some (i64_of 4, i64_of 3, "gif") | _ => None end |}.
Definition ex_assets := mk_assets "<app/>" "<core/>" "<theme/>" "<fonts/>" "<styles/>".
Definition ex_ops (data : string) : list op :=
  [ONew; OTemplate 0 (default_theme ex_assets); OAddPara 0; OPara 0 (ABody 0) (OText "a"); OPara 0 (ABody 0) (OLink "t" "http://e"); OPara 0 (ABody 0) (ODrawing false data)].
Definition ex_world (data : string) : world := match @run_ops ex_lib (ex_ops data) [] with Some w => w | None => [] end.
Definition ex_doc (data : string) : docx := match ex_world data with [d] => d | _ => new_docx end.
Definition ex_archive (d : docx) : archive := match pack_files d with Ok m => m | _ => [] end.
Lemma ex_writes : forall d, match pack_files d with Ok m => forallb (fun x => match write_entry x with Ok _ => true | _ => false end) m | _ => false end = true -> writes d (Ok (ex_archive d)).
Proof.
  intros d E. unfold writes, ex_archive. destruct (pack_files d) as [m| |]; try discriminate. exists m. split; [apply Permutation_refl|]. symmetry. apply write_entries_all.
  apply Forall_forall. intros (k, v) I. rewrite forallb_forall in E. specialize (E _ I). unfold write_entry in *. cbn [fst snd] in *. destruct (65535 <? _)%N; [discriminate|]. destruct v; [|discriminate].
  destruct (_ && _); [discriminate|]. reflexivity.
Qed.
Lemma ex_ran : forall data, match @run_ops ex_lib (ex_ops data) [] with Some [_] => true | _ => false end = true -> @run_ops ex_lib (ex_ops data) [] = Some (ex_world data) /\ nth_error (ex_world data) 0 = Some (ex_doc data).
Proof. intros data E. unfold ex_doc, ex_world. destruct (@run_ops _ _ _) as [[|d [|]]|]; try discriminate. auto. Qed.
Lemma ex_no_parse : forall data, Forall no_parse (ex_ops data).
Proof. intros data. unfold ex_ops. repeat constructor. Qed.
Lemma ex_ext : forall x, count "." x = 0 -> extension ("image1." ++ x) x.
Proof. intros x C. exists "image1". auto. Qed.
Lemma ex_xml : forall n, xml_string ("image1." ++ match n with O => "png" | _ => "gif" end).
Proof. intros [|n]; apply (StableFacts2.legal_xml _ _ (le_n _)); vm_compute; reflexivity. Qed.
Lemma ex_png_saved : writes (ex_doc "Pic") (Ok (ex_archive (ex_doc "Pic"))).
Proof. apply ex_writes. vm_compute. reflexivity. Qed.
Lemma ex_png_media : map fst (media (d_reg (ex_doc "Pic"))) = ["image1.png"].
Proof. vm_compute. reflexivity. Qed.
Lemma ex_only : forall (l : list mediaT) n m, map fst l = [n] -> In m l -> fst m = n.
Proof. intros l n m E I. apply (in_map fst) in I. rewrite E in I. destruct I as [<-|[]]. reflexivity. Qed.
Lemma ex_xml2 : forall (l : list mediaT) m, map fst l = ["image1.png"; "image100001.gif"] -> In m l -> xml_string (fst m).
Proof. intros l m E I. apply (in_map fst) in I. rewrite E in I. destruct I as [<-|[<-|[]]]; apply (StableFacts2.legal_xml _ _ (le_n _)); vm_compute; reflexivity. Qed.
Lemma ex_has : forall (l : list mediaT), map fst l = ["image1.png"; "image100001.gif"] -> exists m, In m l /\ fst m = "image100001.gif".
Proof. intros [|x [|y l]] E; try discriminate E. exists y. split; [right; now left|]. now injection E. Qed.
Lemma ex_inj : forall x y : string, Some (Some x) = Some (Some y) -> x = y.
Proof. intros x y E. now injection E. Qed.
Lemma ex_none : forall (a : archive) n, existsb (fun e => String.eqb (fst e) n) a = false -> forall c, ~ files_of a n c.
Proof.
  intros a n E c J. assert (K : existsb (fun e => String.eqb (fst e) n) a = true) by (apply existsb_exists; exists (n, Some c); split; [exact J|apply String.eqb_refl]). congruence.
Qed.
Lemma ex_gif_untyped : forall p e, "image100001.gif" = p ++ "." ++ e \/ "image1.gif" = p ++ "." ++ e -> e = "gif".
Proof.
  intros p e [X|X]; do 16 (destruct p as [|? p]; cbn in X; [first [discriminate X|injection X as X; subst; reflexivity]|]; try discriminate X; injection X as _ X).
Qed.

Example C57_new_ex : complete (files_of (ex_archive (ex_doc "Pic"))) /\
  map fst (ex_archive (ex_doc "Pic")) = ["_rels/.rels"; "docProps/app.xml"; "docProps/core.xml"; "word/theme/theme1.xml"; "word/fontTable.xml"; "word/styles.xml"; "[Content_Types].xml";
    "word/_rels/document.xml.rels"; "word/document.xml"; "word/media/image1.png"].
Proof.
  split; [|vm_compute; reflexivity]. destruct (ex_ran "Pic") as (R & N); [vm_compute; reflexivity|].
  apply (C57_new ex_lib ex_assets (ex_ops "Pic") _ 0 (ex_doc "Pic") _ R (ex_no_parse _) N); [reflexivity|exact ex_png_saved| |].
  - intros m I. rewrite (ex_only _ _ _ ex_png_media I). exact (ex_xml 0).
  - intros m I. rewrite (ex_only _ _ _ ex_png_media I). exists "png". clear. split; [now apply ex_ext|]. cbn. auto.
Qed.
(** ... but a picture of another kind is put into the package without a content type. *)
Theorem C57_refuted : exists L l w d ar, @run_ops L l [] = Some w /\ Forall no_parse l /\ nth_error w 0 = Some d /\ d_tmpl d = default_theme ex_assets /\ writes d (Ok ar) /\
  map fst (media (d_reg d)) = ["image1.gif"] /\ ~ complete (files_of ar).
Proof.
  destruct (ex_ran "Gif") as (R & N); [vm_compute; reflexivity|].
  assert (M : map fst (media (d_reg (ex_doc "Gif"))) = ["image1.gif"]) by (vm_compute; reflexivity).
  assert (W : writes (ex_doc "Gif") (Ok (ex_archive (ex_doc "Gif")))) by (apply ex_writes; vm_compute; reflexivity).
  exists ex_lib, (ex_ops "Gif"), (ex_world "Gif"), (ex_doc "Gif"), (ex_archive (ex_doc "Gif")).
  split; [exact R|]. split; [apply ex_no_parse|]. split; [exact N|]. split; [reflexivity|]. split; [exact W|]. split; [exact M|].
  rewrite (C57_new ex_lib ex_assets (ex_ops "Gif") _ 0 (ex_doc "Gif") _ R (ex_no_parse _) N eq_refl W); [|intros m I; rewrite (ex_only _ _ _ M I); exact (ex_xml 1)].
  intros K. destruct (media (d_reg (ex_doc "Gif"))) as [|m l] eqn:E; [discriminate M|]. destruct (K m (or_introl eq_refl)) as (e & (p & X & C) & T).
  injection M as M _. rewrite M in X.
  rewrite (ex_gif_untyped p e (or_intror X)) in T. clear - T. cbn in T. intuition discriminate.
Qed.
Print Assumptions C57_refuted.
Example C57_no_theme_ex : writes new_docx (Ok (ex_archive new_docx)) /\ ~ In TYPES_NAME (t_list (d_tmpl new_docx)).
Proof. split; [apply ex_writes; vm_compute; reflexivity|intros []]. Qed.

(** opening the package of [C57_new_ex] *)
Definition ex_pkg : archive := ex_archive (ex_doc "Pic").
Lemma nodup_by : forall l, (fix go l := match l with [] => true | x :: k => negb (existsb (String.eqb x) k) && go k end) l = true -> NoDup l.
Proof.
  induction l as [|x l IH]; intros E; constructor; apply andb_prop in E as (E1 & E2); [|auto]. intros I. apply negb_true_iff in E1.
  assert (existsb (String.eqb x) l = true) by (apply existsb_exists; exists x; split; [exact I|apply String.eqb_refl]). congruence.
Qed.
Lemma ex_pkg_ordinary : ordinary ex_pkg.
Proof. apply ordinary_by; [apply nodup_by; vm_compute; reflexivity|vm_compute; reflexivity]. Qed.
Lemma ex_pkg_rels : plain_rels ex_pkg.
Proof.
  intros s x I J.
  assert (E : forallb (fun e => negb (String.eqb (fst e) MAIN_RELS) || match snd e with
    | Some s => forallb (fun x => (fix go l := match l with [] => true | x :: k => negb (existsb (String.eqb x) k) && go k end) (map (fun y : attr => snd (fst y)) x)) (elems s "Relationship")
    | None => false end) ex_pkg = true) by (vm_compute; reflexivity).
  rewrite forallb_forall in E. specialize (E _ I). cbn [fst snd] in E. rewrite String.eqb_refl in E. cbn [negb orb] in E. rewrite forallb_forall in E. apply nodup_by. exact (E x J).
Qed.
Definition ex_opened : world := match @parse ex_lib ex_pkg [] with Ok w => w | _ => [] end.
Definition ex_later (data : string) : world := match @run_ops ex_lib [OPara 0 (ABody 0) (ODrawing true data)] ex_opened with Some w => w | _ => [] end.
Definition ex_at (w : world) : docx := match w with d :: _ => d | [] => new_docx end.
Example C57_saved_ex : ordinary ex_pkg /\ complete (files_of ex_pkg) /\ plain_rels ex_pkg /\ match @unpack ex_lib 0 ex_pkg with Ok d => length (rels (d_reg d)) = 5 | _ => False end.
Proof. split; [exact ex_pkg_ordinary|]. split; [exact (proj1 C57_new_ex)|]. split; [exact ex_pkg_rels|]. vm_compute. reflexivity. Qed.
Lemma ex_ok : forall x : res world, match x with Ok _ => true | _ => false end = true -> x = Ok (match x with Ok w => w | _ => [] end).
Proof. intros [| |] E; [reflexivity|discriminate E|discriminate E]. Qed.
Lemma ex_some : forall x : option world, match x with Some _ => true | _ => false end = true -> x = Some (match x with Some w => w | _ => [] end).
Proof. intros [|] E; [reflexivity|discriminate E]. Qed.
Lemma ex_first : forall x : world, match x with [] => false | _ => true end = true -> nth_error x 0 = Some (ex_at x).
Proof. intros [|] E; [discriminate E|reflexivity]. Qed.
Lemma ex_P : @parse ex_lib ex_pkg [] = Ok ex_opened.
Proof. apply (ex_ok (@parse ex_lib ex_pkg [])). vm_compute. reflexivity. Qed.
Lemma ex_R : @run_ops ex_lib [OPara 0 (ABody 0) (ODrawing true "Gif")] ex_opened = Some (ex_later "Gif").
Proof. apply (ex_some (@run_ops ex_lib [OPara 0 (ABody 0) (ODrawing true "Gif")] ex_opened)). vm_compute. reflexivity. Qed.
Definition ex_edited : docx := ex_at (ex_later "Gif").
Lemma ex_N : nth_error (ex_later "Gif") 0 = Some ex_edited.
Proof. apply ex_first. vm_compute. reflexivity. Qed.
Lemma ex_W : writes ex_edited (Ok (ex_archive ex_edited)).
Proof. apply ex_writes. vm_compute. reflexivity. Qed.
Lemma ex_M : map fst (media (d_reg ex_edited)) = ["image1.png"; "image100001.gif"].
Proof. vm_compute. reflexivity. Qed.
Lemma ex_T : Forall (no_template 0) [OPara 0 (ABody 0) (ODrawing true "Gif")].
Proof. repeat constructor. Qed.
Lemma ex_new : forall c, ~ files_of ex_pkg ("word/media/" ++ "image100001.gif") c.
Proof. apply ex_none. vm_compute. reflexivity. Qed.
Lemma ex_types : In (TYPES_NAME, Some TYPES_FILE) ex_pkg.
Proof. apply (nth_error_In _ 6). vm_compute. reflexivity. Qed.
Lemma ex_once : forall (a : archive) n x y, NoDup (map fst a) -> files_of a n x -> files_of a n y -> x = y.
Proof. intros a n x y N A B. unfold files_of in *. apply fget_in in A; [|exact N]. apply fget_in in B; [|exact N]. rewrite A in B. exact (ex_inj _ _ B). Qed.
Lemma ex_gif_no_type : ~ exists ty, content_type TYPES_FILE ("word/media/" ++ "image100001.gif") ty.
Proof.
  intros Z. apply type_default in Z; [|intros; apply no_media_override]. destruct Z as (x & X & T). apply extension_app in X; [|reflexivity]. destruct X as (p & X & _).
  rewrite (ex_gif_untyped p x (or_introl X)) in T. cbn in T. intuition discriminate.
Qed.
Lemma ex_incomplete : forall a d ar, NoDup (map fst a) -> files_of a TYPES_NAME TYPES_FILE -> map fst (media (d_reg d)) = ["image1.png"; "image100001.gif"] ->
  (forall c, ~ files_of a ("word/media/" ++ "image100001.gif") c) ->
  (exists ct, files_of a TYPES_NAME ct /\ (complete (files_of ar) <-> forall m, In m (media (d_reg d)) -> (forall c, ~ files_of a ("word/media/" ++ fst m) c) -> exists ty, content_type ct ("word/media/" ++ fst m) ty)) ->
  ~ complete (files_of ar).
Proof.
  intros a d ar ND T M NF (ct & CT & K) C. rewrite (ex_once a _ _ _ ND CT T) in K. destruct (ex_has _ M) as (m & I & E). destruct K as (K & _). specialize (K C m I). rewrite E in K. exact (ex_gif_no_type (K NF)).
Qed.
(** ... to which a GIF picture is added *)
Theorem C57_edited_refuted : exists L a w1 l w d ar, ordinary a /\ @parse L a [] = Ok w1 /\ complete (files_of a) /\ plain_rels a /\
  @run_ops L l w1 = Some w /\ Forall (no_template 0) l /\ nth_error w 0 = Some d /\ writes d (Ok ar) /\ map fst (media (d_reg d)) = ["image1.png"; "image100001.gif"] /\ ~ complete (files_of ar).
Proof.
  exists ex_lib, ex_pkg, ex_opened, [OPara 0 (ABody 0) (ODrawing true "Gif")], (ex_later "Gif"), ex_edited, (ex_archive ex_edited).
  split; [exact ex_pkg_ordinary|]. split; [exact ex_P|]. split; [exact (proj1 C57_new_ex)|]. split; [exact ex_pkg_rels|]. split; [exact ex_R|]. split; [exact ex_T|].
  split; [exact ex_N|]. split; [exact ex_W|]. split; [exact ex_M|].
  apply (ex_incomplete ex_pkg ex_edited (ex_archive ex_edited) (proj1 ex_pkg_ordinary) ex_types ex_M ex_new).
  apply (C57_edited ex_lib ex_pkg [] ex_opened [OPara 0 (ABody 0) (ODrawing true "Gif")] (ex_later "Gif") ex_edited (ex_archive ex_edited) ex_pkg_ordinary ex_P (proj1 C57_new_ex) ex_pkg_rels ex_R ex_T ex_N ex_W).
  exact (fun m I _ => ex_xml2 _ m ex_M I).
Qed.
Print Assumptions C57_edited_refuted.
