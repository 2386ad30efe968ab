(** The demo document of cmd/main: the whole run. *)
From Coq Require Import String Ascii List Bool Arith NArith ZArith Lia Permutation.
From Verif Require Import GoStr Num Lib Types Docx Api Keep Copy Text Lex Rels Pack Theme History Reload SpecLex SpecPack SpecReopen SpecCmd SpecDemo Cmd Demo
  HistFacts HistFacts2 RelsFacts PackFacts PackFacts2 PackFacts3 LexFacts3 HistInv ValFacts ValFacts2 ValHist OpcFacts OpcFacts2 StableFacts2 HomeFacts ReopenFacts ReopenFacts2 VerbFacts CmdFacts CmdFacts2 CmdFacts3 DemoFacts DemoFacts2.
Import ListNotations.
Local Open Scope list_scope.
Local Open Scope string_scope.

Section Saved.
Context `{GoLib}.
Variable rd : string -> res string.
Variable x : assets.
Variables (p1 p2 p3 : string).
Variables (a1 b1 c1 d1 a2 b2 c2 d2 a3 b3 c3 d3 a4 b4 : i64).
Local Notation M := (made_of rd (default_theme x) p1 p2 p3 a1 b1 c1 d1 a2 b2 c2 d2 a3 b3 c3 d3 a4 b4).
Lemma made_packs : packs (set_d_items [] M) = true.
Proof. vm_compute. reflexivity. Qed.
Lemma made_midx : map (fun n => media_of (d_reg M) n) ["image1.jpeg"; "image2.jpeg"; "image3.webp"; "image4.png"] = map (fun m => Ok (Some m)) (media (d_reg M)) /\
  media (d_reg M) = [("image1.jpeg", p1); ("image2.jpeg", p1); ("image3.webp", p2); ("image4.png", p3)].
Proof. vm_compute. split; reflexivity. Qed.
Lemma made_keys : map fst (midx (d_reg M)) = ["image4.png"; "image3.webp"; "image2.jpeg"; "image1.jpeg"].
Proof. vm_compute. reflexivity. Qed.
Lemma made_lists : t_list (d_tmpl M) = default_files.
Proof. now rewrite made_tmpl. Qed.
End Saved.

Lemma made_one : forall `{GoLib} rd l d, run_steps rd l [] = Ok [d] -> Forall (clean_step_of rd) l -> xml_docx d.
Proof. intros L rd l d R C. apply ok_xml. pose proof (run_ok rd _ _ _ R C (Forall_nil _)) as O. now inversion O. Qed.
Local Opaque made_of.
Lemma nums_of : forall g, forallb (fun r => match id_number (rel_id r) with Some _ => true | None => false end) (rels g) = true -> Forall has_num (rels g).
Proof.
  intros g B. apply Forall_forall. intros r I. pose proof (proj1 (forallb_forall _ _) B r I) as N. cbn beta in N. destruct (id_number (rel_id r)) as [n|] eqn:E; [|discriminate].
  exists n. now apply id_number_spec.
Qed.
Lemma mget_in : forall V (l : list (string * V)) k v, mget k l = Some v -> In k (map fst l).
Proof. intros V. induction l as [|(a, b) l IH]; intros k v E; cbn in *; [discriminate|]. destruct (String.eqb_spec k a); [now left|right; eauto]. Qed.
Lemma named_of : forall g ks n m, map (fun n => media_of g n) (map fst (media g)) = map (fun m => Ok (Some m)) (media g) -> map fst (midx g) = ks -> incl ks (map fst (media g)) ->
  media_of g n = Ok (Some m) -> In m (media g) /\ fst m = n.
Proof.
  intros g ks n m E K I Q. assert (J : In n (map fst (media g))).
  { apply I. rewrite <- K. unfold media_of in Q. destruct (mget n (midx g)) as [i|] eqn:G; [|discriminate]. now apply mget_in in G. }
  clear -E J Q. revert E J. generalize (media g) at 1 2 3 4. induction l as [|y l IH]; intros E J; [destruct J|]. cbn in E. injection E as E1 E2. destruct J as [<-|J].
  - rewrite E1 in Q. injection Q as ->. split; [now left|reflexivity].
  - destruct (IH E2 J) as (A & B). split; [now right|exact B].
Qed.
Lemma made_named : forall `{GoLib} rd x p1 p2 p3 a1 b1 c1 d1 a2 b2 c2 d2 a3 b3 c3 d3 a4 b4 n m,
  media_of (d_reg (made_of rd (default_theme x) p1 p2 p3 a1 b1 c1 d1 a2 b2 c2 d2 a3 b3 c3 d3 a4 b4)) n = Ok (Some m) ->
  In m (media (d_reg (made_of rd (default_theme x) p1 p2 p3 a1 b1 c1 d1 a2 b2 c2 d2 a3 b3 c3 d3 a4 b4))) /\ fst m = n.
Proof.
  intros L rd x p1 p2 p3 a1 b1 c1 d1 a2 b2 c2 d2 a3 b3 c3 d3 a4 b4 n m. pose proof (made_midx rd x p1 p2 p3 a1 b1 c1 d1 a2 b2 c2 d2 a3 b3 c3 d3 a4 b4) as (A & B).
  pose proof (made_keys rd x p1 p2 p3 a1 b1 c1 d1 a2 b2 c2 d2 a3 b3 c3 d3 a4 b4) as C. revert A B C. generalize (d_reg (made_of rd (default_theme x) p1 p2 p3 a1 b1 c1 d1 a2 b2 c2 d2 a3 b3 c3 d3 a4 b4)). intros g A B C.
  eapply named_of; [rewrite B at 1; exact A|exact C|]. rewrite B. intros y. cbn. tauto.
Qed.

(** a document opened again shows what the reloaded items show *)
Section Again.
Context `{GoLib}.
Lemma shown_over : forall d d' l ls, rels (d_reg d') = rels (d_reg d) -> (forall n m, media_of (d_reg d) n = Ok (Some m) -> media_of (d_reg d') n = Ok (Some m)) ->
  Forall (home_item 0) l -> shown [d] l ls -> shown [d'] (map (reload_item (Some 0)) l) ls.
Proof.
  intros d d' l ls R M F S. induction S as [|p s l ls E S IH|t s l ls E S IH|q l ls S IH]; inversion F; subst; cbn [map reload_item].
  - constructor.
  - constructor; [|auto]. eapply (para_same [d] [d'] 0 0 d d'); eauto.
  - constructor; [|auto]. eapply (table_same [d] [d'] 0 0 d d'); eauto.
  - constructor. auto.
Qed.
Lemma home_of : forall l, map (reload_item (Some 0)) l = l -> Forall (home_item 0) l.
Proof. intros l <-. apply Forall_forall. intros y I. apply in_map_iff in I as (z & <- & _). apply reload_item_home. Qed.

Variable rd : string -> res string.
Variable x : assets.
Variables (p1 p2 p3 : string) (a1 b1 a2 b2 a3 b3 s1w s1h s2w s2h s3w s3h : i64).
Hypothesis D1 : rd JPG = Ok p1.
Hypothesis D2 : rd WEBP = Ok p2.
Hypothesis D3 : rd PNG = Ok p3.
Hypothesis I1 : lib_imgsize p1 = Some (s1w, s1h, "jpeg").
Hypothesis I2 : lib_imgsize p2 = Some (s2w, s2h, "webp").
Hypothesis I3 : lib_imgsize p3 = Some (s3w, s3h, "png").
Hypothesis S1 : pic_size s1w s1h = Ok (a1, b1).
Hypothesis S2 : pic_size s2w s2h = Ok (a2, b2).
Hypothesis S3 : pic_size s3w s3h = Ok (a3, b3).
Local Notation M := (made_doc rd (default_theme x) p1 p2 p3 a1 b1 a2 b2 a3 b3).
Lemma made_done : run_steps rd (demo_steps x) [] = Ok [M].
Proof. exact (steps_done rd x p1 p2 p3 a1 b1 a2 b2 a3 b3 s1w s1h s2w s2h s3w s3h D1 D2 D3 I1 I2 I3 S1 S2 S3). Qed.
Lemma made_xml : xml_docx M.
Proof.
  apply (made_one rd _ _ made_done). apply demo_clean. intros f data a b fmt I R Z.
  destruct I as [<-|[<-|[<-|[]]]]; [rewrite D1 in R|rewrite D2 in R|rewrite D3 in R]; injection R as <-; [rewrite I1 in Z|rewrite I2 in Z|rewrite I3 in Z]; injection Z as <- <- <-; now apply xml_by.
Qed.
Lemma made_saves : exists ar, writes M (Ok ar).
Proof. unfold made_doc. apply -> items_saved. apply -> packs_writes. apply made_packs. Qed.
Lemma made_reads : forall ar, writes M (Ok ar) -> exists d', unpack 0 ar = Ok d' /\ d_items d' = map (reload_item (Some 0)) (d_items M) /\ rels (d_reg d') = rels (d_reg M) /\
  (forall n m, media_of (d_reg M) n = Ok (Some m) -> media_of (d_reg d') n = Ok (Some m)).
Proof.
  intros ar W. destruct (write_read 0 M ar W made_xml) as (d' & A1 & A2 & A3 & _ & _ & _ & A7 & _).
  - unfold made_doc. apply nums_of. apply made_nums.
  - unfold made_doc. rewrite made_media. repeat constructor; cbn; intuition discriminate.
  - intros n I. unfold made_doc in I. rewrite made_lists in I. revert n I. apply Forall_forall. repeat constructor.
  - exists d'. repeat (split; [assumption|]). intros n m E. assert (K : In m (media (d_reg M)) /\ fst m = n).
    { unfold made_doc in *. now apply made_named. }
    destruct K as (K & <-). exact (proj1 (A7 m) K).
Qed.
End Again.

Section Run.
Context `{GoLib}.
Variable rd : string -> res string.
Variable x : assets.
Variable sys : system.
Variable fl : flags.
Variable entries : docx -> archive.
Variables (p1 p2 p3 : string) (a1 b1 a2 b2 a3 b3 s1w s1h s2w s2h s3w s3h : i64).
Hypothesis D1 : rd JPG = Ok p1.
Hypothesis D2 : rd WEBP = Ok p2.
Hypothesis D3 : rd PNG = Ok p3.
Hypothesis I1 : lib_imgsize p1 = Some (s1w, s1h, "jpeg").
Hypothesis I2 : lib_imgsize p2 = Some (s2w, s2h, "webp").
Hypothesis I3 : lib_imgsize p3 = Some (s3w, s3h, "png").
Hypothesis S1 : pic_size s1w s1h = Ok (a1, b1).
Hypothesis S2 : pic_size s2w s2h = Ok (a2, b2).
Hypothesis S3 : pic_size s3w s3h = Ok (a3, b3).
Hypothesis Wr : forall d, (exists ar, writes d (Ok ar)) -> writes d (Ok (entries d)).
Local Notation M := (made_doc rd (default_theme x) p1 p2 p3 a1 b1 a2 b2 a3 b3).
Local Notation TX := (demo_texts (lib_md5 p1) (lib_md5 p2) (lib_md5 p3) (negb (fl_clean fl))).
Lemma over : forall l0 d d' l ls, map (reload_item (Some 0)) l = l -> flat_map (text_of [set_d_items l0 d]) l = map (@Ok string) ls ->
  rels (d_reg d') = rels (d_reg d) -> (forall n m, media_of (d_reg d) n = Ok (Some m) -> media_of (d_reg d') n = Ok (Some m)) -> shown [d'] l ls.
Proof. intros l0 d d' l ls E T R N. rewrite <- E. apply (shown_over (set_d_items l0 d) d'); auto; [now apply home_of|now apply texts_shown]. Qed.
Lemma overs : forall d d' l ls ls', map (reload_item (Some 0)) l = l -> map (reload_item (Some 0)) (drop_drawing_of "NilPicture" l) = drop_drawing_of "NilPicture" l ->
  flat_map (text_of [set_d_items l d]) l = map (@Ok string) ls -> flat_map (text_of [set_d_items l d]) (drop_drawing_of "NilPicture" l) = map (@Ok string) ls' ->
  rels (d_reg d') = rels (d_reg d) -> (forall n m, media_of (d_reg d) n = Ok (Some m) -> media_of (d_reg d') n = Ok (Some m)) -> 
  shown [d'] l ls /\ shown [d'] (drop_drawing_of "NilPicture" l) ls'.
Proof. intros d d' l ls ls' E E' T T' R N. split; eapply over; eauto. Qed.
Lemma reads_shown : forall ar, writes M (Ok ar) -> exists d', unpack 0 ar = Ok d' /\ shown [d'] (kept fl d') TX.
Proof.
  intros ar W. destruct (made_reads rd x p1 p2 p3 a1 b1 a2 b2 a3 b3 s1w s1h s2w s2h s3w s3h D1 D2 D3 I1 I2 I3 S1 S2 S3 ar W) as (d' & U & E & R & N).
  exists d'. split; [exact U|]. unfold kept. rewrite E. clear E U W. unfold made_doc in *.
  pose proof (made_steady rd (default_theme x) p1 p2 p3 a1 b1 (scaled 1 4 a1) (scaled 1 4 b1) a1 b1 (scaled 4 5 a1) (scaled 4 5 b1) a2 b2 (scaled 4 5 a2) (scaled 4 5 b2) a3 b3) as A1.
  pose proof (made_steady2 rd (default_theme x) p1 p2 p3 a1 b1 (scaled 1 4 a1) (scaled 1 4 b1) a1 b1 (scaled 4 5 a1) (scaled 4 5 b1) a2 b2 (scaled 4 5 a2) (scaled 4 5 b2) a3 b3) as A2.
  pose proof (made_texts rd (default_theme x) p1 p2 p3 a1 b1 (scaled 1 4 a1) (scaled 1 4 b1) a1 b1 (scaled 4 5 a1) (scaled 4 5 b1) a2 b2 (scaled 4 5 a2) (scaled 4 5 b2) a3 b3) as A3.
  pose proof (made_clean rd (default_theme x) p1 p2 p3 a1 b1 (scaled 1 4 a1) (scaled 1 4 b1) a1 b1 (scaled 4 5 a1) (scaled 4 5 b1) a2 b2 (scaled 4 5 a2) (scaled 4 5 b2) a3 b3) as A4.
  revert A1 A2 A3 A4 R N. generalize (made_of rd (default_theme x) p1 p2 p3 a1 b1 (scaled 1 4 a1) (scaled 1 4 b1) a1 b1 (scaled 4 5 a1) (scaled 4 5 b1) a2 b2 (scaled 4 5 a2) (scaled 4 5 b2) a3 b3).
  intros d A1 A2 A3 A4 R N. destruct (overs d d' _ _ _ A1 A2 A3 A4 R N). destruct (fl_clean fl); assumption.
Qed.
Hypothesis Cr : sys_create sys (fl_loc fl) = true.
Hypothesis Fi : sys_write sys (fl_loc fl) = true.
Lemma demo_is : demo x sys fl rd entries =
  ([EPrint ("Preparing new document to write at " ++ fl_loc fl); ECreate (fl_loc fl); EWrite (fl_loc fl) M; EPrint ("Document writen. " ++ String NL "Now trying to read it")] ++ fst (tool x sys fl (entries M)),
   snd (tool x sys fl (entries M)))%list.
Proof.
  unfold demo. rewrite (made_done rd x p1 p2 p3 a1 b1 a2 b2 a3 b3 s1w s1h s2w s2h s3w s3h D1 D2 D3 I1 I2 I3 S1 S2 S3). pose proof (made_saves rd x p1 p2 p3 a1 b1 a2 b2 a3 b3) as Sv. revert Sv.
  generalize (made_doc rd (default_theme x) p1 p2 p3 a1 b1 a2 b2 a3 b3). intros d Sv. apply packs_writes in Sv. unfold lift, ret, emit. unfold seqp at 1 2. cbn [fst snd].
  rewrite (save_ok sys (fl_loc fl) d Cr Fi Sv). unfold seqp. cbn [fst snd app]. reflexivity.
Qed.

Lemma demo_lines : forall es u, demo x sys fl rd entries = (es, Some u) ->
  lines es = ([("Preparing new document to write at " ++ fl_loc fl)%string; ("Document writen. " ++ newline ++ "Now trying to read it")%string; "Plain text:"] ++ TX ++ ["End of main"])%list.
Proof.
  intros es u E. rewrite demo_is in E. injection E as <- E. destruct (tool x sys fl (entries M)) as (es', r) eqn:T. cbn [fst snd] in *. subst r.
  destruct (printed_lines _ _ _ _ _ _ T) as (d & ls & U & Sh & Li). destruct (reads_shown (entries M)) as (d' & U' & Sh'); [apply Wr, made_saves|].
  rewrite U in U'. injection U' as <-. rewrite (shown_unique _ _ _ _ Sh' Sh). unfold lines in *. cbn [flat_map app]. rewrite Li. reflexivity.
Qed.
Lemma demo_ends : fl_unm fl = false -> fl_split fl = None -> (fl_dup fl <= 1)%N ->
  exists es, demo x sys fl rd entries = (es, Some tt) /\ made es = [fl_loc fl] /\ written es = [(fl_loc fl, M)].
Proof.
  intros Um Sp Du. destruct (reads_shown (entries M)) as (d' & U' & Sh'); [apply Wr, made_saves|]. destruct (stands_some (fl_loc fl)) as (dir & base & St).
  assert (T : snd (tool x sys fl (entries M)) = Some tt).
  { apply (plain_run _ _ _ _ _ _ St Sp Du). exists d', (if fl_droppp fl then map bare_item (kept fl d') else kept fl d'), TX. split; [exact U'|]. split; [|split; [exact Sh'|congruence]].
    exists (kept fl d'). split; [reflexivity|]. destruct (fl_droppp fl); [apply bare_all|reflexivity]. }
  destruct (tool x sys fl (entries M)) as (es', r) eqn:E. cbn in T. subst r. destruct (files _ _ _ _ _ _ _ _ St E) as (d0 & l' & parts & copies & stem & ext & _ & _ & W & Md & _ & _ & P & C).
  unfold split_into in P. rewrite Sp in P. unfold copied_into in C. destruct (N.ltb_spec 1 (fl_dup fl)); [lia|]. subst parts copies. rewrite Um in W. cbn in W.
  eexists. split; [rewrite demo_is, E; reflexivity|]. cbn [fst snd app]. rewrite W in Md. unfold made, written in *. cbn. now rewrite Md, W.
Qed.
End Run.

(** ** what a run needs *)
Section Needs.
Context `{GoLib}.
Variable rd : string -> res string.
Definition drawable (f : string) : Prop := exists data w h fmt a b, rd f = Ok data /\ lib_imgsize data = Some (w, h, fmt) /\ pic_size w h = Ok (a, b).
Lemma pic_needs : forall i anch f w w', exec_step rd (Pic i anch f) w = Ok w' -> drawable f.
Proof.
  intros i anch f w w' E. cbn [exec_step] in E. destruct (rd f) as [data| |] eqn:R; cbn [bind] in E; try discriminate. cbn [exec] in E. unfold drawable.
  destruct (nth_error w 0) as [y|]; [|discriminate]. destruct (get_para (d_items y) (ABody i)) as [p|]; [|discriminate]. cbn [exec_pop] in E. unfold add_drawing in E.
  destruct (lib_imgsize data) as [((sw, sh), fmt)|] eqn:I; [|discriminate].
  destruct (on_file w (para_file p) (new_image fmt data)) as [(((idn, id), r), w1)| |]; cbn [bind] in E; try discriminate. destruct (pic_size sw sh) as [(a, b)| |] eqn:P; cbn [bind] in E; try discriminate.
  exists data, sw, sh, fmt, a, b. auto.
Qed.
Lemma run_needs : forall l w w', run_steps rd l w = Ok w' -> forall i anch f, In (Pic i anch f) l -> drawable f.
Proof.
  induction l as [|s l IH]; intros w w' E i anch f I; [destruct I|]. cbn [run_steps] in E. destruct (exec_step rd s w) as [w1| |] eqn:S; cbn [bind] in E; try discriminate.
  destruct I as [->|I]; [eapply pic_needs; eauto|eapply IH; eauto].
Qed.
Lemma pics_in : forall x, In (Pic 1 true JPG) (demo_steps x) /\ In (Pic 5 false WEBP) (demo_steps x) /\ In (Pic 8 false PNG) (demo_steps x).
Proof.
  intros x. rewrite list_of. repeat split; repeat (rewrite in_app_iff || (cbn [In])); auto 20.
Qed.
Variable x : assets.
Variable sys : system.
Variable fl : flags.
Variable entries : docx -> archive.
Lemma demo_needs : forall es u, demo x sys fl rd entries = (es, Some u) -> drawable JPG /\ drawable WEBP /\ drawable PNG /\ sys_create sys (fl_loc fl) = true /\ sys_write sys (fl_loc fl) = true.
Proof.
  intros es u E. unfold demo in E. pose proof (run_needs (demo_steps x) []) as N. pose proof (pics_in x) as (P1 & P2 & P3). destruct (run_steps rd (demo_steps x) []) as [w| |]; [|discriminate|discriminate].
  specialize (N w eq_refl). split; [eapply N; exact P1|]. split; [eapply N; exact P2|]. split; [eapply N; exact P3|]. unfold lift, ret, emit in E. unfold seqp at 1 2 in E. cbn [fst snd app] in E.
  destruct w as [|d w]; [discriminate|]. destruct (save sys (fl_loc fl) d) as (e1, [v|]) eqn:S; [|unfold seqp in E; cbn in E; discriminate].
  destruct v. apply save_done in S as (_ & A & B & _). auto.
Qed.
Lemma demo_undrawn : ~ (drawable JPG /\ drawable WEBP /\ drawable PNG) -> demo x sys fl rd entries = ([EPrint ("Preparing new document to write at " ++ fl_loc fl)], None).
Proof.
  intros N. unfold demo. pose proof (run_needs (demo_steps x) []) as K. pose proof (pics_in x) as (P1 & P2 & P3). destruct (run_steps rd (demo_steps x) []) as [w| |]; [|reflexivity|reflexivity].
  exfalso. apply N. specialize (K w eq_refl). repeat split; eapply K; eassumption.
Qed.
End Needs.
