(** Namespace prefixes in the bytes that are written, after reloading, and
    throughout histories. *)
From Coq Require Import String Ascii List Bool Arith NArith ZArith Lia.
From Verif Require Import GoStr Num Lib Types XmlTok Marshal Unmarshal DecLemmas RoundTrip2 Reload Lex SpecLex LexFacts LexFacts3 LexFacts2 Docx Api Keep Copy Pack History RegFacts SpecApi SpecPack HistInv SpecNs NsFacts.
Import ListNotations.
Local Open Scope list_scope.
Local Open Scope string_scope.

(** ** bytes *)
Lemma clean_declares : forall (a a' : list attr), Forall2 (fun x y => fst x = fst y /\ cleaned (snd x) (snd y)) a a' -> forall p, declares a' p = declares a p.
Proof.
  intros a a' F p. unfold declares. induction F as [|[q v] [q' v'] a a' [E _] F IH]; [reflexivity|]. cbn [existsb fst snd] in *. now rewrite E, IH.
Qed.
Lemma clean_ns_attr : forall s s' (x y : attr), wider s s' -> fst x = fst y -> cleaned (snd x) (snd y) -> ns_attr s x = true -> ns_attr s' y = true.
Proof.
  intros s s' [q v] [q' v'] W E (_ & _ & C) N. unfold ns_attr in *. cbn [fst snd] in *. subst q'. destruct (String.eqb (fst q) "xmlns").
  - apply negb_true_iff in N. apply String.eqb_neq in N. apply negb_true_iff. apply String.eqb_neq. auto.
  - now apply (usable_wider s).
Qed.
Lemma clean_ns : forall t t', cleaned_tree t t' -> forall s, ns_ok s t = true -> ns_ok s t' = true.
Proof.
  induction t as [q a c F|x|] using tree_ind'; intros t' C s N; inversion C as [? ? a' ? c' FA FC|]; subst; [|reflexivity].
  rewrite ns_elem in *. assert (W : wider (inside a s) (inside a' s)) by (intros p; unfold inside; now rewrite (clean_declares _ _ FA)).
  apply andb_prop in N as [N N3]. apply andb_prop in N as [N1 N2]. rewrite (usable_wider _ _ _ W N1). cbn [andb]. apply andb_true_intro. split.
  - clear - FA N2 W. set (s1 := inside a s) in *. set (s2 := inside a' s) in *. clearbody s1 s2. induction FA as [|x y a a' [E K] FA IH]; [reflexivity|]. cbn [forallb] in *.
    apply andb_prop in N2 as [N N2]. rewrite (clean_ns_attr _ _ _ _ W E K N). now apply IH.
  - clear - F FC N3 W. set (s1 := inside a s) in *. set (s2 := inside a' s) in *. clearbody s1 s2. induction FC as [|x y c c' K FC IH]; [reflexivity|]. cbn [forallb] in *.
    apply andb_prop in N3 as [N N3]. inversion F as [|? ? F1 F2]; subst. rewrite (ok_wider _ _ _ W (F1 _ K _ N)). now apply IH.
Qed.
Lemma ns_bottom : forall ts st, ns_tokens (st ++ [nowhere])%list ts = ns_tokens st ts.
Proof.
  induction ts as [|t ts IH]; intros st; [reflexivity|]. destruct t; cbn [ns_tokens]; try apply IH.
  - assert (H : hd nowhere (st ++ [nowhere])%list = hd nowhere st) by now destruct st. rewrite H. f_equal. apply (IH (_ :: st)%list).
  - destruct st as [|s st]; cbn [app tl]; [reflexivity|apply IH].
Qed.
Lemma ns_written : forall gp l, forallb (nd_item gp) l = true -> ns_tokens [] (lex (write_xml (m_document l))) = true.
Proof.
  intros gp l N. destruct (write_document l) as (t' & C & ->). cbn [ns_tokens]. pose proof (clean_ns _ _ C _ (n_document gp l N)) as K.
  rewrite <- (ns_bottom _ []). cbn [app]. rewrite <- (app_nil_r (toks t')), (ns_toks _ _ [] K). reflexivity.
Qed.
Lemma ns_part : forall gp d s, d_ns d = true -> forallb (nd_item gp) (d_items d) = true -> part_of d DOC_NAME s -> ns_tokens [] (lex s) = true.
Proof.
  intros gp d s E N P. inversion P; subst; try congruence.
  rewrite E. now apply (ns_written gp).
Qed.

(** ** pictures in groups *)
Lemma forallb_map' : forall A B (f : A -> B) (p : A -> bool) (q : B -> bool) l, Forall (fun x => p x = true -> q (f x) = true) l -> forallb p l = true -> forallb q (map f l) = true.
Proof. intros A B f p q l F. induction F; cbn [map forallb]; auto. intros E. apply andb_prop in E as [E1 E2]. apply andb_true_intro. auto. Qed.
(** reading back keeps every declaration but those of pictures in groups *)
Fixpoint r_para (x : para) : forall f, nd_para false x = true -> nd_para false (reload_para f x) = true
with r_pchild (x : pchild) : forall f, nd_pchild false x = true -> nd_pchild false (reload_pchild f x) = true
with r_rchild (x : rchild) : forall f, nd_rchild false x = true -> nd_rchild false (reload_rchild f x) = true
with r_shape (x : shape) : forall f, nd_shape false x = true -> nd_shape false (reload_shape f x) = true
with r_canvas (x : canvas) : forall f, nd_canvas false x = true -> nd_canvas false (reload_canvas f x) = true
with r_citem (x : citem) : forall f, nd_citem false x = true -> nd_citem false (reload_citem f x) = true
with r_group (x : group) : forall f, nd_group false x = true -> nd_group false (reload_group f x) = true
with r_gelem (x : gelem) : forall f, nd_gelem false x = true -> nd_gelem false (reload_gelem f x) = true.
Proof.
  - destruct x as [[p c fi]]. intros f. cbn [reload_para nd_para paraR_children]. apply forallb_map'.
    clear -r_pchild. revert c. fix go 1. intros [|y c]; constructor; [apply r_pchild|apply go].
  - assert (R : forall f c, Forall (fun x => nd_rchild false x = true -> nd_rchild false (reload_rchild f x) = true) c).
    { clear -r_rchild. intros f. fix go 1. intros [|y c]; constructor; [apply r_rchild|apply go]. }
    destruct x as [[sp rp ins c]|id [sp rp ins c]|r]; intros f; cbn [reload_pchild nd_pchild reload_runR runR_children]; try reflexivity; apply forallb_map'; apply R.
  - destruct x as [t|t|ty|i a]; intros f; cbn [reload_rchild nd_rchild]; try reflexivity. intros N. apply andb_prop in N as [N1 N2]. apply andb_true_intro. split.
    + clear N2. destruct i as [[d1 d2 d3 d4 d5 d6 d7 fr [[xa [[uri pc sh cv g]|]]|] fi]|]; [| | |reflexivity];
      cbn [option_map reload_inlineR set_inlineR_file set_inlineR_graphic reload_graphicR reload_gdataR opt inlineR_frame inlineR_graphic graphicR_xmla graphicR_data gdataR_pic gdataR_shape gdataR_canvas gdataR_group] in *;
      [|exact N1|exact N1]. apply andb_prop in N1 as [-> N1]. apply andb_prop in N1 as [-> N1]. apply andb4 in N1 as (-> & N1 & N2 & N3). cbn [andb].
      repeat (apply andb_true_intro; split); [destruct sh; cbn [opt option_map] in *; auto with nocore|destruct cv; cbn [opt option_map] in *; auto with nocore|destruct g; cbn [opt option_map] in *; auto with nocore].
    + clear N1. rename N2 into N1. destruct a as [[d1 d2 d3 d4 d5 d6 d7 d8 d9 d10 d11 d12 d13 d14 d15 d16 d17 d18 d19 [[xa [[uri pc sh cv g]|]]|] fi]|]; [| | |reflexivity];
      cbn [option_map reload_anchorR set_anchorR_file set_anchorR_graphic reload_graphicR reload_gdataR opt anchorR_frame anchorR_graphic graphicR_xmla graphicR_data gdataR_pic gdataR_shape gdataR_canvas gdataR_group] in *;
      [|exact N1|exact N1]. apply andb_prop in N1 as [-> N1]. apply andb_prop in N1 as [-> N1]. apply andb4 in N1 as (-> & N1 & N2 & N3). cbn [andb].
      repeat (apply andb_true_intro; split); [destruct sh; cbn [opt option_map] in *; auto with nocore|destruct cv; cbn [opt option_map] in *; auto with nocore|destruct g; cbn [opt option_map] in *; auto with nocore].
  - destruct x as [[d1 d2 d3 d4 [[ps|]|] d6]]; intros f; cbn [reload_shape nd_shape reload_shapeR shapeR_textBox option_map opt]; auto with nocore. apply forallb_map'.
    clear -r_para. revert ps. fix go 1. intros [|y c]; constructor; [apply r_para|apply go].
  - destruct x as [[d1 d2 c]]; intros f; cbn [reload_canvas nd_canvas reload_canvasR canvasR_items]. apply forallb_map'.
    clear -r_citem. revert c. fix go 1. intros [|y c]; constructor; [apply r_citem|apply go].
  - destruct x as [sh|p|g]; intros f; cbn [reload_citem nd_citem]; [apply r_shape|auto with nocore|apply r_group].
  - destruct x as [[d1 d2 c]]; intros f; cbn [reload_group nd_group reload_groupR groupR_elems]. apply forallb_map'.
    clear -r_gelem. revert c. fix go 1. intros [|y c]; constructor; [apply r_gelem|apply go].
  - destruct x as [p|sh|c|[d1 d2 d3 c]]; intros f; cbn [reload_gelem nd_gelem]; [cbn [andb]; auto with nocore|apply r_shape|apply r_canvas|].
    cbn [reload_gshapeR gshapeR_elems]. clear -r_gelem. revert c. fix go 1. intros [|y c]; [reflexivity|]. cbn [flat_map forallb]. intros N. apply andb_prop in N as [N1 N2].
    rewrite forallb_app. apply andb_true_intro. split; [|now apply go]. pose proof (r_gelem y f N1) as K. destruct y; try reflexivity; cbn [forallb]; now rewrite K.
Qed.
Lemma r_item : forall x f, nd_item false x = true -> nd_item false (reload_item f x) = true.
Proof.
  intros [p|t|s] f; cbn [nd_item reload_item]; [apply r_para| |auto]. cbn [reload_table table_rows]. apply forallb_map', Forall_forall. intros r _.
  cbn [reload_row row_cells]. apply forallb_map', Forall_forall. intros c _. cbn [reload_cell cell_paras]. apply forallb_map', Forall_forall. intros p _. apply r_para.
Qed.
Lemma ns_reload : forall f l, forallb (nd_item false) l = true -> forallb (nd_item false) (map (reload_item f) l) = true.
Proof. intros f l. apply forallb_map', Forall_forall. intros x _. apply r_item. Qed.

(** ** histories *)
Section Hist.
Variable gp : bool.
Let P (c : rchild) : Prop := nd_rchild gp c = true.
Lemma all_para : forall p, para_all P p <-> nd_para gp p = true.
Proof.
  intros [[pp ch f]]. unfold para_all, para_children. cbn [nd_para paraR_children]. rewrite forallb_forall, Forall_forall.
  split; intros K x I; specialize (K x I); destruct x as [r|id r|r]; cbn [pchild_all nd_pchild] in *; auto; unfold run_all in *; rewrite forallb_forall, Forall_forall in *; exact K.
Qed.
Lemma all_item : forall x, item_all P x <-> nd_item gp x = true.
Proof.
  intros [p|t|s]; cbn [item_all nd_item]; [apply all_para| |tauto]. unfold row_all, cell_all. rewrite forallb_forall, Forall_forall.
  split; intros K r I; specialize (K r I); rewrite forallb_forall, Forall_forall in *; intros c J; specialize (K c J); rewrite forallb_forall, Forall_forall in *; intros p Q; apply all_para; auto.
Qed.
Lemma all_items : forall l, Forall (item_all P) l <-> forallb (nd_item gp) l = true.
Proof. intros l. rewrite forallb_forall, Forall_forall. split; intros K x I; apply all_item; auto. Qed.
Lemma p_drawing : forall (L : GoLib) anch data w p w' p', add_drawing anch data w p = Ok (w', p') -> para_all P p -> para_all P p'.
Proof.
  intros L anch data w p w' p' E Q. unfold add_drawing in E. destruct (lib_imgsize data) as [[[sw sh] format]|]; [|discriminate]. bok E. destruct v as [[[idn id] r] w1]. bok E. destruct v as [ew eh].
  injection E as <- <-. apply add_child_all; [|exact Q]. destruct anch; cbn [pchild_all]; unfold run_all, api_run; cbn [runR_children]; (constructor; [|constructor]); reflexivity.
Qed.
Lemma p_shape : forall anch sw sh name bw prst ln w p w' p', add_shape anch sw sh name bw prst ln w p = Ok (w', p') -> para_all P p -> para_all P p'.
Proof.
  intros anch sw sh name bw prst ln w p w' p' E Q. unfold add_shape in E. bok E. destruct v as [[idn ids] w1].
  injection E as <- <-. apply add_child_all; [|exact Q]. destruct anch; cbn [pchild_all]; unfold run_all, api_run; cbn [runR_children]; (constructor; [|constructor]); reflexivity.
Qed.
Lemma p_size : forall anch sw sh c c', child_size anch sw sh c = Ok c' -> P c -> P c'.
Proof.
  intros anch sw sh c c' E Q. unfold P in *. destruct c as [t|t|ty|i a]; cbn [child_size] in E; try discriminate.
  assert (G : forall g, (named (graphicR_xmla g) && opt (fun d => opt nd_pic (gdataR_pic d) && opt (nd_shape gp) (gdataR_shape d) && opt (nd_canvas gp) (gdataR_canvas d) && opt (nd_group gp) (gdataR_group d)) (graphicR_data g))%bool = true ->
    (named (graphicR_xmla (graphic_size sw sh g)) && opt (fun d => opt nd_pic (gdataR_pic d) && opt (nd_shape gp) (gdataR_shape d) && opt (nd_canvas gp) (gdataR_canvas d) && opt (nd_group gp) (gdataR_group d)) (graphicR_data (graphic_size sw sh g)))%bool = true).
  { intros [xa [[uri [pc|] s cv g]|]]; cbn; auto. destruct pc as [xp nv b [sp|]]; cbn; auto. }
  destruct anch.
  - destruct a as [[d1 d2 d3 d4 d5 d6 d7 d8 d9 d10 d11 d12 d13 d14 d15 d16 d17 d18 d19 g fi]|]; [|destruct i; cbn in E; discriminate]. assert (E' : c' = RDraw i (Some (anchor_size sw sh (mk_anchorR d1 d2 d3 d4 d5 d6 d7 d8 d9 d10 d11 d12 d13 d14 d15 d16 d17 d18 d19 g fi)))) by (destruct i; cbn [child_size] in E; congruence). subst c'. clear E. cbn [nd_rchild] in *. apply andb_prop in Q as [-> Q]. cbn [andb].
    unfold anchor_size. cbn [opt anchorR_frame anchorR_graphic set_anchorR_graphic set_anchorR_extent anchorR_extent] in *. apply andb_prop in Q as [-> Q]. cbn [andb].
    destruct g as [g|]; cbn [opt option_map] in *; [now apply G|reflexivity].
  - destruct i as [[d1 d2 d3 d4 d5 d6 d7 fr g fi]|]; [|destruct a; discriminate]. assert (E' : c' = RDraw (Some (inline_size sw sh (mk_inlineR d1 d2 d3 d4 d5 d6 d7 fr g fi))) a) by (destruct a; congruence). subst c'. clear E. cbn [nd_rchild] in *. apply andb_prop in Q as [Q ->]. rewrite andb_true_r.
    unfold inline_size. cbn [opt inlineR_frame inlineR_graphic set_inlineR_graphic set_inlineR_extent inlineR_extent] in *. apply andb_prop in Q as [-> Q]. cbn [andb].
    destruct g as [g|]; cbn [opt option_map] in *; [now apply G|reflexivity].
Qed.
Lemma copy_graphic_cases : forall (L : GoLib) to f og w w' r, copy_graphic to f og w = Ok (w', r) ->
  match r with
  | CNew dp g => exists g0 d p id rid b n, og = Some g0 /\ graphicR_data g0 = Some d /\ gdataR_pic d = Some p /\ g = set_graphicR_data (Some (set_gdataR_pic (Some (copied_pic id rid b n p)) d)) g0
  | _ => True
  end.
Proof.
  intros L to f og w w' r E. unfold copy_graphic in E. destruct og as [g|]; [|discriminate]. destruct (graphicR_data g) as [d|] eqn:D; [|discriminate].
  destruct (gdataR_pic d) as [p|] eqn:PP.
  - destruct (pic_blip p) as [b|]; [|injection E as <- <-; exact I]. bok E. destruct (refer_target v _) as [tgt|e|]; [|injection E as <- <-; exact I|discriminate].
    bok E. destruct v0 as [idn w1]. bok E. destruct v0 as [idu w2]. destruct (drop 6 tgt) as [name|]; [|discriminate]. bok E. bok E. destruct v1 as [[nm data]|]; [|injection E as <- <-; exact I].
    bok E. destruct v1 as [rid w3]. destruct (pic_nvpic p) as [n|]; [|discriminate]. injection E as <- <-. do 7 eexists. repeat split; eassumption.
  - destruct (gdataR_shape d), (gdataR_canvas d); injection E as <- <-; exact I.
Qed.
Lemma p_copy : forall (L : GoLib) to c w w' c', copy_rchild to c w = Ok (w', c') -> P c -> P c'.
Proof.
  intros L to c w w' c' E Q. unfold P in *. destruct c as [t|t|ty|i a]; cbn [copy_rchild] in E; try (injection E as <- <-; exact Q).
  cbn [nd_rchild] in Q. apply andb_prop in Q as [Q1 Q2]. destruct i as [x|].
  - bok E. destruct v as [w1 r]. injection E as <- <-. pose proof (copy_graphic_cases _ _ _ _ _ _ _ E0) as K. cbn [nd_rchild]. apply andb_true_intro. split; [|reflexivity].
    destruct r as [| |dp g]; [reflexivity|exact Q1|]. destruct K as (g0 & d & p & id & rid & b & n & K1 & K2 & K3 & ->).
    destruct x as [d1 d2 d3 d4 d5 d6 d7 fr gg fi]. cbn [inlineR_graphic] in K1. subst gg. destruct g0 as [xa dd]. cbn [graphicR_data] in K2. subst dd. destruct d as [uri pc sh cv gr]. cbn [gdataR_pic] in K3. subst pc. exact Q1.
  - destruct a as [x|]; [|injection E as <- <-; reflexivity]. bok E. destruct v as [w1 r]. injection E as <- <-. pose proof (copy_graphic_cases _ _ _ _ _ _ _ E0) as K. cbn [nd_rchild]. apply andb_true_intro. split; [reflexivity|].
    destruct r as [| |dp g]; [reflexivity|exact Q2|]. destruct K as (g0 & d & p & id & rid & b & n & K1 & K2 & K3 & ->).
    destruct x as [d1 d2 d3 d4 d5 d6 d7 d8 d9 d10 d11 d12 d13 d14 d15 d16 d17 d18 d19 gg fi]. cbn [anchorR_graphic] in K1. subst gg. destruct g0 as [xa dd]. cbn [graphicR_data] in K2. subst dd. destruct d as [uri pc sh cv gr]. cbn [gdataR_pic] in K3. subst pc. exact Q2.
Qed.
Lemma all_docx : forall d, docx_all P d <-> declared gp d.
Proof. intros d. unfold docx_all, declared. now rewrite all_items. Qed.
Lemma ns_history : forall (L : GoLib) l w, run_ops l [] = Some w -> Forall (brings_declared gp) l -> Forall (declared gp) w.
Proof.
  intros L l w E B. assert (K : world_all P w).
  { eapply (run_all_ops P); [..|exact E| |constructor]; try (intros; reflexivity).
    - intros. eapply p_drawing; eauto.
    - intros. eapply p_shape; eauto.
    - intros. eapply p_size; eauto.
    - intros. eapply p_copy; eauto.
    - eapply Forall_impl; [|exact B]. intros o. destruct o; cbn [brings brings_declared]; auto; [apply all_items|]. intros K n d U. apply all_docx. eauto. }
  eapply Forall_impl; [|exact K]. intros d. apply all_docx.
Qed.
End Hist.
Lemma ns_part' : forall gp d s, declared gp d -> part_of d DOC_NAME s -> ns_tokens [] (lex s) = true.
Proof. intros gp d s [E N]. now apply (ns_part gp). Qed.
Lemma ns_history' : forall (L : GoLib) gp l w d s, run_ops l [] = Some w -> Forall (brings_declared gp) l -> In d w -> part_of d DOC_NAME s -> ns_tokens [] (lex s) = true.
Proof.
  intros L gp l w d s E B I. pose proof (ns_history gp L l w E B) as F. rewrite Forall_forall in F. now apply (ns_part' gp), F.
Qed.
