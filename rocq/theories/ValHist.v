(** The strings in documents through histories of calls: if the strings given
    to the calls have a property, so have all strings in the documents. *)
From Coq Require Import String Ascii List Bool Arith NArith ZArith Lia.
From Verif Require Import GoStr Num Lib Types XmlTok Docx Api Keep Copy Pack History RegFacts HistFacts HistFacts2 DrawIds HistInv ValFacts ValFacts2.
Import ListNotations.
Local Open Scope list_scope.
Local Open Scope string_scope.

(** the fixed strings of the library *)
Definition api_strings : list string :=
  [REL_HYPERLINK; REL_IMAGE; REL_TARGETMODE; XMLNS_REL; XMLNS_WPS; XMLNS_PICTURE; XMLNS_DRAWINGML_MAIN; XMLNS_DRAWINGML_PICTURE; HYPERLINK_STYLE; BLACK; TUPIAN;
   "page"; "print"; "rect"; "column"; "paragraph"; "true"; "false"; "auto"; "dxa"; "single"; "0000"] ++ flat_map (fun r => [rel_id r; rel_type r; rel_target r; rel_mode r]) base_rels.

Section Strings.
Context `{GoLib}.
Variables V W : string -> Prop.
Hypothesis V_nil : V "".
Hypothesis V_int : forall z, V (itoa z).
Hypothesis V_const : Forall V api_strings.
Hypothesis V_rid : forall n, V ("rId" ++ itoa_u n).
Hypothesis V_title : forall s z, V s -> V (s ++ " " ++ itoa z).
Hypothesis V_image : forall n f, V f -> V ("media/" ++ "image" ++ itoa_u n ++ "." ++ f).
Hypothesis V_format : forall s, V s -> V (after_last "." s).
Hypothesis W_nil : W "".
Hypothesis W_split : forall c s, c = NL \/ c = TAB -> W s -> Forall W (split c s).

Lemma K : forall s, existsb (String.eqb s) api_strings = true -> V s.
Proof. intros s E. apply existsb_exists in E. destruct E as [x [I Q]]. apply String.eqb_eq in Q. subst x. exact (proj1 (Forall_forall _ _) V_const s I). Qed.
Ltac cst := first [exact V_nil | assumption | solve [apply K; vm_compute; reflexivity]].
Ltac opn := repeat match goal with P : _ /\ _ |- _ => destruct P end.
Ltac spl := repeat match goal with |- _ /\ _ => split end.

(** ** what a call is given *)
Definition given_rop (o : rop) : Prop :=
  match o with
  | RColor v | RSize v | RSizeCs v | RUnderline v | RHighlight v => V v
  | RShade a b c => V a /\ V b /\ V c
  | RFont a b c d => V a /\ V b /\ V c /\ V d
  | _ => True
  end.
Definition given_pop (o : pop) : Prop :=
  match o with
  | OText t => W t
  | OLink t l => W t /\ V l
  | ODrawing _ data => forall a b f, lib_imgsize data = Some (a, b, f) -> V f
  | OShape _ _ _ n b p ln => V n /\ V b /\ V p /\ oko (ok_aline V) ln
  | OJc v | OStyle v | ONumSize v => V v
  | ONum a b => V a /\ V b
  | ONumFont a b c d => V a /\ V b /\ V c /\ V d
  | ORun _ o => given_rop o
  | _ => True
  end.
Definition given_colors (c : option colors) : Prop :=
  match c with Some x => V (c_top x) /\ V (c_left x) /\ V (c_bottom x) /\ V (c_right x) /\ V (c_insideH x) /\ V (c_insideV x) | None => True end.

Definition ok_rel (r : rel) : Prop := V (rel_id r) /\ V (rel_type r) /\ V (rel_target r) /\ V (rel_mode r).
Definition ok_reg (g : reg) : Prop := V (relns g) /\ Forall ok_rel (rels g).
Definition ok_docx (d : docx) : Prop := Forall (ok_item V W) (d_items d) /\ ok_reg (d_reg d).
Definition ok_world (w : world) : Prop := Forall ok_docx w.
Definition given (o : op) : Prop :=
  match o with
  | OLoad l _ => Forall (ok_item V W) l
  | OPara _ _ o | ODetached _ o => given_pop o
  | OTable _ _ _ _ c | OTwips _ _ _ _ c => given_colors c
  | OTableJc _ _ v | ORowJc _ _ _ v => V v
  | OCellShade _ _ _ _ a b c => V a /\ V b /\ V c
  | OParse a => forall f d, unpack f a = Ok d -> ok_docx d
  | _ => True
  end.

(** ** runs *)
Lemma rpr_ok0 : ok_rpr V rpr0. Proof. unfold ok_rpr. cbn. tauto. Qed.
Lemma ppr_ok0 : ok_ppr V ppr0. Proof. unfold ok_ppr. cbn. tauto. Qed.
Lemma line_ok : forall l b, Forall W l -> Forall (ok_rchild V W) (line_children b l).
Proof.
  induction l as [|k l IH]; intros b F; cbn [line_children]; [constructor|]. inversion F; subst. apply Forall_app. split.
  - destruct b; repeat constructor. exact V_nil.
  - apply Forall_app. split; [|now apply IH]. destruct (String.eqb k ""); repeat constructor; auto.
Qed.
Lemma texts_ok : forall l b, Forall W l -> Forall (ok_rchild V W) (text_children b l).
Proof.
  induction l as [|k l IH]; intros b F; cbn [text_children]; [constructor|]. inversion F; subst. apply Forall_app. split.
  - destruct b; repeat constructor. exact V_nil.
  - apply Forall_app. split; [apply line_ok; apply W_split; auto|auto].
Qed.
Lemma api_run_ok : forall c, Forall (ok_rchild V W) c -> ok_runR V W (api_run c).
Proof. intros c F. unfold ok_runR, api_run. cbn. spl; auto. apply rpr_ok0. Qed.
Lemma graphic_size_ok : forall sw sh g, ok_graphicR V W g -> ok_graphicR V W (graphic_size sw sh g).
Proof.
  intros sw sh g G. unfold graphic_size. destruct (graphicR_data g) as [d|] eqn:D; [|exact G]. destruct (gdataR_pic d) as [p|] eqn:P; [|exact G].
  destruct (pic_sp p) as [s|] eqn:S; [|exact G]. unfold ok_graphicR in *. rewrite D in G. cbn in *. destruct G as [G1 G2]. split; [exact G1|]. unfold ok_gdataR in *. rewrite P in G2. cbn in *.
  opn. spl; auto. unfold ok_pic in *. rewrite S in *. cbn in *. opn. spl; auto.
Qed.
Lemma oko_map : forall A (Q : A -> Prop) (f : A -> A) o, (forall x, Q x -> Q (f x)) -> oko Q o -> oko Q (option_map f o).
Proof. intros A Q f [x|] F O; cbn in *; auto. Qed.
Lemma size_ok : forall anch sw sh c c', child_size anch sw sh c = Ok c' -> ok_rchild V W c -> ok_rchild V W c'.
Proof.
  intros anch sw sh [t|t|t|[i|] [a|]] c' E S; destruct anch; cbn in E; try discriminate; injection E as <-; cbn in *; destruct S as [S1 S2]; (split; [try exact S1|try exact S2]);
    unfold ok_inlineR, ok_anchorR in *; cbn; opn; spl; auto; apply oko_map; auto; intros; now apply graphic_size_ok.
Qed.
Lemma rop_ok : forall o r r', exec_rop o r = Ok r' -> given_rop o -> ok_runR V W r -> ok_runR V W r'.
Proof.
  intros o r r' E G S. destruct o; cbn [exec_rop] in E;
    try (unfold run_color, run_size, run_sizecs, run_shade, run_spacing, run_bold, run_italic, run_underline, run_highlight, run_strike, run_font, on_rpr in E;
         destruct (runR_rpr r) as [q|] eqn:Q; [|discriminate]; injection E as <-; unfold ok_runR in *; rewrite Q in S; cbn in *; unfold ok_rpr in *; cbn in *;
         unfold ok_shade, ok_spacing, ok_rfonts; cbn; opn; spl; auto; fail).
  - unfold run_strike, on_rpr in E. destruct (runR_rpr r) as [q|] eqn:Q; [|discriminate]. injection E as <-. unfold ok_runR in *. rewrite Q in S. cbn in *. unfold ok_rpr in *. cbn in *.
    opn; spl; auto. destruct b; cst.
  - injection E as <-. unfold ok_runR in *. cbn. opn. spl; auto. apply Forall_app. split; auto.
  - injection E as <-. unfold ok_runR in *. cbn. opn. spl; auto. now apply keep_all.
  - destruct (nth_error (runR_children r) k) as [c|] eqn:N; [|discriminate]. bok E. injection E as <-. unfold ok_runR in *. cbn. opn. spl; auto.
    apply set_nth_all; auto. eapply size_ok; eauto. eapply nth_all; eauto.
Qed.

(** ** registries *)
Lemma docid_ok : forall g, ok_reg g -> ok_reg (snd (inc_docid g)).
Proof. intros g G. exact G. Qed.
Lemma slow_ok : forall n g, ok_reg g -> ok_reg (snd (increase_id n g)).
Proof. intros n g G. exact G. Qed.
Lemma rel_ok : forall ty tg m g, V ty -> V tg -> V m -> ok_reg g -> ok_reg (snd (add_rel ty tg m g)).
Proof. intros ty tg m g A B C [G1 G2]. split; [exact G1|]. cbn. apply Forall_app. split; auto. repeat constructor; auto. cbn. apply V_rid. Qed.
Lemma link_ok : forall l g, V l -> ok_reg g -> ok_reg (snd (add_link_relation l g)).
Proof. intros l g A G. apply rel_ok; auto; cst. Qed.
Lemma image_ok : forall f d g, V f -> ok_reg g -> ok_reg (snd (add_image f d g)).
Proof. intros f d g A G. unfold add_image, add_image_relation. apply rel_ok; try cst. now apply V_image. Qed.
Lemma new_image_ok : forall f d g, V f -> ok_reg g -> ok_reg (snd (new_image f d g)).
Proof.
  intros f d g A G. unfold new_image. destruct (inc_docid g) as [a g1] eqn:E1. destruct (increase_id TUPIAN g1) as [b g2] eqn:E2. destruct (add_image f d g2) as [c g3] eqn:E3. cbn.
  change g3 with (snd (c, g3)). rewrite <- E3. apply image_ok; auto. change g2 with (snd (b, g2)). rewrite <- E2. apply slow_ok. change g1 with (snd (a, g1)). rewrite <- E1. now apply docid_ok.
Qed.
Lemma shape_ids_ok : forall n g, ok_reg g -> ok_reg (snd (new_shape_ids n g)).
Proof.
  intros n g G. unfold new_shape_ids. destruct (inc_docid g) as [a g1] eqn:E1. destruct (increase_id n g1) as [b g2] eqn:E2. cbn.
  change g2 with (snd (b, g2)). rewrite <- E2. apply slow_ok. change g1 with (snd (a, g1)). rewrite <- E1. now apply docid_ok.
Qed.
Lemma on_file_ok : forall A w f (k : reg -> A * reg) x w', on_file w f k = Ok (x, w') -> (forall g, ok_reg g -> ok_reg (snd (k g))) -> ok_world w -> ok_world w'.
Proof.
  intros A w f k x w' E G F. unfold on_file in E. destruct f as [i|]; [|discriminate]. destruct (nth_error w i) as [d|] eqn:D; [|discriminate].
  destruct (k (d_reg d)) as [v g] eqn:Q. inversion E; subst. apply set_nth_all; auto. destruct (nth_all _ _ _ _ _ F D) as [D1 D2]. split; [exact D1|]. cbn.
  change g with (snd (x, g)). rewrite <- Q. auto.
Qed.
Lemma on_file_fst : forall A w f (k : reg -> A * reg) x w', on_file w f k = Ok (x, w') -> exists g, x = fst (k g).
Proof.
  intros A w f k x w' E. unfold on_file in E. destruct f as [i|]; [|discriminate]. destruct (nth_error w i) as [d|] eqn:D; [|discriminate].
  destruct (k (d_reg d)) as [v g] eqn:Q. inversion E; subst. exists (d_reg d). now rewrite Q.
Qed.
Lemma new_image_id : forall f d g a b c g', new_image f d g = ((a, b, c), g') -> V c.
Proof.
  intros f d g a b c g' E. unfold new_image in E. destruct (inc_docid g) as [x g1]. destruct (increase_id TUPIAN g1) as [y g2]. destruct (add_image f d g2) as [z g3] eqn:E3. inversion E; subst.
  unfold add_image, add_image_relation, add_rel in E3. inversion E3; subst. apply V_rid.
Qed.
Lemma shape_ids_name : forall n g a b g', new_shape_ids n g = ((a, b), g') -> V n -> V (n ++ " " ++ b).
Proof.
  intros n g a b g' E N. unfold new_shape_ids in E. destruct (inc_docid g) as [x g1]. destruct (increase_id n g1) as [y g2]. inversion E; subst. unfold itoa_u. now apply V_title.
Qed.

(** ** paragraphs *)
Lemma add_ok : forall c p, ok_pchild V W c -> ok_para V W p -> ok_para V W (add_child c p).
Proof. intros c [[pp ch f]] C [P1 P2]. split; cbn in *; auto. apply Forall_app. auto. Qed.
Lemma para_drop_ok : forall n p, ok_para V W p -> ok_para V W (para_drop n p).
Proof.
  intros n [[pp ch f]] P. unfold para_drop. destruct (drop_test n) as [t|]; [|exact P]. destruct P as [P1 P2]. split; [exact P1|]. cbn in *.
  eapply map_all; [|exact P2]. intros [r|id r|r] Q; cbn in *; auto. unfold ok_runR in *. cbn. opn. spl; auto. now apply filter_all.
Qed.
Lemma pic_graphic_ok : forall id n r ew eh, V n -> V r -> ok_graphicR V W (pic_graphic id n r ew eh).
Proof. intros. split; [cst|]. cbn. unfold ok_gdataR. cbn. unfold ok_pic, ok_picsp, ok_picblip, ok_ablip, ok_nvpic, ok_nonvis. cbn. spl; auto; cst. Qed.
Lemma pic_title_ok : forall z, V (pic_title z).
Proof. intros z. unfold pic_title. apply V_title. cst. Qed.
Lemma shape_graphic_ok : forall sw sh b p ln, V b -> V p -> oko (ok_aline V) ln -> ok_graphicR V W (shape_graphic sw sh b p ln).
Proof.
  intros sw sh b p ln B P L. split; [cst|]. unfold ok_gdataR. cbn [shape_graphic graphicR_data oko gdataR_uri gdataR_pic gdataR_shape gdataR_canvas gdataR_group]. spl; auto; [cst|].
  apply (k_shape V V_nil V_int W). unfold ok_shapeR, ok_sppr, ok_geom, ok_bodypr. cbn. spl; auto; cst.
Qed.
Lemma drawing_ok : forall anch data w p w' p', add_drawing anch data w p = Ok (w', p') -> given_pop (ODrawing anch data) -> ok_world w -> ok_para V W p -> ok_world w' /\ ok_para V W p'.
Proof.
  intros anch data w p w' p' E G F P. unfold add_drawing in E. cbn in G. destruct (lib_imgsize data) as [[[sw sh] fm]|]; [|discriminate]. specialize (G _ _ _ eq_refl).
  bok E. destruct v as [[[idn id] r] w1]. bok E. destruct v as [ew eh]. injection E as <- <-.
  assert (R : V r). { destruct (on_file_fst _ _ _ _ _ _ E0) as [g Q]. destruct (new_image fm data g) as [x g'] eqn:N. cbn in Q. subst x. eapply new_image_id; eauto. }
  split; [eapply on_file_ok; [exact E0| |exact F]; intros; now apply new_image_ok|]. apply add_ok; auto. cbn [ok_pchild]. apply api_run_ok. repeat constructor.
  assert (T := pic_title_ok id). destruct anch; (split; [|exact I || idtac]); cbn [oko]; try exact I.
  - unfold ok_anchorR, pic_anchor, ok_wpos, ok_glocks, ok_nonvis. cbn [anchorR_posH anchorR_posV anchorR_wrapSquare anchorR_docPr anchorR_frame anchorR_graphic oko wpos_rel nonvis_name glocks_xmla].
    spl; auto; try cst. now apply pic_graphic_ok.
  - unfold ok_inlineR, pic_inline, ok_glocks, ok_nonvis. cbn [inlineR_docPr inlineR_frame inlineR_graphic oko nonvis_name glocks_xmla]. spl; auto; try cst. now apply pic_graphic_ok.
Qed.
Lemma shape_ok : forall anch sw sh n b pr ln w p w' p', add_shape anch sw sh n b pr ln w p = Ok (w', p') -> given_pop (OShape anch sw sh n b pr ln) -> ok_world w -> ok_para V W p ->
  ok_world w' /\ ok_para V W p'.
Proof.
  intros anch sw sh n b pr ln w p w' p' E [N [B [PR L]]] F P. unfold add_shape in E. bok E. destruct v as [[idn ids] w1]. cbv zeta in E. injection E as <- <-.
  assert (R : V (n ++ " " ++ ids)). { destruct (on_file_fst _ _ _ _ _ _ E0) as [g Q]. destruct (new_shape_ids n g) as [x g'] eqn:M. cbn in Q. subst x. eapply shape_ids_name; eauto. }
  split; [eapply on_file_ok; [exact E0| |exact F]; intros; now apply shape_ids_ok|]. apply add_ok; auto. cbn [ok_pchild]. apply api_run_ok. repeat constructor.
  destruct anch; cbn [ok_rchild oko]; split; try exact I.
  - unfold ok_anchorR, ok_wpos, ok_glocks, ok_nonvis. cbn [anchorR_posH anchorR_posV anchorR_wrapSquare anchorR_docPr anchorR_frame anchorR_graphic oko wpos_rel nonvis_name glocks_xmla].
    spl; auto; try cst. now apply shape_graphic_ok.
  - unfold ok_inlineR, ok_glocks, ok_nonvis. cbn [inlineR_docPr inlineR_frame inlineR_graphic oko nonvis_name glocks_xmla]. spl; auto; try cst. now apply shape_graphic_ok.
Qed.
Lemma the_ppr_ok : forall p, ok_para V W p -> ok_ppr V (the_ppr p).
Proof. intros [[[q|] ch f]] [P _]; [exact P|apply ppr_ok0]. Qed.
Lemma the_rpr_ok : forall q, ok_ppr V q -> ok_rpr V (the_rpr q).
Proof. intros q Q. unfold the_rpr. unfold ok_ppr in Q. opn. destruct (ppr_rpr q); [assumption|apply rpr_ok0]. Qed.
Lemma set_ppr_ok : forall q p, ok_ppr V q -> ok_para V W p -> ok_para V W (set_para_ppr (Some q) p).
Proof. intros q [[pp ch f]] Q [_ P]. split; [exact Q|exact P]. Qed.
Lemma set_children_ok : forall l p, Forall (ok_pchild V W) l -> ok_para V W p -> ok_para V W (set_para_children l p).
Proof. intros l [[pp ch f]] L [P _]. split; [exact P|exact L]. Qed.
Lemma children_ok : forall p, ok_para V W p -> Forall (ok_pchild V W) (para_children p).
Proof. intros [[pp ch f]] [_ P]. exact P. Qed.
Lemma pop_ok : forall o w p w' p', exec_pop o w p = Ok (w', p') -> given_pop o -> ok_world w -> ok_para V W p -> ok_world w' /\ ok_para V W p'.
Proof.
  intros o w p w' p' E G F P. pose proof (the_ppr_ok _ P) as Q. pose proof (the_rpr_ok _ Q) as R.
  destruct o; cbn [exec_pop] in E; cbn [given_pop] in G; try (match type of E with Ok _ = Ok _ => injection E as <- <-; split; [exact F|] end).
  - unfold add_text, add_tab. destruct (String.eqb t _); apply add_ok; auto; cbn; apply api_run_ok; [repeat constructor; exact V_nil|]. apply texts_ok. apply W_split; auto.
  - apply add_ok; auto. cbn. apply api_run_ok. repeat constructor. exact V_nil.
  - apply add_ok; auto. cbn. apply api_run_ok. repeat constructor. cbn. cst.
  - destruct G. unfold add_link in E. bok E. destruct v as [id w1]. injection E as <- <-. split; [eapply on_file_ok; [exact E0| |exact F]; intros; now apply link_ok|].
    apply add_ok; auto. cbn [ok_pchild]. destruct (on_file_fst _ _ _ _ _ _ E0) as [g ->]. split; [cbn; apply V_rid|]. unfold ok_runR, ok_rpr. cbn. spl; auto. cst.
  - eapply drawing_ok; eauto.
  - eapply shape_ok; eauto.
  - apply set_ppr_ok; auto. unfold ok_ppr in *. cbn. opn. spl; auto.
  - apply set_ppr_ok; auto. unfold ok_ppr in *. cbn. opn. spl; auto.
  - apply set_ppr_ok; auto. unfold ok_ppr in *. cbn. unfold ok_numpr. opn. spl; cbn; spl; auto.
  - apply set_ppr_ok; auto. unfold ok_ppr in *. cbn. unfold ok_rpr in *. cbn. unfold ok_rfonts. opn. spl; cbn; spl; auto.
  - apply set_ppr_ok; auto. unfold ok_ppr in *. cbn. unfold ok_rpr in *. cbn. opn. spl; cbn; spl; auto.
  - apply set_children_ok; auto. apply keep_all. now apply children_ok.
  - now apply para_drop_ok.
  - pose proof (children_ok _ P) as C. destruct (nth_error (para_children p) k) as [[r|id r|r]|] eqn:N; try discriminate; bok E; injection E as <- <-; (split; [exact F|]);
      pose proof (nth_all _ _ _ _ _ C N) as X; apply set_children_ok; auto; apply set_nth_all; auto; cbn in *; [|destruct X; split; auto]; eapply rop_ok; eauto.
Qed.

Lemma detached_ok : forall o w p w' p', exec_pop o w p = Ok (w', p') -> given_pop o -> ok_world w -> ok_world w'.
Proof.
  intros o w p w' p' E G F. destruct o; cbn [exec_pop] in E; cbn [given_pop] in G; try (injection E as <- <-; exact F).
  - unfold add_link in E. bok E. destruct v as [id w1]. injection E as <- <-. eapply on_file_ok; [exact E0| |exact F]. intros. now apply link_ok.
  - unfold add_drawing in E. destruct (lib_imgsize data) as [[[sw sh] fm]|]; [|discriminate]. bok E. destruct v as [[[a b] c] w1]. bok E. destruct v as [ew eh]. injection E as <- <-.
    eapply on_file_ok; [exact E0| |exact F]. intros. apply new_image_ok; auto. eapply G; eauto.
  - unfold add_shape in E. bok E. destruct v as [[a b] w1]. injection E as <- <-. eapply on_file_ok; [exact E0| |exact F]. intros. now apply shape_ids_ok.
  - destruct (nth_error (para_children p) k) as [[r|id r|r]|]; try discriminate; bok E; injection E as <- <-; exact F.
Qed.

(** ** copying *)
Lemma file_reg_ok : forall w f g, file_reg w f = Ok g -> ok_world w -> ok_reg g.
Proof. intros w f g E F. unfold file_reg in E. destruct f as [i|]; [|discriminate]. destruct (nth_error w i) as [d|] eqn:D; [|discriminate]. injection E as <-. exact (proj2 (nth_all _ _ _ _ _ F D)). Qed.
Lemma target_ok : forall g id t, refer_target g id = Ok t -> ok_reg g -> V t.
Proof.
  intros g id t E [_ G]. unfold refer_target in E. induction G as [|a l A G IH]; cbn in E; [discriminate|]. destruct (String.eqb _ _); [|auto]. injection E as <-. apply A.
Qed.
Lemma copied_pic_ok : forall id rid b n p, V rid -> pic_blip p = Some b -> ok_pic V p -> ok_pic V (copied_pic id rid b n p).
Proof.
  intros id rid b n p R B P. unfold ok_pic, copied_pic in *. rewrite B in P. cbn [pic_xmlpic pic_nvpic pic_blip pic_sp oko] in *. opn. spl; auto.
  - apply pic_title_ok.
  - unfold ok_picblip, ok_ablip in *. cbn [picblip_blip ablip_embed ablip_cstate]. tauto.
Qed.
Definition ok_copied (c : copied) : Prop := match c with CNew dp g => ok_nonvis V dp /\ ok_graphicR V W g | _ => True end.
Lemma copy_graphic_ok : forall to f og w w' c, copy_graphic to f og w = Ok (w', c) -> oko (ok_graphicR V W) og -> ok_world w -> ok_world w' /\ ok_copied c.
Proof.
  intros to f og w w' c E G F. unfold copy_graphic in E. destruct og as [g|]; [|discriminate]. cbn in G. destruct (graphicR_data g) as [d|] eqn:D; [|discriminate].
  destruct (gdataR_pic d) as [p|] eqn:P.
  - destruct (pic_blip p) as [b|] eqn:B; [|inversion E; subst; split; [exact F|exact I]].
    bok E. rename v into src. pose proof (file_reg_ok _ _ _ E0 F) as S. destruct (refer_target src _) as [tgt|e|] eqn:T; [|inversion E; subst; split; [exact F|exact I]|discriminate].
    pose proof (target_ok _ _ _ T S) as VT.
    bok E. destruct v as [idn w1]. bok E. destruct v as [idu w2].
    assert (F2 : ok_world w2). { eapply on_file_ok; [exact E2|intros; now apply slow_ok|]. eapply on_file_ok; [exact E1|intros; now apply docid_ok|exact F]. }
    destruct (drop 6 tgt); [|discriminate]. bok E. bok E. destruct v0 as [[? data]|]; [|inversion E; subst; split; [exact F2|exact I]].
    bok E. destruct v0 as [rid w3]. destruct (pic_nvpic p) as [n|] eqn:NV; [|discriminate]. cbv zeta in E. injection E as <- <-.
    split; [eapply on_file_ok; [exact E5| |exact F2]; intros; apply image_ok; auto; now apply V_format|].
    assert (R : V rid) by (destruct (on_file_fst _ _ _ _ _ _ E5) as [g0 ->]; apply V_rid).
    split; [apply pic_title_ok|]. unfold ok_graphicR in *. rewrite D in G. cbn [oko] in G. destruct G as [G1 G2]. split; [exact G1|]. unfold ok_gdataR in *. rewrite P in G2. cbn [oko] in G2.
    cbn [set_graphicR_data graphicR_data set_gdataR_pic gdataR_uri gdataR_pic gdataR_shape gdataR_canvas gdataR_group oko]. opn. spl; auto. now apply copied_pic_ok.
  - destruct (gdataR_shape d), (gdataR_canvas d); inversion E; subst; split; auto; exact I.
Qed.
Lemma copy_rchild_ok : forall to c w w' c', copy_rchild to c w = Ok (w', c') -> ok_rchild V W c -> ok_world w -> ok_world w' /\ ok_rchild V W c'.
Proof.
  intros to c w w' c' E C F. destruct c as [t|t|t|[x|] oy]; cbn [copy_rchild] in E; try (inversion E; subst; split; assumption).
  - cbn [ok_rchild oko] in C. destruct C as [C _]. bok E. destruct v as [w1 r]. injection E as <- <-. unfold ok_inlineR in C. destruct C as [C1 [C2 C3]].
    destruct (copy_graphic_ok _ _ _ _ _ _ E0 C3 F) as [F1 R]. split; [exact F1|]. split; [|exact I]. destruct r as [| |dp g]; cbn; [exact I|unfold ok_inlineR; auto|]. unfold ok_inlineR. cbn. destruct R. auto.
  - cbn [ok_rchild oko] in C. destruct C as [_ C]. destruct oy as [y|]; [|inversion E; subst; split; [exact F|split; exact I]].
    bok E. destruct v as [w1 r]. injection E as <- <-. cbn [oko] in C. unfold ok_anchorR in C. opn. match goal with Q : oko (ok_graphicR V W) _ |- _ => destruct (copy_graphic_ok _ _ _ _ _ _ E0 Q F) as [F1 R] end.
    split; [exact F1|]. split; [exact I|]. destruct r as [| |dp g]; cbn; [exact I|unfold ok_anchorR; spl; auto|]. unfold ok_anchorR. cbn. destruct R. spl; auto.
Qed.
Lemma copy_list_ok : forall A B (Q : A -> Prop) (R : B -> Prop) (f : A -> world -> res (world * B)),
  (forall x w w' y, f x w = Ok (w', y) -> Q x -> ok_world w -> ok_world w' /\ R y) -> forall l w w' l', copy_list f l w = Ok (w', l') -> Forall Q l -> ok_world w -> ok_world w' /\ Forall R l'.
Proof.
  intros A B Q R f K. induction l as [|x l IH]; intros w w' l' E F G; cbn [copy_list] in E; [injection E as <- <-; split; [exact G|constructor]|].
  inversion F; subst. bok E. destruct v as [w1 y]. bok E. destruct v as [w2 l2]. injection E as <- <-. destruct (K _ _ _ _ E0 H2 G) as [G1 Y]. destruct (IH _ _ _ E1 H3 G1). auto.
Qed.
Lemma copy_run_ok : forall to r w w' r', copy_run to r w = Ok (w', r') -> ok_runR V W r -> ok_world w -> ok_world w' /\ ok_runR V W r'.
Proof.
  intros to r w w' r' E R F. unfold copy_run in E. bok E. destruct v as [w1 l]. injection E as <- <-. unfold ok_runR in *. opn.
  match goal with Q : Forall _ _ |- _ => destruct (copy_list_ok _ _ _ _ _ (copy_rchild_ok to) _ _ _ _ E0 Q F) end. cbn. spl; auto.
Qed.
Lemma copy_pchild_ok : forall to f c w w' c', copy_pchild to f c w = Ok (w', c') -> ok_pchild V W c -> ok_world w -> ok_world w' /\ opt_all (ok_pchild V W) c'.
Proof.
  intros to f c w w' c' E C F. destruct c as [r|id r|r]; cbn [copy_pchild] in E; cbn [ok_pchild] in C.
  - bok E. destruct v as [w1 y]. injection E as <- <-. eapply copy_run_ok; eauto.
  - destruct C as [C1 C2]. bok E. pose proof (file_reg_ok _ _ _ E0 F) as S. destruct (refer_target v id) as [tgt|e|] eqn:T; try discriminate; [|injection E as <- <-; split; [exact F|exact I]].
    pose proof (target_ok _ _ _ T S). bok E. destruct v0 as [rid w1]. bok E. destruct v0 as [w2 y]. injection E as <- <-.
    assert (F1 : ok_world w1) by (eapply on_file_ok; [exact E1| |exact F]; intros; now apply link_ok).
    destruct (copy_run_ok _ _ _ _ _ E2 C2 F1). split; auto. cbn. split; auto. destruct (on_file_fst _ _ _ _ _ _ E1) as [g ->]. cbn. apply V_rid.
  - injection E as <- <-. split; [exact F|exact C].
Qed.
Lemma copy_para_ok : forall to p w w' p', copy_para to p w = Ok (w', p') -> ok_para V W p -> ok_world w -> ok_world w' /\ ok_para V W p'.
Proof.
  intros to p w w' p' E P F. unfold copy_para in E. bok E. destruct v as [w1 l]. injection E as <- <-.
  destruct (copy_list_ok _ _ _ _ _ (copy_pchild_ok to (para_file p)) _ _ _ _ E0 (children_ok _ P) F) as [F1 L]. split; [exact F1|]. destruct p as [[pp ch f]]. split; [exact (proj1 P)|]. cbn. now apply somes_all.
Qed.
Lemma copy_cell_ok : forall to p w w' p', copy_cell to p w = Ok (w', p') -> ok_cell V W p -> ok_world w -> ok_world w' /\ ok_cell V W p'.
Proof.
  intros to p w w' p' E P F. unfold copy_cell in E. bok E. destruct v as [w1 l]. injection E as <- <-. destruct P as [P1 P2].
  destruct (copy_list_ok _ _ _ _ _ (copy_para_ok to) _ _ _ _ E0 P2 F). split; auto. split; auto.
Qed.
Lemma copy_row_ok : forall to p w w' p', copy_row to p w = Ok (w', p') -> ok_row V W p -> ok_world w -> ok_world w' /\ ok_row V W p'.
Proof.
  intros to p w w' p' E P F. unfold copy_row in E. bok E. destruct v as [w1 l]. injection E as <- <-. destruct P as [P1 P2].
  destruct (copy_list_ok _ _ _ _ _ (copy_cell_ok to) _ _ _ _ E0 P2 F). split; auto. split; auto.
Qed.
Lemma copy_item_ok : forall to p w w' p', copy_item to p w = Ok (w', p') -> ok_item V W p -> ok_world w -> ok_world w' /\ ok_item V W p'.
Proof.
  intros to p w w' p' E P F. destruct p as [p|t|s]; cbn [copy_item] in E; cbn [ok_item] in P.
  - bok E. destruct v as [w1 y]. injection E as <- <-. eapply copy_para_ok; eauto.
  - bok E. destruct v as [w1 y]. injection E as <- <-. unfold copy_table in E0. bok E0. destruct v as [w2 l]. injection E0 as <- <-. destruct P as [P1 P2].
    destruct (copy_list_ok _ _ _ _ _ (copy_row_ok to) _ _ _ _ E P2 F). split; auto. split; auto.
  - injection E as <- <-. split; assumption.
Qed.

(** ** documents and worlds *)
Lemma add_item_ok : forall x d, ok_item V W x -> ok_docx d -> ok_docx (add_item x d).
Proof. intros x d X [D1 D2]. split; [|exact D2]. cbn. apply Forall_app. auto. Qed.
Lemma copy_push_ok : forall to x w w', copy_push to x w = Ok w' -> ok_item V W x -> ok_world w -> ok_world w'.
Proof.
  intros to x w w' E X F. unfold copy_push in E. bok E. destruct v as [w1 y]. unfold push_item in E. destruct (nth_error w1 to) as [d|] eqn:D; [|discriminate].
  injection E as <-. destruct (copy_item_ok _ _ _ _ _ E0 X F) as [F1 Y]. apply set_nth_all; auto. apply add_item_ok; auto. exact (nth_all _ _ _ _ _ F1 D).
Qed.
Lemma append_items_ok : forall to l w w', append_items to l w = Ok w' -> Forall (ok_item V W) l -> ok_world w -> ok_world w'.
Proof.
  intros to. induction l as [|x l IH]; intros w w' E X F; cbn [append_items] in E; [injection E as <-; auto|]. inversion X; subst. bok E.
  eapply IH; eauto. eapply copy_push_ok; eauto.
Qed.
Lemma empty_ok : ok_reg empty_reg.
Proof. split; [cst|]. repeat (apply Forall_cons; [unfold ok_rel; cbn [rel_id rel_type rel_target rel_mode]; spl; cst|]). apply Forall_nil. Qed.
Lemma new_part_ok : forall t w, ok_world w -> ok_world (new_part t w).
Proof. intros t w F. unfold new_part. apply Forall_app. split; [exact F|]. constructor; [|constructor]. split; [constructor|exact empty_ok]. Qed.
Lemma split_items_ok : forall t sep l cur fresh w w', split_items t sep l cur fresh w = Ok w' -> Forall (ok_item V W) l -> ok_world w -> ok_world w'.
Proof.
  intros t sep. induction l as [|x l IH]; intros cur fresh w w' E X F; cbn [split_items] in E; [injection E as <-; auto|]. inversion X; subst.
  assert (Q : forall c v, bind (copy_push c x v) (fun w1 => split_items t sep l c false w1) = Ok w' -> ok_world v -> ok_world w').
  { intros c v E' Y. bok E'. eapply IH; eauto. eapply copy_push_ok; eauto. }
  destruct x as [p|tb|s]; try (eapply Q; eauto; fail). bok E. destruct (_ && _)%bool; [|eapply Q; eauto]. eapply Q; eauto. now apply new_part_ok.
Qed.
Lemma on_doc_ok : forall w i k w', on_doc w i k = Ok w' -> (forall d d', k d = Ok d' -> ok_docx d -> ok_docx d') -> ok_world w -> ok_world w'.
Proof.
  intros w i k w' E Q F. destruct (on_doc_inv _ _ _ _ E) as [d [d' [D [D' ->]]]]. apply set_nth_all; auto. eapply Q; eauto. exact (nth_all _ _ _ _ _ F D).
Qed.
Lemma get_cell_ok : forall l i r c v, get_cell l i r c = Some v -> Forall (ok_item V W) l -> ok_cell V W v.
Proof.
  intros l i r c v E F. unfold get_cell in E. destruct (nth_error l i) as [[p|t|s]|] eqn:N; try discriminate.
  destruct (nth_error (table_rows t) r) as [x|] eqn:R; [|discriminate]. destruct (nth_all _ _ _ _ _ F N) as [_ Q].
  exact (nth_all _ _ _ _ _ (proj2 (nth_all _ _ _ _ _ Q R)) E).
Qed.
Lemma put_cell_ok : forall l i r c v, ok_cell V W v -> Forall (ok_item V W) l -> Forall (ok_item V W) (put_cell l i r c v).
Proof.
  intros l i r c v C F. unfold put_cell. destruct (nth_error l i) as [[p|t|s]|] eqn:N; auto.
  destruct (nth_error (table_rows t) r) as [x|] eqn:R; auto. destruct (nth_all _ _ _ _ _ F N) as [Q1 Q2]. apply set_nth_all; auto. split; [exact Q1|]. cbn.
  destruct (nth_all _ _ _ _ _ Q2 R) as [Q3 Q4]. apply set_nth_all; auto. split; [exact Q3|]. cbn. now apply set_nth_all.
Qed.
Lemma get_para_ok : forall l a p, get_para l a = Some p -> Forall (ok_item V W) l -> ok_para V W p.
Proof.
  intros l [i|i r c k] p E F; cbn [get_para] in E.
  - destruct (nth_error l i) as [[q|t|s]|] eqn:N; try discriminate. injection E as <-. exact (nth_all _ _ _ _ _ F N).
  - destruct (get_cell l i r c) as [x|] eqn:C; [|discriminate]. exact (nth_all _ _ _ _ _ (proj2 (get_cell_ok _ _ _ _ _ C F)) E).
Qed.
Lemma put_para_ok : forall l a p, ok_para V W p -> Forall (ok_item V W) l -> Forall (ok_item V W) (put_para l a p).
Proof.
  intros l [i|i r c k] p Q F; cbn [put_para]; [now apply set_nth_all|].
  destruct (get_cell l i r c) as [x|] eqn:C; auto. destruct (get_cell_ok _ _ _ _ _ C F). apply put_cell_ok; auto. split; auto. cbn. now apply set_nth_all.
Qed.
Lemma colors_ok : forall c, given_colors c -> given_colors (Some (fst (use_colors c))).
Proof.
  intros c C. assert (B : V BLACK) by cst. assert (Q : forall s, V s -> V (if String.eqb s "" then BLACK else s)) by (intros s S; destruct (String.eqb s ""); assumption).
  destruct c as [[a b c d e f]|]; cbn in *; opn; spl; auto.
Qed.
Lemma table_props_ok : forall z c, given_colors (Some c) -> ok_tblpr V (table_properties z c).
Proof. intros z c C. cbn in C. opn. unfold ok_tblpr, table_properties, ok_borders, ok_border, ok_wtype, ok_look. cbn. spl; auto; try cst. destruct (0 <? iv z)%Z; cbn; cst. Qed.

Lemma exec_ok : forall o w w', exec o w = Ok w' -> given o -> ok_world w -> ok_world w'.
Proof.
  intros o w w' E B F. destruct o; cbn [exec] in E; cbn [given] in B.
  - injection E as <-. apply Forall_app. split; auto. constructor; [|constructor]. split; [constructor|exact empty_ok].
  - injection E as <-. apply Forall_app. split; auto. constructor; [|constructor]. split; [exact B|]. split; [cst|exact (proj2 empty_ok)].
  - destruct (nth_error w d) as [x|] eqn:D; [|discriminate]. destruct (get_para (d_items x) a) as [p|] eqn:G; [|discriminate]. bok E. destruct v as [w1 p1].
    pose proof (nth_all _ _ _ _ _ F D) as [FX _]. destruct (pop_ok _ _ _ _ _ E0 B F (get_para_ok _ _ _ G FX)) as [F1 Q].
    eapply on_doc_ok; [exact E| |exact F1]. intros y y' [=<-] [Y1 Y2]. split; [|exact Y2]. cbn. now apply put_para_ok.
  - bok E. destruct v as [w1 p1]. injection E as <-. eapply detached_ok; eauto.
  - eapply on_doc_ok; eauto. intros y y' [=<-] Y. apply add_item_ok; auto. split; constructor.
  - eapply on_doc_ok; eauto. intros y y' Q [Y1 Y2]. cbv beta in Q. destruct (get_cell (d_items y) i r c) as [v|] eqn:C; [|discriminate]. injection Q as <-.
    split; [|exact Y2]. cbn. destruct (get_cell_ok _ _ _ _ _ C Y1). apply put_cell_ok; auto. split; auto. cbn. apply Forall_app. split; auto. repeat constructor.
  - eapply on_doc_ok; eauto. intros y y' Q Y. cbv beta in Q. unfold add_table in Q. destruct (iv r <? 0)%Z; [discriminate|]. destruct (_ && _)%bool; [discriminate|].
    pose proof (colors_ok _ B) as CO. destruct (use_colors col) as [cs col']. cbn [bind fst] in *. injection Q as <-. apply add_item_ok; auto. split; [now apply table_props_ok|].
    apply repeat_all. split; [cbn; unfold ok_trpr; cbn; auto|]. apply repeat_all. split; [|constructor]. cbn. unfold ok_tcpr, ok_wtype. cbn. spl; auto. cst.
  - eapply on_doc_ok; eauto. intros y y' Q Y. cbv beta in Q. unfold add_table_twips in Q. pose proof (colors_ok _ B) as CO. destruct (use_colors col) as [cs col']. cbn [bind fst] in *. injection Q as <-.
    apply add_item_ok; auto. split; [now apply table_props_ok|]. cbn. apply Forall_forall. intros x I. apply in_map_iff in I. destruct I as [h [<- _]].
    split; [cbn [twips_row row_props oko]; destruct (0 <? iv h)%Z; cbn; unfold ok_trpr, ok_trheight; cbn; auto|]. cbn.
    apply Forall_forall. intros c I. apply in_map_iff in I. destruct I as [z [<- _]]. split; [|constructor]. cbn. unfold ok_tcpr, ok_wtype. cbn. spl; auto. cst.
  - eapply on_doc_ok; eauto. intros y y' Q [Y1 Y2]. cbv beta in Q. destruct (nth_error (d_items y) i) as [[p|t|s]|] eqn:T; try discriminate. bok Q. injection Q as <-.
    split; [|exact Y2]. cbn. apply set_nth_all; auto. unfold table_justification in E0. destruct (nth_all _ _ _ _ _ Y1 T) as [T1 T2]. destruct (table_props t) as [q|]; [|discriminate]. injection E0 as <-.
    split; [|exact T2]. cbn in *. unfold ok_tblpr in *. cbn. opn. spl; auto.
  - eapply on_doc_ok; eauto. intros y y' Q [Y1 Y2]. cbv beta in Q. destruct (nth_error (d_items y) i) as [[p|t|s]|] eqn:T; try discriminate.
    destruct (nth_error (table_rows t) r) as [x|] eqn:R; [|discriminate]. bok Q. injection Q as <-. split; [|exact Y2]. cbn. apply set_nth_all; auto.
    destruct (nth_all _ _ _ _ _ Y1 T) as [T1 T2]. split; [exact T1|]. cbn. apply set_nth_all; auto. destruct (nth_all _ _ _ _ _ T2 R) as [R1 R2].
    unfold row_justification in E0. destruct (row_props x) as [q|]; [|discriminate]. injection E0 as <-. split; [|exact R2]. cbn in *. unfold ok_trpr in *. cbn. opn. spl; auto.
  - eapply on_doc_ok; eauto. intros y y' Q [Y1 Y2]. cbv beta in Q. destruct (get_cell (d_items y) i r c) as [x|] eqn:C; [|discriminate]. bok Q. injection Q as <-.
    split; [|exact Y2]. cbn. apply put_cell_ok; auto. destruct (get_cell_ok _ _ _ _ _ C Y1) as [C1 C2]. unfold cell_shade in E0. destruct (cell_props x) as [q|]; [|discriminate]. injection E0 as <-.
    split; [|exact C2]. cbn in *. unfold ok_tcpr in *. cbn. unfold ok_shade. opn. spl; cbn; spl; auto.
  - eapply on_doc_ok; eauto. intros y y' [=<-] Y. destruct a3; (apply add_item_ok; [exact I|exact Y]).
  - eapply on_doc_ok; eauto. intros y y' [=<-] Y. exact Y.
  - eapply on_doc_ok; eauto. intros y y' [=<-] [Y1 Y2]. split; [|exact Y2]. cbn. now apply keep_all.
  - eapply on_doc_ok; eauto. intros y y' [=<-] [Y1 Y2]. split; [|exact Y2]. cbn. unfold drop_drawing_of. eapply map_all; [|exact Y1].
    intros [p|t|s] X; cbn in *; auto; [now apply para_drop_ok|]. destruct X as [X1 X2]. split; [exact X1|]. cbn. eapply map_all; [|exact X2]. intros r [R1 R2]. split; [exact R1|]. cbn.
    eapply map_all; [|exact R2]. intros c [C1 C2]. split; [exact C1|]. cbn. eapply map_all; [|exact C2]. intros p. apply para_drop_ok.
  - destruct (nth_error w d); [|discriminate]. unfold append_file in E. destruct (nth_error w from) as [x|] eqn:D; [|discriminate].
    eapply append_items_ok; eauto. exact (proj1 (nth_all _ _ _ _ _ F D)).
  - unfold split_by_paragraph in E. destruct (nth_error w d) as [x|] eqn:D; [|discriminate]. pose proof (proj1 (nth_all _ _ _ _ _ F D)) as FX.
    destruct (d_items x) as [|y l]; [injection E as <-; auto|]. eapply split_items_ok; eauto. now apply new_part_ok.
  - unfold parse in E. bok E. injection E as <-. apply Forall_app. split; auto. constructor; [|constructor]. eapply B; eauto.
Qed.
Lemma history_ok : forall l w w', run_ops l w = Some w' -> Forall given l -> ok_world w -> ok_world w'.
Proof.
  induction l as [|o l IH]; intros w w' E B F; cbn [run_ops] in E; [injection E as <-; auto|]. inversion B; subst.
  destruct (exec o w) as [w1|e|] eqn:X; [|eauto|discriminate]. eapply IH; eauto. eapply exec_ok; eauto.
Qed.
End Strings.
