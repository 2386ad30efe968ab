(** Facts about the registry of a document and its growth over a history. *)
From Coq Require Import String Ascii List Bool Arith NArith ZArith Lia.
From Verif Require Import GoStr Num Lib Types Docx Api Keep Copy History.
Import ListNotations.
Local Open Scope list_scope.
Local Open Scope string_scope.

(** One elementary change. *)
Inductive reg_step : reg -> reg -> Prop :=
| st_docid g : reg_step g (snd (inc_docid g))
| st_slow n g : reg_step g (snd (increase_id n g))
| st_link l g : reg_step g (snd (add_link_relation l g))
| st_image f d g : reg_step g (snd (add_image f d g)).
Inductive reg_steps : reg -> reg -> Prop :=
| rs_refl g : reg_steps g g
| rs_step g g1 g2 : reg_step g g1 -> reg_steps g1 g2 -> reg_steps g g2.

Lemma reg_steps_trans : forall a b c, reg_steps a b -> reg_steps b c -> reg_steps a c.
Proof. induction 1; eauto using reg_steps. Qed.
Lemma reg_step1 : forall a b, reg_step a b -> reg_steps a b.
Proof. eauto using reg_steps. Qed.

Lemma new_image_steps : forall f d g, reg_steps g (snd (new_image f d g)).
Proof.
  intros f d g. unfold new_image.
  destruct (inc_docid g) as [a g1] eqn:E1. destruct (increase_id TUPIAN g1) as [b g2] eqn:E2.
  destruct (add_image f d g2) as [c g3] eqn:E3. cbn.
  econstructor; [apply st_docid|]. rewrite E1; cbn.
  econstructor; [apply (st_slow TUPIAN)|]. rewrite E2; cbn.
  econstructor; [apply (st_image f d)|]. rewrite E3; cbn. constructor.
Qed.
Lemma new_shape_steps : forall n g, reg_steps g (snd (new_shape_ids n g)).
Proof.
  intros n g. unfold new_shape_ids.
  destruct (inc_docid g) as [a g1] eqn:E1. destruct (increase_id n g1) as [b g2] eqn:E2. cbn.
  econstructor; [apply st_docid|]. rewrite E1; cbn.
  econstructor; [apply (st_slow n)|]. rewrite E2; cbn. constructor.
Qed.

(** list positions *)
Lemma set_nth_length : forall A (l : list A) i x, length (set_nth l i x) = length l.
Proof. induction l; intros [|i] x; cbn; auto. Qed.
Lemma set_nth_same : forall A (l : list A) i x, i < length l -> nth_error (set_nth l i x) i = Some x.
Proof. induction l; intros [|i] x; cbn; intro; try lia; auto. apply IHl; lia. Qed.
Lemma set_nth_other : forall A (l : list A) i j x, i <> j -> nth_error (set_nth l i x) j = nth_error l j.
Proof. induction l; intros [|i] [|j] x; cbn; intro; try congruence; auto. Qed.
Lemma set_nth_map : forall A B (f : A -> B) (l : list A) i x, map f (set_nth l i x) = set_nth (map f l) i (f x).
Proof. induction l; intros [|i] x; cbn; f_equal; auto. Qed.
Lemma nth_lt : forall A (l : list A) i x, nth_error l i = Some x -> i < length l.
Proof. intros. apply nth_error_Some. congruence. Qed.

(** Growth of the world: every document is still there and its registry was
    changed by elementary steps only. *)
Definition grows (w w' : world) : Prop :=
  forall i d, nth_error w i = Some d ->
    exists d', nth_error w' i = Some d' /\ reg_steps (d_reg d) (d_reg d').

Lemma grows_refl : forall w, grows w w.
Proof. intros w i d H. exists d; split; eauto using reg_steps. Qed.
Lemma grows_trans : forall a b c, grows a b -> grows b c -> grows a c.
Proof.
  intros a b c H1 H2 i d H. destruct (H1 i d H) as [d1 [A B]]. destruct (H2 i d1 A) as [d2 [C D]].
  exists d2; split; auto. eapply reg_steps_trans; eauto.
Qed.
Lemma grows_set : forall w i d d', nth_error w i = Some d -> reg_steps (d_reg d) (d_reg d') ->
  grows w (set_nth w i d').
Proof.
  intros w i d d' H S j e Hj. destruct (Nat.eq_dec i j).
  - subst. exists d'. split. { apply set_nth_same. eapply nth_lt; eauto. } congruence.
  - exists e. rewrite set_nth_other by auto. eauto using reg_steps.
Qed.
Lemma grows_app : forall w l, grows w (w ++ l)%list.
Proof.
  intros w l i d H. exists d. split; eauto using reg_steps.
  rewrite nth_error_app1; auto. eapply nth_lt; eauto.
Qed.

Lemma on_file_grows : forall A w f (k : reg -> A * reg) x w',
  on_file w f k = Ok (x, w') -> (forall g, reg_steps g (snd (k g))) -> grows w w'.
Proof.
  intros A w f k x w' H S. unfold on_file in H. destruct f as [i|]; [|discriminate].
  destruct (nth_error w i) as [d|] eqn:E; [|discriminate].
  destruct (k (d_reg d)) as [y g] eqn:K. inversion H; subst.
  eapply grows_set; eauto. cbn. specialize (S (d_reg d)). rewrite K in S. exact S.
Qed.

Lemma bind_ok : forall A B (x : res A) (k : A -> res B) y, bind x k = Ok y -> exists v, x = Ok v /\ k v = Ok y.
Proof. intros A B [v|e|] k y H; cbn in H; try discriminate. eauto. Qed.

Ltac bok H := apply bind_ok in H; let v := fresh "v" in let E := fresh "E" in destruct H as [v [E H]].

Lemma link_steps : forall l g, reg_steps g (snd (add_link_relation l g)).
Proof. intros; apply reg_step1; constructor. Qed.
Lemma image_steps : forall f l g, reg_steps g (snd (add_image f l g)).
Proof. intros; apply reg_step1; constructor. Qed.
Lemma docid_steps : forall g, reg_steps g (snd (inc_docid g)).
Proof. intros; apply reg_step1; constructor. Qed.
Lemma slow_steps : forall n g, reg_steps g (snd (increase_id n g)).
Proof. intros; apply reg_step1; constructor. Qed.

Section Hist.
Context `{GoLib}.

Lemma add_link_grows : forall t l w p w' p', add_link t l w p = Ok (w', p') -> grows w w'.
Proof.
  intros. unfold add_link in H0. bok H0. destruct v as [id w1]. inversion H0; subst.
  eapply on_file_grows; eauto using link_steps.
Qed.
Lemma add_drawing_grows : forall a data w p w' p', add_drawing a data w p = Ok (w', p') -> grows w w'.
Proof.
  intros. unfold add_drawing in H0. destruct (lib_imgsize data) as [[[sw sh] fmt]|]; [|discriminate].
  bok H0. destruct v as [[[idn id] r] w1]. bok H0. destruct v. inversion H0; subst.
  eapply on_file_grows; eauto using new_image_steps.
Qed.
Lemma add_shape_grows : forall a sw sh n bw pr ln w p w' p', add_shape a sw sh n bw pr ln w p = Ok (w', p') -> grows w w'.
Proof.
  intros. unfold add_shape in H0. bok H0. destruct v as [[idn ids] w1]. inversion H0; subst.
  eapply on_file_grows; eauto using new_shape_steps.
Qed.
Lemma exec_pop_grows : forall o w p w' p', exec_pop o w p = Ok (w', p') -> grows w w'.
Proof.
  intros o w p w' p' H0; destruct o; cbn in H0;
    try (inversion H0; subst; apply grows_refl);
    eauto using add_link_grows, add_drawing_grows, add_shape_grows.
  destruct (nth_error (para_children p) k) as [[r|id r|r]|]; try discriminate;
    bok H0; inversion H0; subst; apply grows_refl.
Qed.

Lemma copy_graphic_grows : forall to f og w w' c, copy_graphic to f og w = Ok (w', c) -> grows w w'.
Proof.
  intros to f og w w' c H0. unfold copy_graphic in H0.
  destruct og as [g|]; [|discriminate]. destruct (graphicR_data g) as [d|]; [|discriminate].
  destruct (gdataR_pic d) as [p|].
  - destruct (pic_blip p) as [b|]; [|inversion H0; subst; apply grows_refl].
    bok H0. destruct (refer_target v _) as [tgt|e|]; [|inversion H0; subst; apply grows_refl|discriminate].
    bok H0. destruct v0 as [idn w1]. bok H0. destruct v0 as [idu w2].
    assert (G : grows w w2).
    { eapply grows_trans; eapply on_file_grows; eauto using docid_steps, slow_steps. }
    destruct (drop 6 tgt); [|discriminate]. bok H0. bok H0.
    destruct v1 as [[? data]|]; [|inversion H0; subst; auto].
    bok H0. destruct v1 as [rid w3]. destruct (pic_nvpic p); [|discriminate].
    inversion H0; subst. eapply grows_trans; eauto. eapply on_file_grows; eauto using image_steps.
  - destruct (gdataR_shape d), (gdataR_canvas d); inversion H0; subst; apply grows_refl.
Qed.
Lemma copy_rchild_grows : forall to c w w' c', copy_rchild to c w = Ok (w', c') -> grows w w'.
Proof.
  intros to c w w' c' H0. destruct c as [t|t|t|[x|] [y|]]; cbn in H0;
    try (inversion H0; subst; apply grows_refl);
    bok H0; destruct v; inversion H0; subst; eapply copy_graphic_grows; eauto.
Qed.
Lemma copy_list_grows : forall A B (f : A -> world -> res (world * B)) l,
  (forall x w w' y, f x w = Ok (w', y) -> grows w w') ->
  forall w w' l', copy_list f l w = Ok (w', l') -> grows w w'.
Proof.
  intros A B f l F; induction l as [|x l IH]; intros w w' l' H0; cbn in H0.
  - inversion H0; subst; apply grows_refl.
  - bok H0. destruct v as [w1 y]. bok H0. destruct v as [w2 l2]. inversion H0; subst.
    eapply grows_trans; eauto.
Qed.
Lemma copy_run_grows : forall to c w w' c', copy_run to c w = Ok (w', c') -> grows w w'.
Proof.
  intros to c w w' c' H0. unfold copy_run in H0. bok H0. destruct v. inversion H0; subst.
  eapply copy_list_grows; [|eauto]. intros; eapply copy_rchild_grows; eauto.
Qed.
Lemma copy_pchild_grows : forall to f c w w' c', copy_pchild to f c w = Ok (w', c') -> grows w w'.
Proof.
  intros to f c w w' c' H0. destruct c as [r|id r|r]; cbn [copy_pchild] in H0.
  - bok H0; destruct v; inversion H0; subst. eapply copy_run_grows; eauto.
  - bok H0. destruct (refer_target v id) as [tgt|e|]; [|inversion H0; subst; apply grows_refl|discriminate].
    bok H0. destruct v0 as [rid w1]. bok H0. destruct v0 as [w2 r']. inversion H0; subst.
    eapply grows_trans; [eapply on_file_grows; [eauto|intro; apply (link_steps tgt)]|eapply copy_run_grows; eauto].
  - inversion H0; subst; apply grows_refl.
Qed.
Lemma copy_para_grows : forall to c w w' c', copy_para to c w = Ok (w', c') -> grows w w'.
Proof.
  intros to c w w' c' H0. unfold copy_para in H0. bok H0. destruct v. inversion H0; subst.
  eapply copy_list_grows; [|eauto]. intros; eapply copy_pchild_grows; eauto.
Qed.
Lemma copy_item_grows : forall to c w w' c', copy_item to c w = Ok (w', c') -> grows w w'.
Proof.
  intros to c w w' c' H0. destruct c as [p|t|s]; cbn in H0.
  - bok H0. destruct v. inversion H0; subst. eapply copy_para_grows; eauto.
  - bok H0. destruct v. inversion H0; subst. unfold copy_table in E. bok E. destruct v. inversion E; subst.
    eapply copy_list_grows; [|eauto]. intros r w1 w2 r' Hr. unfold copy_row in Hr. bok Hr. destruct v. inversion Hr; subst.
    eapply copy_list_grows; [|eauto]. intros c w3 w4 c' Hc. unfold copy_cell in Hc. bok Hc. destruct v. inversion Hc; subst.
    eapply copy_list_grows; [|eauto]. intros; eapply copy_para_grows; eauto.
  - inversion H0; subst; apply grows_refl.
Qed.
Lemma push_item_grows : forall to x w w', push_item to x w = Ok w' -> grows w w'.
Proof.
  intros to x w w' H0. unfold push_item in H0. destruct (nth_error w to) eqn:E; inversion H0; subst.
  eapply grows_set; eauto. cbn. constructor.
Qed.
Lemma copy_push_grows : forall to x w w', copy_push to x w = Ok w' -> grows w w'.
Proof.
  intros to x w w' H0. unfold copy_push in H0. bok H0. destruct v.
  eapply grows_trans; [eapply copy_item_grows; eauto|eapply push_item_grows; eauto].
Qed.
Lemma append_items_grows : forall to l w w', append_items to l w = Ok w' -> grows w w'.
Proof.
  intros to; induction l as [|x l IH]; intros w w' H0; cbn in H0.
  - inversion H0; subst; apply grows_refl.
  - bok H0. eapply grows_trans; [eapply copy_push_grows; eauto|eauto].
Qed.
Lemma append_file_grows : forall to from w w', append_file to from w = Ok w' -> grows w w'.
Proof.
  intros to from w w' H0. unfold append_file in H0. destruct (nth_error w from); [|discriminate].
  eapply append_items_grows; eauto.
Qed.
Lemma split_items_grows : forall t sep l cur fresh w w', split_items t sep l cur fresh w = Ok w' -> grows w w'.
Proof.
  intros t sep; induction l as [|x l IH]; intros cur fresh w w' H0; cbn in H0.
  - inversion H0; subst; apply grows_refl.
  - assert (N : forall cur w w', bind (copy_push cur x w) (fun w' => split_items t sep l cur false w') = Ok w' -> grows w w').
    { intros c1 w1 w2 HH. bok HH. eapply grows_trans; [eapply copy_push_grows; eauto|eauto]. }
    destruct x as [p|tb|s]; eauto.
    bok H0. destruct (v && negb fresh)%bool; eauto.
    eapply grows_trans; [|eauto]. apply grows_app.
Qed.
Lemma split_grows : forall i sep w w', split_by_paragraph i sep w = Ok w' -> grows w w'.
Proof.
  intros i sep w w' H0. unfold split_by_paragraph in H0. destruct (nth_error w i) as [d|]; [|discriminate].
  destruct (d_items d) as [|x l]; [inversion H0; subst; apply grows_refl|].
  eapply grows_trans; [|eapply split_items_grows; eauto]. apply grows_app.
Qed.

Lemma on_doc_grows : forall w i k w', on_doc w i k = Ok w' ->
  (forall d d', k d = Ok d' -> reg_steps (d_reg d) (d_reg d')) -> grows w w'.
Proof.
  intros w i k w' H0 K. unfold on_doc in H0. destruct (nth_error w i) eqn:E; [|discriminate].
  bok H0. inversion H0; subst. eapply grows_set; eauto.
Qed.
Lemma on_doc_same : forall w i k w', on_doc w i k = Ok w' ->
  (forall d d', k d = Ok d' -> d_reg d = d_reg d') -> grows w w'.
Proof. intros. eapply on_doc_grows; eauto. intros d d' E. rewrite (H1 _ _ E). constructor. Qed.

Lemma exec_grows : forall o w w', exec o w = Ok w' -> grows w w'.
Proof.
  intros o w w' H0. destruct o; cbn in H0.
  - inversion H0; subst; apply grows_app.
  - inversion H0; subst; apply grows_app.
  - destruct (nth_error w d) as [x|]; [|discriminate]. destruct (get_para (d_items x) a); [|discriminate].
    bok H0. destruct v as [w1 p1]. eapply grows_trans; [eapply exec_pop_grows; eauto|].
    eapply on_doc_same; eauto. intros ? ? [=]; subst; auto.
  - bok H0. destruct v. inversion H0; subst. eapply exec_pop_grows; eauto.
  - eapply on_doc_same; eauto. intros ? ? [=]; subst; auto.
  - eapply on_doc_same; eauto. intros x x' E. cbn in E. destruct (get_cell _ _ _ _); inversion E; auto.
  - eapply on_doc_same; eauto. intros x x' E. cbn in E. bok E. destruct v. inversion E; subst.
    unfold add_table in E0. destruct (_ <? _)%Z; [discriminate|].
    destruct (_ && _)%bool; [discriminate|]. destruct (use_colors col). inversion E0; auto.
  - eapply on_doc_same; eauto. intros x x' [=]; subst. unfold add_table_twips. destruct (use_colors col). auto.
  - eapply on_doc_same; eauto. intros x x' E. cbn in E. destruct (nth_error _ _) as [[]|]; try discriminate.
    bok E; inversion E; auto.
  - eapply on_doc_same; eauto. intros x x' E. cbn in E. destruct (nth_error (d_items x) _) as [[]|]; try discriminate.
    destruct (nth_error _ _); try discriminate. bok E; inversion E; auto.
  - eapply on_doc_same; eauto. intros x x' E. cbn in E. destruct (get_cell _ _ _ _); try discriminate. bok E; inversion E; auto.
  - eapply on_doc_same; eauto. intros x x' [=]; subst. destruct a3; auto.
  - eapply on_doc_same; eauto. intros x x' [=]; subst. auto.
  - eapply on_doc_same; eauto. intros x x' [=]; subst. auto.
  - eapply on_doc_same; eauto. intros x x' [=]; subst. auto.
  - destruct (nth_error w d); [|discriminate]. eapply append_file_grows; eauto.
  - eapply split_grows; eauto.
  - unfold Pack.parse in H0. bok H0. inversion H0; subst; apply grows_app.
Qed.

Lemma run_ops_grows : forall l w w', run_ops l w = Some w' -> grows w w'.
Proof.
  induction l as [|o l IH]; intros w w' H0; cbn in H0.
  - inversion H0; subst; apply grows_refl.
  - destruct (exec o w) eqn:E; eauto; [|discriminate]. eapply grows_trans; [eapply exec_grows; eauto|eauto].
Qed.
End Hist.
