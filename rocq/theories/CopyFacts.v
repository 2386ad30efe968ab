(** Facts about AppendFile and SplitByParagraph. *)
From Coq Require Import String Ascii List Bool Arith NArith ZArith Lia.
From Verif Require Import GoStr Num Lib Types Docx Text Api Keep Copy History RegFacts IdFacts SpecApi SpecEdit SpecCopy ApiFacts HistFacts HistFacts2 NewFacts.
Import ListNotations.
Local Open Scope list_scope.
Local Open Scope string_scope.

Ltac bk H v E := apply bind_ok in H; destruct H as [v [E H]].

(** ** registries that keep resolving *)
Definition room (g gF : reg) : Prop :=
  (rid g + N.of_nat (length (rels gF) - length (rels g)) < B63)%N /\
  (imgid g + N.of_nat (length (media gF) - length (media g)) < B63)%N.
Definition good (g : reg) : Prop := numbered g /\ media_ok g /\ img_fresh g.
Lemma good_step : forall g g1 gF, good g -> room g gF -> reg_steps g g1 -> reg_steps g1 gF -> good g1 /\ room g1 gF.
Proof.
  intros g g1 gF [A [B C]] [R1 R2] S S1. destruct (steps_rels _ _ S) as [l [E Q]]. destruct (steps_media _ _ S) as [m [E' [_ Q']]].
  destruct (steps_rels _ _ S1) as [l1 [F _]]. destruct (steps_media _ _ S1) as [m1 [F' _]].
  assert (X : length (rels gF) - length (rels g) = length l + length l1) by (rewrite F, E, !app_length; lia).
  assert (Y : length (media gF) - length (media g) = length m + length m1) by (rewrite F', E', !app_length; lia).
  assert (X1 : length (rels gF) - length (rels g1) = length l1) by (rewrite F, !app_length; lia).
  assert (Y1 : length (media gF) - length (media g1) = length m1) by (rewrite F', !app_length; lia).
  destruct Q as [Q _]; [lia|]. destruct Q' as [Q' _]; [lia|]. split; [split; [|split]|split].
  - eapply steps_numbered; eauto. lia.
  - eapply steps_media_ok; eauto.
  - eapply steps_img_fresh; eauto. lia.
  - lia.
  - lia.
Qed.
Lemma steps_media_of : forall g gF n m, good g -> room g gF -> reg_steps g gF ->
  media_of g n = Ok (Some m) -> media_of gF n = Ok (Some m).
Proof.
  intros g gF n m [A [B C]] [R1 R2] S M. rewrite B in M. rewrite (steps_media_ok _ _ S B).
  destruct (steps_media _ _ S) as [l [E [_ Q]]]. rewrite E in R2. rewrite app_length in R2.
  destruct Q as [_ Q]; [lia|]. rewrite E, last_named_app. injection M as M. rewrite last_named_none; [now rewrite M|].
  intro I. apply in_map_iff in I. destruct I as [x [X I]]. destruct (names_from_in _ _ _ Q I) as [k [f [K L]]].
  apply last_named_spec in M. destruct M as [a [b [M1 [M2 _]]]].
  assert (k <= imgid g)%N. { apply (C m k f); [rewrite M1; apply in_elt|congruence]. } lia.
Qed.
Lemma steps_bytes : forall g gF e t data, good g -> room g gF -> reg_steps g gF -> picture_at g e t data -> picture_at gF e t data.
Proof.
  intros g gF e t data G R S [n [nm [A [B C]]]]. exists n, nm. split; [eapply steps_refer; eauto|]. split; auto. eapply steps_media_of; eauto.
Qed.
Lemma empty_good : good empty_reg.
Proof. split; [apply empty_numbered|split; [apply empty_media_ok|apply empty_img_fresh]]. Qed.
Lemma empty_room : forall g, reg_steps empty_reg g -> (N.of_nat (length (rels g)) < B63)%N -> room empty_reg g.
Proof.
  intros g S L. pose proof (steps_empty_media _ S) as M. destruct (steps_rels _ _ S) as [l [E _]].
  assert (K : 3 <= length (rels g)) by (rewrite E, app_length; cbn; lia).
  unfold room. cbn [rid imgid empty_reg rels media base_rels length]. split; lia.
Qed.

(** ** one copy *)
Section Same.
Variable w0 : world.
Variable to : nat.
Variable gF : reg.

(** what resolves in [w0] still does *)
Definition later (w : world) : Prop :=
  (forall f id t, link_in w0 f id t -> link_in w f id t) /\ (forall f e t data, picture_in w0 f e t data -> picture_in w f e t data).
Definition inv (w : world) : Prop :=
  later w /\ exists d, nth_error w to = Some d /\ good (d_reg d) /\ room (d_reg d) gF.
(** the destination of [w] is before [gF] *)
Definition upto (w : world) : Prop := exists d, nth_error w to = Some d /\ reg_steps (d_reg d) gF.

Lemma upto_back : forall w w', grows w w' -> only to w w' -> upto w' -> (exists d, nth_error w to = Some d) -> upto w.
Proof.
  intros w w' G O [d' [N S]] [d N0]. exists d. split; auto. destruct (G _ _ N0) as [d2 [A B]].
  rewrite N in A. injection A as <-. eapply reg_steps_trans; eauto.
Qed.
Lemma inv_step : forall w w', inv w -> grows w w' -> only to w w' -> upto w' -> inv w'.
Proof.
  intros w w' [[L1 L2] [d [N [G R]]]] Gr [_ O] [d' [N' S']].
  destruct (Gr _ _ N) as [d2 [A B]]. rewrite N' in A. injection A as <-.
  assert (SF : reg_steps (d_reg d) gF) by (eapply reg_steps_trans; eauto).
  destruct (good_step _ _ _ G R B S') as [G' R'].
  assert (R2 : room (d_reg d) (d_reg d')).
  { destruct (steps_rels _ _ S') as [l1 [F _]]. destruct (steps_media _ _ S') as [m1 [F' _]].
    destruct R as [Ra Rb]. rewrite F, app_length in Ra. rewrite F', app_length in Rb. split; lia. }
  split; [|eauto]. split.
  - intros f id t H. destruct (L1 _ _ _ H) as [i [e [E1 [E2 E3]]]]. subst f.
    destruct (Nat.eq_dec i to) as [->|Ni].
    + rewrite N in E2. injection E2 as <-. exists to, d'. split; [auto|split; [auto|]]. exact (steps_refer _ _ _ _ B E3).
    + exists i, e. rewrite O by auto. auto.
  - intros f id t y H. destruct (L2 _ _ _ _ H) as [i [e [E1 [E2 E3]]]]. subst f.
    destruct (Nat.eq_dec i to) as [->|Ni].
    + rewrite N in E2. injection E2 as <-. exists to, d'. split; [auto|split; [auto|]]. exact (steps_bytes _ _ _ _ _ G R2 B E3).
    + exists i, e. rewrite O by auto. auto.
Qed.

Lemma drop_media : forall n, drop 6 ("media/" ++ n) = Some n.
Proof. reflexivity. Qed.

Lemma img_kind : forall n x, count "." x = 0 -> of_kind ("media/" ++ img_name n x) x.
Proof. intros n x K. unfold img_name. exists ("media/image" ++ utoa n). split; [|exact K]. rewrite <- (sapp_assoc "media/image"). reflexivity. Qed.
Lemma added_image : forall g fmt data, good g -> room g gF -> reg_steps (snd (add_image fmt data g)) gF ->
  picture_at gF (fst (add_image fmt data g)) ("media/" ++ img_name (imgid g + 1) fmt) data.
Proof.
  intros g fmt data [A [B C]] [R1 R2] S.
  assert (LR : length (rels gF) - length (rels g) > 0).
  { destruct (steps_rels _ _ S) as [l [E _]]. rewrite E. unfold add_image, add_image_relation, add_rel. cbn [snd rels set_rid set_rels add_media set_media set_imgid].
    rewrite !app_length. cbn. lia. }
  assert (LM : length (media gF) - length (media g) > 0).
  { destruct (steps_media _ _ S) as [l [E _]]. rewrite E. unfold add_image, add_image_relation, add_rel. cbn [snd media set_rid set_rels add_media set_media set_imgid].
    rewrite !app_length. cbn. lia. }
  exists (img_name (imgid g + 1) fmt), (img_name (imgid g + 1) fmt).
  split; [|split; [apply drop_media|]].
  - eapply steps_refer; eauto. apply image_resolves; auto; lia.
  - eapply image_stored; eauto. lia.
Qed.

Definition shown_inline (x : inline) (r : copied) : option inline :=
  match r with
  | CNil => None | CSame => Some x
  | CNew dp g => Some (set_inlineR_docPr (Some dp) (set_inlineR_graphic (Some g) (set_inlineR_file (Some to) x)))
  end.
Definition view (f : option nat) (og : option graphic) (r : copied) : option (option nat * option graphic) :=
  match r with CNil => None | CSame => Some (f, og) | CNew _ g => Some (Some to, Some g) end.

Lemma file_reg_ok : forall w f g, file_reg w f = Ok g -> exists i d, f = Some i /\ nth_error w i = Some d /\ g = d_reg d.
Proof.
  intros w f g H. unfold file_reg in H. destruct f as [i|]; [|discriminate]. destruct (nth_error w i) as [d|] eqn:E; [|discriminate].
  injection H as <-. eauto.
Qed.

Lemma copy_graphic_same : forall f og w w' r, inv w -> copy_graphic to f og w = Ok (w', r) -> upto w' ->
  same_graphic w0 to gF f og (view f og r).
Proof.
  intros f og w w' r I H U. unfold copy_graphic in H. destruct og as [g|]; [|discriminate].
  destruct (graphicR_data g) as [d|] eqn:GD; [|discriminate]. unfold same_graphic, graphic_pic. rewrite GD.
  destruct (gdataR_pic d) as [p|] eqn:GP.
  - unfold pic_embed. destruct (pic_blip p) as [b|] eqn:PB; cbn [option_map].
    2: { inversion H; subst. reflexivity. }
    intros t data BI. destruct (proj2 (proj1 I) _ _ _ _ BI) as [i [x [E1 [E2 [n [nm [E3 [E4 E5]]]]]]]]. subst f.
    bk H v B1. apply file_reg_ok in B1. destruct B1 as [i' [x' [F1 [F2 F3]]]]. injection F1 as <-. rewrite E2 in F2. injection F2 as <-. subst v.
    rewrite E3 in H. bk H v B1. destruct v as [idn w1]. bk H v B2. destruct v as [idu w2]. rewrite E4 in H.
    bk H v B3. apply file_reg_ok in B3. destruct B3 as [i' [x2 [F1 [F2 F3]]]]. injection F1 as <-. subst v.
    assert (Rx : rels (d_reg x2) = rels (d_reg x) /\ media (d_reg x2) = media (d_reg x) /\ midx (d_reg x2) = midx (d_reg x)).
    { apply on_file_reg in B1. destruct B1 as [z [Z1 [Z2 Z3]]]. apply on_file_reg in B2. destruct B2 as [y [Y1 [Y2 Y3]]].
      subst w2 w1. destruct (Nat.eq_dec i to) as [->|Ni].
      - rewrite E2 in Z1. injection Z1 as <-.
        rewrite set_nth_same in Y1 by (eapply nth_lt; eauto). injection Y1 as <-.
        rewrite set_nth_same in F2 by (rewrite set_nth_length; eapply nth_lt; eauto). injection F2 as <-.
        cbn. auto.
      - rewrite !set_nth_other in F2 by auto. rewrite E2 in F2. injection F2 as <-. auto. }
    destruct Rx as [Rx1 [Rx2 Rx3]].
    bk H v B4. assert (M : media_of (d_reg x2) n = media_of (d_reg x) n) by (unfold media_of; now rewrite Rx2, Rx3).
    rewrite M, E5 in B4. injection B4 as <-. bk H v B5. destruct v as [rid w3]. destruct (pic_nvpic p) as [nv|]; [|discriminate].
    inversion H; subst w3 r. cbn [view].
    apply on_file_reg in B5. destruct B5 as [z [Z1 [Z2 Z3]]].
    exists (Some (set_graphicR_data (Some (set_gdataR_pic (Some (copied_pic (int_of_u idu) rid b nv p)) d)) g)), (copied_pic (int_of_u idu) rid b nv p), rid, ("media/" ++ img_name (imgid (d_reg z) + 1) (target_format t)).
    split; [reflexivity|]. split; [cbn [graphicR_data set_graphicR_data gdataR_pic set_gdataR_pic]; reflexivity|].
    split; [cbn [pic_blip copied_pic option_map ablip_embed picblip_blip]; reflexivity|].
    subst rid. split; [|split; [|split; reflexivity]].
    2: { intros k [b' [-> K]]. unfold target_format. change ("." ++ k) with (String "." k). rewrite after_last_app_none by exact K. apply img_kind, K. }
    assert (I2 : inv w2).
    { assert (O2 : only to w w2) by (eapply only_trans; eapply on_file_only; eauto).
      assert (G2 : grows w w2) by (eapply grows_trans; eapply on_file_grows; eauto using docid_steps, slow_steps).
      eapply inv_step; eauto. destruct I as [_ [dd [ND _]]].
      eapply (upto_back w2 w'); eauto.
      - rewrite Z3. eapply grows_set; eauto. cbn. apply image_steps.
      - rewrite Z3. apply only_set. }
    destruct I2 as [_ [z' [Y1 [Y2 Y3]]]]. rewrite Z1 in Y1. injection Y1 as <-.
    apply added_image; auto. destruct U as [u [U1 U2]]. rewrite Z3 in U1. rewrite set_nth_same in U1 by (eapply nth_lt; eauto).
    injection U1 as <-. exact U2.
  - destruct (gdataR_shape d), (gdataR_canvas d); inversion H; subst; reflexivity.
Qed.

Lemma copy_rchild_same : forall c w w' c', inv w -> copy_rchild to c w = Ok (w', c') -> upto w' -> same_rchild w0 to gF c c'.
Proof.
  intros c w w' c' I H U. destruct c as [t|t|t|[x|] a]; cbn [copy_rchild] in H; try (inversion H; subst; reflexivity).
  - bok H. destruct v as [w1 r]. inversion H; subst. cbn [same_rchild]. eexists. split; [reflexivity|].
    pose proof (copy_graphic_same _ _ _ _ _ I E U) as S. split.
    + destruct r; exact S.
    + intros z Z. destruct r; inversion Z; subst; reflexivity.
  - destruct a as [x|]; [|inversion H; subst; reflexivity].
    bok H. destruct v as [w1 r]. inversion H; subst. cbn [same_rchild]. eexists. split; [reflexivity|].
    pose proof (copy_graphic_same _ _ _ _ _ I E U) as S. split.
    + destruct r; exact S.
    + intros z Z. destruct r; inversion Z; subst; reflexivity.
Qed.

(** lists, given what holds for one element *)
Definition sound {A B} (f : A -> world -> res (world * B)) (R : A -> B -> Prop) : Prop :=
  (forall x w w' y, f x w = Ok (w', y) -> grows w w' /\ only to w w') /\
  (forall x w w' y, inv w -> f x w = Ok (w', y) -> upto w' -> R x y).
Lemma upto_dest : forall w, upto w -> exists d, nth_error w to = Some d.
Proof. intros w [d [N _]]. eauto. Qed.
Lemma inv_dest : forall w, inv w -> exists d, nth_error w to = Some d.
Proof. intros w [_ [d [N _]]]. eauto. Qed.
Lemma copy_list_frame2 : forall A B (f : A -> world -> res (world * B)) l,
  (forall x w w' y, f x w = Ok (w', y) -> grows w w' /\ only to w w') ->
  forall w w' l', copy_list f l w = Ok (w', l') -> grows w w' /\ only to w w'.
Proof.
  intros A B f l F w w' l' H. split.
  - eapply copy_list_grows; [|eauto]. intros. eapply F; eauto.
  - revert w w' l' H. induction l as [|x l IH]; intros w w' l' H; cbn in H.
    + inversion H; subst. apply only_refl.
    + bok H. destruct v as [w1 y]. bok H. destruct v as [w2 l2]. inversion H; subst. eapply only_trans; eauto. eapply F; eauto.
Qed.
Lemma copy_list_same : forall A B (f : A -> world -> res (world * B)) R, sound f R -> forall l w w' l', inv w ->
  copy_list f l w = Ok (w', l') -> upto w' -> Forall2 R l l'.
Proof.
  intros A B f R [F S]. induction l as [|x l IH]; intros w w' l' I H U; cbn in H.
  - inversion H; subst. constructor.
  - bok H. destruct v as [w1 y]. bok H. destruct v as [w2 l2]. inversion H; subst.
    destruct (F _ _ _ _ E) as [G1 O1]. destruct (copy_list_frame2 _ _ _ _ F _ _ _ E0) as [G2 O2].
    assert (D1 : exists d, nth_error w1 to = Some d).
    { destruct (inv_dest _ I) as [d N]. destruct (G1 _ _ N) as [d' [N' _]]. eauto. }
    assert (U1 : upto w1) by (eapply upto_back; eauto).
    constructor; [eapply S; eauto|]. exact (IH _ _ _ (inv_step _ _ I G1 O1 U1) E0 U).
Qed.
Lemma copy_list_sound : forall A B (f : A -> world -> res (world * B)) R, sound f R -> sound (copy_list f) (Forall2 R).
Proof. intros A B f R S. split; [intros; eapply copy_list_frame2; eauto; apply S|intros; eapply copy_list_same; eauto]. Qed.

Lemma copy_rchild_sound : sound (copy_rchild to) (same_rchild w0 to gF).
Proof.
  split; intros; [split; [eapply copy_rchild_grows; eauto|eapply copy_rchild_frame; eauto]|eapply copy_rchild_same; eauto].
Qed.
Lemma copy_run_sound : sound (copy_run to) (same_run w0 to gF).
Proof.
  pose proof (copy_list_sound _ _ _ _ copy_rchild_sound) as [A B].
  split; intros x w w' y H; unfold copy_run in *.
  - bok H. destruct v. inversion H; subst. eauto.
  - intros E U. bok E. destruct v. inversion E; subst. unfold same_run. cbn. repeat split; auto. eapply B; eauto.
Qed.

(** the children of a paragraph *)
Lemma copy_children_same : forall f l w w' c, inv w -> copy_list (copy_pchild to f) l w = Ok (w', c) -> upto w' ->
  same_children w0 to gF f l (somes c).
Proof.
  intros f. induction l as [|x l IH]; intros w w' c I H U; cbn in H.
  - inversion H; subst. constructor.
  - bok H. destruct v as [w1 y]. bok H. destruct v as [w2 l2]. inversion H; subst. 
    assert (F : forall x w w' y, copy_pchild to f x w = Ok (w', y) -> grows w w' /\ only to w w').
    { intros; split; [eapply copy_pchild_grows; eauto|eapply copy_pchild_frame; eauto]. }
    destruct (F _ _ _ _ E) as [G1 O1]. destruct (copy_list_frame2 _ _ _ _ F _ _ _ E0) as [G2 O2].
    assert (D1 : exists d, nth_error w1 to = Some d).
    { destruct (inv_dest _ I) as [d N]. destruct (G1 _ _ N) as [d' [N' _]]. eauto. }
    assert (U1 : upto w1) by (eapply upto_back; eauto).
    assert (I1 : inv w1) by (eapply inv_step; eauto).
    specialize (IH _ _ _ I1 E0 U).
    destruct x as [r|id r|q]; cbn [copy_pchild] in E.
    + bok E. destruct v as [w3 r']. inversion E; subst. cbn [somes]. constructor; auto. eapply (proj2 copy_run_sound); [exact I|eassumption|eassumption].
    + bok E. apply file_reg_ok in E1. destruct E1 as [i [d [F1 [F2 F3]]]]. subst v.
      destruct (refer_target (d_reg d) id) as [tgt|e|] eqn:RT; [| |discriminate].
      * bk E v B1. destruct v as [rid w3]. bk E v B2. destruct v as [w4 r']. inversion E; subst. cbn [somes].
        apply on_file_reg in B1. destruct B1 as [z [Z1 [Z2 Z3]]].
        assert (G3 : grows w w3) by (rewrite Z3; eapply grows_set; eauto; apply link_steps).
        assert (O3 : only to w w3) by (rewrite Z3; apply only_set).
        assert (D3 : nth_error w3 to = Some (set_d_reg (snd (add_link_relation tgt (d_reg z))) z)) by (rewrite Z3; apply set_nth_same; eapply nth_lt; eauto).
        destruct (proj1 copy_run_sound _ _ _ _ B2) as [G4 O4].
        assert (U3 : upto w3) by (eapply upto_back; eauto).
        constructor; auto.
        -- intros t L. destruct (proj1 (proj1 I) _ _ _ L) as [i' [d' [L1 [L2 L3]]]]. injection L1 as <-. rewrite F2 in L2. injection L2 as <-.
           rewrite RT in L3. injection L3 as <-. subst rid. destruct U3 as [u [V1 V2]]. rewrite D3 in V1. injection V1 as <-. cbn [d_reg set_d_reg] in V2.
           eapply steps_refer; eauto. destruct I as [_ [z' [Y1 [[Y2 _] [Y3 _]]]]]. rewrite Z1 in Y1. injection Y1 as <-.
           apply link_resolves; auto. destruct (steps_rels _ _ V2) as [l3 [R3 _]]. unfold add_link_relation, add_rel in R3. cbn [snd rels set_rid set_rels] in R3.
           rewrite R3, !app_length in Y3. cbn [length] in Y3. lia.
        -- exact (proj2 copy_run_sound _ _ _ _ (inv_step _ _ I G3 O3 U3) B2 U1).
      * inversion E; subst. cbn [somes]. apply sc_lost; auto. intros t L. destruct (proj1 (proj1 I) _ _ _ L) as [i' [d' [L1 [L2 L3]]]].
        injection L1 as <-. rewrite F2 in L2. injection L2 as <-. congruence.
    + inversion E; subst. cbn [somes]. constructor; auto.
Qed.
Lemma copy_para_sound : sound (copy_para to) (same_para w0 to gF).
Proof.
  split; intros x w w' y.
  - intros H. split; [eapply copy_para_grows; eauto|eapply copy_para_frame; eauto].
  - intros I H U. unfold copy_para in H. bok H. destruct v as [w1 c]. inversion H; subst. split; [reflexivity|split; [reflexivity|]].
    cbn [para_children]. eapply copy_children_same; eauto.
Qed.
Lemma copy_cell_sound : sound (copy_cell to) (same_cell w0 to gF).
Proof.
  pose proof (copy_list_sound _ _ _ _ copy_para_sound) as [A B].
  split; intros x w w' y H; unfold copy_cell in *.
  - bok H. destruct v. inversion H; subst. eauto.
  - intros E U. bok E. destruct v. inversion E; subst. unfold same_cell. cbn. repeat split; auto. eapply B; eauto.
Qed.
Lemma copy_row_sound : sound (copy_row to) (same_row w0 to gF).
Proof.
  pose proof (copy_list_sound _ _ _ _ copy_cell_sound) as [A B].
  split; intros x w w' y H; unfold copy_row in *.
  - bok H. destruct v. inversion H; subst. eauto.
  - intros E U. bok E. destruct v. inversion E; subst. unfold same_row. cbn. repeat split; auto. eapply B; eauto.
Qed.
Lemma copy_table_sound : sound (copy_table to) (same_table w0 to gF).
Proof.
  pose proof (copy_list_sound _ _ _ _ copy_row_sound) as [A B].
  split; intros x w w' y H; unfold copy_table in *.
  - bok H. destruct v. inversion H; subst. eauto.
  - intros E U. bok E. destruct v. inversion E; subst. unfold same_table. cbn. repeat split; auto. eapply B; eauto.
Qed.
Lemma copy_item_sound : sound (copy_item to) (same_item w0 to gF).
Proof.
  split; intros x w w' y.
  - intros H. split; [eapply copy_item_grows; eauto|eapply copy_item_frame; eauto].
  - intros I H U. destruct x as [p|t|s]; cbn in H.
    + bok H. destruct v. inversion H; subst. eapply (proj2 copy_para_sound); eauto.
    + bok H. destruct v. inversion H; subst. eapply (proj2 copy_table_sound); eauto.
    + inversion H; subst. reflexivity.
Qed.

Lemma copy_push_inv : forall x w w', copy_push to x w = Ok w' -> exists w1 y d, copy_item to x w = Ok (w1, y) /\ nth_error w1 to = Some d /\
  w' = set_nth w1 to (add_item y d).
Proof.
  intros x w w' H. unfold copy_push in H. bok H. destruct v as [w1 y]. unfold push_item in H.
  destruct (nth_error w1 to) as [d|] eqn:N; [|discriminate]. injection H as <-. exists w1, y, d. auto.
Qed.
Lemma inv_items : forall w d y, nth_error w to = Some d -> inv w -> inv (set_nth w to (add_item y d)).
Proof.
  intros w d y N [[L1 L2] [d' [N' [G R]]]]. rewrite N in N'. injection N' as <-.
  assert (X : forall i e, nth_error w i = Some e -> exists e', nth_error (set_nth w to (add_item y d)) i = Some e' /\ d_reg e' = d_reg e).
  { intros. eapply nth_regs; eauto. }
  split; [split|].
  - intros f id t H. destruct (L1 _ _ _ H) as [i [e [E1 [E2 E3]]]]. destruct (X _ _ E2) as [e' [Y1 Y2]]. exists i, e'. rewrite Y2. auto.
  - intros f id t z H. destruct (L2 _ _ _ _ H) as [i [e [E1 [E2 E3]]]]. destruct (X _ _ E2) as [e' [Y1 Y2]]. exists i, e'. rewrite Y2. auto.
  - destruct (X _ _ N) as [e' [Y1 Y2]]. exists e'. rewrite Y2. auto.
Qed.
(** AppendFile *)
Lemma append_items_same : forall l w w' d, inv w -> nth_error w to = Some d -> append_items to l w = Ok w' -> upto w' ->
  exists d' new, nth_error w' to = Some d' /\ d_items d' = (d_items d ++ new)%list /\ Forall2 (same_item w0 to gF) l new.
Proof.
  induction l as [|x l IH]; intros w w' d I N H U; cbn in H.
  - inversion H; subst. exists d, []. rewrite app_nil_r. auto.
  - bok H. rename v into w2. pose proof (copy_push_grows _ _ _ _ E) as G. pose proof (copy_push_only _ _ _ _ E) as O.
    destruct (copy_push_inv _ _ _ E) as [w1 [y [d1 [C1 [C2 C3]]]]].
    destruct (proj1 copy_item_sound _ _ _ _ C1) as [G1 O1].
    pose proof (append_items_grows _ _ _ _ H) as G2. pose proof (append_items_only _ _ _ _ H) as O2.
    assert (N2 : nth_error w2 to = Some (add_item y d1)) by (rewrite C3; apply set_nth_same; eapply nth_lt; eauto).
    assert (U2 : upto w2) by (eapply upto_back; eauto).
    assert (U1 : upto w1). { destruct U2 as [u [V1 V2]]. rewrite N2 in V1. injection V1 as <-. exists d1. auto. }
    assert (I1 : inv w1) by (eapply inv_step; eauto).
    assert (I2 : inv w2) by (rewrite C3; apply inv_items; auto).
    destruct (IH _ _ _ I2 N2 H U) as [d' [new [A1 [A2 A3]]]]. exists d', (y :: new). split; auto. split.
    + rewrite A2. cbn [d_items add_item set_d_items]. assert (Q : d_items d1 = d_items d).
      { pose proof (proj2 (copy_item_frame _ _ _ _ _ C1) to) as Q. unfold items_at in Q. rewrite C2, N in Q. cbn in Q. congruence. }
      rewrite Q, <- app_assoc. reflexivity.
    + constructor; auto. exact (proj2 copy_item_sound _ _ _ _ I C1 U1).
Qed.
End Same.

(** ** items and kinds, without any assumption *)
Lemma copy_item_kind : forall to x w w' y, copy_item to x w = Ok (w', y) -> kind_of y = kind_of x.
Proof. intros to x w w' y H. destruct x as [p|t|s]; cbn in H; try (bok H; destruct v); inversion H; reflexivity. Qed.
Lemma append_items_kinds : forall to l w w' d, nth_error w to = Some d -> append_items to l w = Ok w' ->
  exists d' new, nth_error w' to = Some d' /\ d_items d' = (d_items d ++ new)%list /\ map kind_of new = map kind_of l /\ reg_steps (d_reg d) (d_reg d') /\
    d_tmpl d' = d_tmpl d.
Proof.
  intros to. induction l as [|x l IH]; intros w w' d N H; cbn in H.
  - inversion H; subst. exists d, []. rewrite app_nil_r. repeat split; auto. constructor.
  - bok H. rename v into w2. destruct (copy_push_inv _ _ _ _ E) as [w1 [y [d1 [C1 [C2 C3]]]]].
    assert (N2 : nth_error w2 to = Some (add_item y d1)) by (rewrite C3; apply set_nth_same; eapply nth_lt; eauto).
    destruct (IH _ _ _ N2 H) as [d' [new [A1 [A2 [A3 [A4 A5]]]]]]. exists d', (y :: new). split; auto.
    assert (Q : d_items d1 = d_items d /\ d_tmpl d1 = d_tmpl d).
    { pose proof (proj2 (copy_item_frame _ _ _ _ _ C1) to) as Q. unfold items_at in Q. rewrite C2, N in Q. cbn in Q. split; congruence. }
    destruct Q as [Q Q'].
    split; [rewrite A2; cbn [d_items add_item set_d_items]; rewrite Q, <- app_assoc; reflexivity|].
    split; [cbn; f_equal; auto; eapply copy_item_kind; eauto|].
    destruct (copy_item_grows _ _ _ _ _ C1 _ _ N) as [e [X1 X2]]. rewrite C2 in X1. injection X1 as <-.
    split; [eapply reg_steps_trans; eauto|]. rewrite A5. exact Q'.
Qed.

(** ** SplitByParagraph as a sequence of appends *)
Inductive parts_of (t : tmpl) : list (list item) -> world -> world -> Prop :=
| po_nil w : parts_of t [] w w
| po_cons s ps w w1 w2 : append_items (length w) s (new_part t w) = Ok w1 -> parts_of t ps w1 w2 -> parts_of t (s :: ps) w w2.

Definition starts (sep : para -> res bool) (s : list item) : Prop := exists x s', s = x :: s' /\ no_sep sep s' /\ at_sep sep true x.
Lemma split_items_parts : forall t sep l cur fresh w w', split_items t sep l cur fresh w = Ok w' ->
  exists s ps w1, l = (s ++ concat ps)%list /\ append_items cur s w = Ok w1 /\ parts_of t ps w1 w' /\
    Forall (starts sep) ps /\
    (if fresh then match s with [] => l = [] | _ :: s' => no_sep sep s' end else no_sep sep s).
Proof.
  intros t sep. induction l as [|x l IH]; intros cur fresh w w' H.
  - cbn in H. inversion H; subst. exists [], [], w'. repeat split; auto; try constructor. destruct fresh; [reflexivity|]. intros p [].
  - cbn [split_items] in H.
    assert (K : forall c u, (bind (copy_push c x u) (fun w' => split_items t sep l c false w') = Ok w') ->
      exists s ps w1, l = (s ++ concat ps)%list /\ append_items c (x :: s) u = Ok w1 /\ parts_of t ps w1 w' /\ Forall (starts sep) ps /\ no_sep sep s).
    { intros c u Hc. bok Hc. destruct (IH _ _ _ _ Hc) as [s [ps [w1 [A [B [C [D F]]]]]]]. exists s, ps, w1. repeat split; auto.
      cbn [append_items]. rewrite E. exact B. }
    assert (K2 : (forall p, x = IPara p -> fresh = false -> sep p = Ok false) ->
      (exists s ps w1, l = (s ++ concat ps)%list /\ append_items cur (x :: s) w = Ok w1 /\ parts_of t ps w1 w' /\ Forall (starts sep) ps /\ no_sep sep s) ->
      exists s ps w1, x :: l = (s ++ concat ps)%list /\ append_items cur s w = Ok w1 /\ parts_of t ps w1 w' /\ Forall (starts sep) ps /\
        (if fresh then match s with [] => x :: l = [] | _ :: s' => no_sep sep s' end else no_sep sep s)).
    { intros P [s [ps [w1 [A [B [C [D F]]]]]]]. exists (x :: s), ps, w1. subst l. repeat split; auto.
      destruct fresh; auto. intros p [->|I]; auto. }
    destruct x as [p|tb|sc].
    + bok H. destruct v, fresh; cbn [andb negb] in H.
      * apply K2; [discriminate|]. apply K; auto.
      * apply K in H. destruct H as [s [ps [w1 [A [B [C [D F]]]]]]].
        exists [], ((IPara p :: s) :: ps), w. cbn [concat app]. subst l. repeat split; auto.
        -- econstructor; eauto.
        -- constructor; auto. exists (IPara p), s. repeat split; auto. exists p. auto.
        -- intros q [].
      * apply K2; [discriminate|]. apply K; auto.
      * apply K2; [|apply K; auto]. intros q [= <-] _. auto.
    + apply K2; [discriminate|]. apply K; auto.
    + apply K2; [discriminate|]. apply K; auto.
Qed.
Lemma split_parts : forall i sep w w' d, nth_error w i = Some d -> split_by_paragraph i sep w = Ok w' ->
  exists ps, pieces sep (d_items d) ps /\ parts_of (d_tmpl d) ps w w'.
Proof.
  intros i sep w w' d N H. unfold split_by_paragraph in H. rewrite N in H. destruct (d_items d) as [|x l] eqn:E.
  - inversion H; subst. exists []. split; [|constructor]. split; auto. intros [|k] s K; discriminate K.
  - apply split_items_parts in H. destruct H as [s [ps [w1 [A [B [C [D F]]]]]]]. exists (s :: ps). split.
    + split; [cbn; congruence|]. intros [|k] s0 K; cbn in K.
      * injection K as <-. destruct s as [|y s]; [discriminate F|]. exists y, s. repeat split; auto. congruence.
      * apply nth_error_In in K. rewrite Forall_forall in D. destruct (D _ K) as [y [s' [S1 [S2 S3]]]]. exists y, s'. auto.
    + econstructor; eauto.
Qed.

Lemma new_part_dest : forall t w, nth_error (new_part t w) (length w) = Some (mk_docx [] empty_reg t true).
Proof. intros. unfold new_part. rewrite nth_error_app2, Nat.sub_diag; auto. Qed.
Lemma nth_ext_eq : forall A (l m : list A), (forall i, nth_error l i = nth_error m i) -> l = m.
Proof.
  induction l as [|x l IH]; intros [|y m] H; auto.
  - specialize (H 0). discriminate H.
  - specialize (H 0). discriminate H.
  - pose proof (H 0) as H0. injection H0 as <-. f_equal. apply IH. intro i. exact (H (S i)).
Qed.
Lemma only_last : forall (w w' : world) x, only (length w) (w ++ [x])%list w' -> exists y, w' = (w ++ [y])%list.
Proof.
  intros w w' x [L O]. rewrite app_length in L. cbn in L.
  destruct (nth_error w' (length w)) as [y|] eqn:E.
  2: { apply nth_error_None in E. lia. }
  exists y. apply nth_ext_eq. intros j. destruct (lt_dec j (length w)).
  - rewrite O by lia. rewrite !nth_error_app1 by lia. reflexivity.
  - destruct (Nat.eq_dec j (length w)) as [->|].
    + rewrite nth_error_app2, Nat.sub_diag by lia. exact E.
    + rewrite (proj2 (nth_error_None _ _)) by lia. symmetry. apply nth_error_None. rewrite app_length. cbn. lia.
Qed.
(** each piece and the document made of it *)
Lemma parts_each : forall t ps w w', parts_of t ps w w' -> exists ds, w' = (w ++ ds)%list /\ length ds = length ps /\
  forall k s d, nth_error ps k = Some s -> nth_error ds k = Some d ->
    exists u u', append_items (length w + k) s (new_part t u) = Ok u' /\ (exists e, u = (w ++ e)%list /\ length e = k) /\
      nth_error u' (length w + k) = Some d.
Proof.
  intros t. induction ps as [|s ps IH]; intros w w' H; inversion H; subst.
  - exists []. rewrite app_nil_r. repeat split; auto. intros [|k] s d K; discriminate K.
  - match goal with A : append_items _ _ _ = Ok ?w1, B : parts_of _ _ ?w1 _ |- _ => rename A into AA; rename B into BB; rename w1 into w1 end.
    pose proof (append_items_only _ _ _ _ AA) as O. destruct (only_last _ _ _ O) as [y ->].
    destruct (IH _ _ BB) as [ds [E1 [E2 E3]]]. exists (y :: ds). rewrite E1, <- app_assoc. cbn [app length]. repeat split; auto.
    intros [|k] s0 d K1 K2; cbn in K1, K2.
    + injection K1 as <-. injection K2 as <-. exists w, (w ++ [y])%list. rewrite Nat.add_0_r. split; auto. split.
      * exists []. rewrite app_nil_r. auto.
      * rewrite nth_error_app2, Nat.sub_diag by lia. reflexivity.
    + destruct (E3 _ _ _ K1 K2) as [u [u' [F1 [[e [F2 F3]] F4]]]]. rewrite app_length in F1, F4. cbn [length] in F1, F4.
      replace (length w + S k) with (length w + 1 + k) by lia. exists u, u'. split; auto. split; auto.
      exists (y :: e). rewrite F2, <- app_assoc. cbn. auto.
Qed.
Lemma later_app : forall w e, later w (w ++ e)%list.
Proof.
  intros w e. split.
  - intros f id t [i [d [A [B C]]]]. exists i, d. repeat split; auto. rewrite nth_error_app1; auto. eapply nth_lt; eauto.
  - intros f id t z [i [d [A [B C]]]]. exists i, d. repeat split; auto. rewrite nth_error_app1; auto. eapply nth_lt; eauto.
Qed.
Lemma part_same : forall w e t to s u' d, to = length w + length e ->
  append_items to s (new_part t (w ++ e)%list) = Ok u' -> nth_error u' to = Some d ->
  d_tmpl d = t /\ map kind_of (d_items d) = map kind_of s /\
  ((N.of_nat (length (rels (d_reg d))) < B63)%N -> Forall2 (same_item w to (d_reg d)) s (d_items d)).
Proof.
  intros w e t to s u' d -> A N. rewrite <- app_length in *. pose proof (new_part_dest t (w ++ e)%list) as D.
  destruct (append_items_kinds _ _ _ _ _ D A) as [d' [new [X1 [X2 [X3 [X4 X5]]]]]]. rewrite N in X1. injection X1 as <-.
  cbn [d_items d_tmpl d_reg app] in *. split; auto. split; [congruence|]. intro L.
  destruct (append_items_same w (length (w ++ e)%list) (d_reg d) s (new_part t (w ++ e)%list) u' (mk_docx [] empty_reg t true)) as [d2 [new2 [Y1 [Y2 Y3]]]]; auto.
  - split.
    + unfold new_part. rewrite <- app_assoc. apply later_app.
    + eexists. split; [exact D|]. cbn [d_reg]. split; [apply empty_good|]. apply empty_room; auto.
  - exists d. split; auto. constructor.
  - rewrite N in Y1. injection Y1 as <-. cbn in Y2. rewrite Y2. exact Y3.
Qed.

(** C19, C20 for SplitByParagraph *)
Lemma split_spec : forall i sep w w' d, nth_error w i = Some d -> split_by_paragraph i sep w = Ok w' ->
  exists ps ds, pieces sep (d_items d) ps /\ w' = (w ++ ds)%list /\ length ds = length ps /\
    forall k s e, nth_error ps k = Some s -> nth_error ds k = Some e ->
      d_tmpl e = d_tmpl d /\ map kind_of (d_items e) = map kind_of s /\
      ((N.of_nat (length (rels (d_reg e))) < two63)%N -> Forall2 (same_item w (length w + k) (d_reg e)) s (d_items e)).
Proof.
  intros i sep w w' d N H. destruct (split_parts _ _ _ _ _ N H) as [ps [P Q]]. destruct (parts_each _ _ _ _ Q) as [ds [E1 [E2 E3]]].
  exists ps, ds. split; [exact P|split; [exact E1|split; [exact E2|]]]. intros k s e K1 K2.
  destruct (E3 _ _ _ K1 K2) as [u [u' [F1 [[e' [F2 F3]] F4]]]]. subst u.
  exact (part_same w e' _ _ _ _ _ (f_equal (Nat.add (length w)) (eq_sym F3)) F1 F4).
Qed.
