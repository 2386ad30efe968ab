(** Histories: ids, links and pictures. *)
From Coq Require Import String Ascii List Bool Arith NArith ZArith Lia.
From Verif Require Import GoStr Num Lib Types Docx Text Api Keep Copy History RegFacts IdFacts SpecApi SpecEdit ApiFacts HistFacts.
Import ListNotations.
Local Open Scope list_scope.
Local Open Scope string_scope.

(** ** places in a body *)
Lemma nth_split : forall A (l : list A) i x, nth_error l i = Some x ->
  exists a b, l = (a ++ x :: b)%list /\ length a = i /\ forall y, set_nth l i y = (a ++ y :: b)%list.
Proof.
  induction l as [|z l IH]; intros [|i] x E; cbn in E; try discriminate.
  - injection E as ->. exists [], l. auto.
  - destruct (IH _ _ E) as [a [b [E1 [E2 E3]]]]. exists (z :: a), b. cbn. rewrite E1 at 1. split; auto. split; auto.
    intros; now rewrite E3.
Qed.
Lemma flat_split : forall A B (f : A -> list B) a x b, flat_map f (a ++ x :: b)%list = (flat_map f a ++ f x ++ flat_map f b)%list.
Proof. intros. rewrite flat_map_app. reflexivity. Qed.

Lemma get_cell_split : forall l i r c v, get_cell l i r c = Some v ->
  exists A B, (forall v', body_paras (put_cell l i r c v') = (A ++ cell_paras v' ++ B)%list) /\ body_paras l = (A ++ cell_paras v ++ B)%list.
Proof.
  intros l i r c v G. unfold get_cell in G. unfold put_cell. destruct (nth_error l i) as [[p|t|s]|] eqn:E1; try discriminate.
  destruct (nth_error (table_rows t) r) as [x|] eqn:E2; try discriminate.
  destruct (nth_split _ _ _ _ E1) as [a1 [b1 [F1 [_ S1]]]].
  destruct (nth_split _ _ _ _ E2) as [a2 [b2 [F2 [_ S2]]]].
  destruct (nth_split _ _ _ _ G) as [a3 [b3 [F3 [_ S3]]]].
  exists (flat_map item_paras a1 ++ flat_map (fun r => flat_map cell_paras (row_cells r)) a2 ++ flat_map cell_paras a3)%list,
    (flat_map cell_paras b3 ++ flat_map (fun r => flat_map cell_paras (row_cells r)) b2 ++ flat_map item_paras b1)%list.
  split.
  - intros v'. unfold body_paras. rewrite S1, flat_split. cbn [item_paras]. unfold table_paras. cbn [table_rows set_table_rows].
    rewrite S2, flat_split. cbn [row_cells set_row_cells]. rewrite S3, flat_split. now rewrite <- !app_assoc.
  - unfold body_paras. rewrite F1, flat_split. cbn [item_paras]. unfold table_paras.
    rewrite F2, flat_split. rewrite F3, flat_split. now rewrite <- !app_assoc.
Qed.
Lemma get_para_split : forall l a p, get_para l a = Some p ->
  exists A B, body_paras l = (A ++ p :: B)%list /\ forall p', body_paras (put_para l a p') = (A ++ p' :: B)%list.
Proof.
  intros l [i|i r c k] p G; cbn in G.
  - destruct (nth_error l i) as [[q|t|s]|] eqn:E; try discriminate. injection G as ->.
    destruct (nth_split _ _ _ _ E) as [a [b [F [_ S]]]].
    exists (flat_map item_paras a), (flat_map item_paras b). unfold body_paras, put_para. split.
    + rewrite F, flat_split. reflexivity.
    + intros. rewrite S, flat_split. reflexivity.
  - destruct (get_cell l i r c) as [v|] eqn:E; [|discriminate].
    destruct (get_cell_split _ _ _ _ _ E) as [A [B [S1 F1]]]. destruct (nth_split _ _ _ _ G) as [a [b [F [_ S]]]].
    exists (A ++ a)%list, (b ++ B)%list. cbn [put_para]. rewrite E. split.
    + rewrite F1, F, <- !app_assoc. reflexivity.
    + intros. rewrite S1. cbn [cell_paras set_cell_paras]. rewrite S, <- !app_assoc. reflexivity.
Qed.

Lemma get_put_same : forall l a p q, get_para l a = Some p -> get_para (put_para l a q) a = Some q.
Proof.
  intros l [i|i r c k] p q G; cbn in *.
  - destruct (nth_error l i) eqn:E; [|discriminate]. now rewrite set_nth_same by (eapply nth_lt; eauto).
  - unfold get_cell in *. unfold put_cell. destruct (nth_error l i) as [[|t|]|] eqn:E; try discriminate.
    destruct (nth_error (table_rows t) r) as [x|] eqn:E2; [|discriminate].
    destruct (nth_error (row_cells x) c) as [v|] eqn:E3; [|discriminate].
    rewrite set_nth_same by (eapply nth_lt; eauto). cbn [table_rows set_table_rows].
    rewrite set_nth_same by (eapply nth_lt; eauto). cbn [row_cells set_row_cells].
    rewrite set_nth_same by (eapply nth_lt; eauto). cbn [cell_paras set_cell_paras].
    now rewrite set_nth_same by (eapply nth_lt; eauto).
Qed.
Lemma get_put_other : forall l a b p q, get_para l a = Some p -> a <> b -> get_para (put_para l a q) b = get_para l b.
Proof.
  intros l [i|i r c k] b p q G N; cbn [get_para] in G.
  - destruct (nth_error l i) as [[| |]|] eqn:E; try discriminate. cbn [put_para].
    destruct b as [j|j r c k]; cbn.
    + rewrite set_nth_other by congruence. auto.
    + unfold get_cell. destruct (Nat.eq_dec i j) as [<-|]; [|now rewrite set_nth_other].
      rewrite set_nth_same by (eapply nth_lt; eauto). now rewrite E.
  - cbn [put_para]. unfold get_cell in *. unfold put_cell. destruct (nth_error l i) as [[|t|]|] eqn:E; try discriminate.
    destruct (nth_error (table_rows t) r) as [x|] eqn:E2; [|discriminate].
    destruct (nth_error (row_cells x) c) as [v|] eqn:E3; [|discriminate].
    destruct b as [j|j r' c' k']; cbn [get_para].
    + destruct (Nat.eq_dec i j) as [<-|]; [|now rewrite set_nth_other].
      rewrite set_nth_same by (eapply nth_lt; eauto). now rewrite E.
    + unfold get_cell. destruct (Nat.eq_dec i j) as [<-|]; [|now rewrite set_nth_other].
      rewrite set_nth_same by (eapply nth_lt; eauto). rewrite E. cbn [table_rows set_table_rows].
      destruct (Nat.eq_dec r r') as [<-|]; [|now rewrite set_nth_other].
      rewrite set_nth_same by (eapply nth_lt; eauto). rewrite E2. cbn [row_cells set_row_cells].
      destruct (Nat.eq_dec c c') as [<-|]; [|now rewrite set_nth_other].
      rewrite set_nth_same by (eapply nth_lt; eauto). rewrite E3. cbn [cell_paras set_cell_paras].
      apply set_nth_other. congruence.
Qed.

Section H.
Context `{GoLib}.

(** ** C03 *)
Lemma new_rels : forall w0 l w d, run_ops l (w0 ++ [new_docx])%list = Some w -> nth_error w (length w0) = Some d ->
  reg_steps empty_reg (d_reg d).
Proof.
  intros w0 l w d R N. apply run_ops_grows in R.
  destruct (R (length w0) new_docx) as [d' [A B]].
  - rewrite nth_error_app2 by lia. now rewrite Nat.sub_diag.
  - rewrite N in A. injection A as ->. exact B.
Qed.
Lemma steps_empty_ids : forall g, reg_steps empty_reg g -> (N.of_nat (length (rels g)) < B63)%N ->
  map rel_id (rels g) = ids_from 0 (length (rels g)) /\ rid g = N.of_nat (length (rels g)).
Proof.
  intros g S L. destruct (steps_rels _ _ S) as [l [E B]]. rewrite E in *. rewrite app_length in *. cbn [rels empty_reg base_rels length rid] in *.
  destruct B as [B1 B2]; [lia|]. split; [|rewrite B1; lia]. rewrite map_app, B2. cbn [map rel_id app plus]. reflexivity.
Qed.
Lemma ids_unique : forall w0 l w d, run_ops l (w0 ++ [new_docx])%list = Some w -> nth_error w (length w0) = Some d ->
  (N.of_nat (length (rels (d_reg d))) < B63)%N -> NoDup (map rel_id (rels (d_reg d))).
Proof.
  intros w0 l w d R N L. destruct (steps_empty_ids _ (new_rels _ _ _ _ R N) L) as [E _].
  rewrite E. apply ids_from_nodup.
Qed.

(** ** C04 *)
Lemma add_link_inv : forall t link w p w' p', add_link t link w p = Ok (w', p') ->
  exists i d, para_file p = Some i /\ nth_error w i = Some d /\
    w' = set_nth w i (set_d_reg (snd (add_link_relation link (d_reg d))) d) /\
    p' = add_child (PLink (fst (add_link_relation link (d_reg d))) (mk_runR "" (Some (set_rpr_runStyle (Some HYPERLINK_STYLE) rpr0)) t [])) p.
Proof.
  intros t link w p w' p' A. unfold add_link in A. bok A. destruct v as [id w1].
  destruct (para_file p) as [i|] eqn:F; [|discriminate].
  apply on_file_reg in E. destruct E as [d [N [E1 E2]]]. inversion A; subst.
  exists i, d. auto.
Qed.
Lemma link_resolves : forall g link, numbered g -> (rid g + 1 < B63)%N ->
  refer_target (snd (add_link_relation link g)) (fst (add_link_relation link g)) = Ok link.
Proof.
  intros g link N L. unfold add_link_relation. rewrite add_rel_new by auto. cbn [fst snd].
  unfold refer_target. cbn [rels set_rid set_rels]. rewrite refer_app_new.
  - cbn. now rewrite seqb_refl.
  - apply numbered_fresh; auto. lia.
Qed.

Lemma exec_para_inv : forall d a o w w', exec (OPara d a o) w = Ok w' ->
  exists x p w1 p', nth_error w d = Some x /\ get_para (d_items x) a = Some p /\ exec_pop o w p = Ok (w1, p') /\
    exists y, nth_error w1 d = Some y /\ d_items y = d_items x /\
      w' = set_nth w1 d (set_d_items (put_para (d_items x) a p') y).
Proof.
  intros d a o w w' E. cbn [exec] in E. destruct (nth_error w d) as [x|] eqn:N; [|discriminate].
  destruct (get_para (d_items x) a) as [p|] eqn:G; [|discriminate]. bok E. destruct v as [w1 p'].
  exists x, p, w1, p'. repeat split; auto. unfold on_doc in E. destruct (nth_error w1 d) as [y|] eqn:N1; [|discriminate].
  cbn in E. inversion E; subst. exists y.
  destruct (exec_pop_items _ _ _ _ _ E0) as [S _]. specialize (S d). unfold items_at in S. rewrite N1, N in S. cbn in S.
  injection S as S. rewrite S. auto.
Qed.
Lemma nth_regs : forall w1 d y z i e, nth_error w1 d = Some y -> d_reg z = d_reg y -> nth_error w1 i = Some e ->
  exists e', nth_error (set_nth w1 d z) i = Some e' /\ d_reg e' = d_reg e.
Proof.
  intros w1 d y z i e N R I. destruct (Nat.eq_dec d i) as [<-|].
  - exists z. rewrite set_nth_same by (eapply nth_lt; eauto). split; auto. congruence.
  - exists e. now rewrite set_nth_other.
Qed.

Lemma hyperlink_keeps : forall g0 i w d0 j a t link w1 x p l w2 d2,
  nth_error w i = Some d0 -> numbered g0 -> reg_steps g0 (d_reg d0) ->
  nth_error w j = Some x -> get_para (d_items x) a = Some p -> para_file p = Some i ->
  exec (OPara j a (OLink t link)) w = Ok w1 -> run_ops l w1 = Some w2 -> nth_error w2 i = Some d2 ->
  (rid g0 + N.of_nat (length (rels (d_reg d2)) - length (rels g0)) < B63)%N ->
  exists x1 id r, nth_error w1 j = Some x1 /\
    get_para (d_items x1) a = Some (set_para_children (para_children p ++ [PLink id r])%list p) /\
    runR_instr r = t /\ refer_target (d_reg d2) id = Ok link.
Proof.
  intros g0 i w d0 j a t link w1 x p l w2 d2 N0 NB S0 Nj G F E R N2 L.
  destruct (exec_para_inv _ _ _ _ _ E) as [x' [p' [w' [q [A1 [A2 [A3 [y [A4 [A5 A6]]]]]]]]]].
  rewrite Nj in A1. injection A1 as <-. rewrite G in A2. injection A2 as <-.
  cbn [exec_pop] in A3. destruct (add_link_inv _ _ _ _ _ _ A3) as [i' [d [B1 [B2 [B3 B4]]]]].
  rewrite F in B1. injection B1 as <-. rewrite N0 in B2. injection B2 as <-.
  eexists _, _, _. split; [rewrite A6; apply set_nth_same; eapply nth_lt; eauto|]. cbn [d_items set_d_items].
  split; [rewrite B4; eapply get_put_same; eauto|]. split; [reflexivity|].
  destruct (nth_regs w' j y (set_d_items (put_para (d_items x) a q) y) i (set_d_reg (snd (add_link_relation link (d_reg d0))) d0)) as [e [C1 C2]]; auto.
  { rewrite B3. apply set_nth_same. eapply nth_lt; eauto. }
  rewrite <- A6 in C1. destruct (run_ops_grows _ _ _ R _ _ C1) as [e' [D1 D2]]. rewrite N2 in D1. injection D1 as <-.
  eapply steps_refer; eauto. rewrite C2. cbn [d_reg set_d_reg].
  destruct (steps_rels _ _ S0) as [l0 [R0 Q0]].
  destruct (steps_rels _ _ D2) as [l2 [R2 _]]. rewrite C2 in R2. cbn [d_reg set_d_reg] in R2.
  unfold add_link_relation, add_rel in R2. cbn [snd rels set_rid set_rels] in R2.
  assert (LL : length (rels (d_reg d2)) - length (rels g0) = length l0 + 1 + length l2).
  { rewrite R2, R0, !app_length. cbn. lia. }
  apply link_resolves.
  - eapply steps_numbered; eauto. lia.
  - destruct Q0 as [Q0 _]; [lia|]. lia.
Qed.

(** ** C05 *)
Lemma add_drawing_inv : forall anch data w p w' p', add_drawing anch data w p = Ok (w', p') ->
  exists i d sw sh fmt ew eh, para_file p = Some i /\ nth_error w i = Some d /\ lib_imgsize data = Some (sw, sh, fmt) /\
    pic_size sw sh = Ok (ew, eh) /\
    w' = set_nth w i (set_d_reg (snd (new_image fmt data (d_reg d))) d) /\
    let '(idn, id, r) := fst (new_image fmt data (d_reg d)) in
    p' = add_child (PRun (api_run [if anch then RDraw None (Some (pic_anchor idn id (pic_title id) r ew eh))
               else RDraw (Some (pic_inline idn id (pic_title id) r ew eh)) None])) p.
Proof.
  intros anch data w p w' p' A. unfold add_drawing in A. destruct (lib_imgsize data) as [[[sw sh] fmt]|]; [|discriminate].
  bok A. destruct v as [[[idn id] r] w1]. bok A. destruct v as [ew eh].
  destruct (para_file p) as [i|] eqn:F; [|discriminate].
  apply on_file_reg in E. destruct E as [d [N [E1 E2]]]. inversion A; subst.
  exists i, d, sw, sh, fmt, ew, eh. rewrite <- E1. repeat split; auto.
Qed.

Definition image_reg (g : reg) : reg := snd (increase_id TUPIAN (snd (inc_docid g))).
Lemma new_image_eq : forall fmt data g, new_image fmt data g =
  let n := uadd1 (imgid g) in
  ((fst (inc_docid g), int_of_u (fst (increase_id TUPIAN (snd (inc_docid g)))), fst (add_image fmt data (image_reg g))),
   snd (add_image fmt data (image_reg g))).
Proof.
  intros. unfold new_image, image_reg. destruct (inc_docid g) as [a g1]. cbn [fst snd]. destruct (increase_id TUPIAN g1) as [b g2]. cbn [fst snd].
  destruct (add_image fmt data g2). reflexivity.
Qed.
Lemma image_resolves : forall fmt data g, numbered g -> (rid g + 1 < B63)%N -> (imgid g + 1 < B63)%N ->
  refer_target (snd (add_image fmt data g)) (fst (add_image fmt data g)) = Ok ("media/" ++ img_name (imgid g + 1) fmt).
Proof.
  intros fmt data g N L M. unfold add_image, add_image_relation. rewrite uadd1_small by lia. rewrite itoa_u_small by lia.
  rewrite add_rel_new by (cbn; lia). cbn [fst snd]. unfold refer_target. cbn [rels set_rid set_rels set_imgid add_media set_media rid].
  rewrite refer_app_new.
  - cbn. now rewrite seqb_refl.
  - apply numbered_fresh; auto. lia.
Qed.
Lemma image_stored : forall fmt data g g', media_ok g -> img_fresh g -> (imgid g + 1 < B63)%N ->
  reg_steps (snd (add_image fmt data g)) g' -> (imgid g + N.of_nat (length (media g') - length (media g)) < B63)%N ->
  media_of g' (img_name (imgid g + 1) fmt) = Ok (Some (img_name (imgid g + 1) fmt, data)).
Proof.
  intros fmt data g g' M F L S B. destruct (steps_media _ _ S) as [l [E [_ Q]]].
  pose proof (steps_media_ok _ _ S (step_media_ok _ _ (st_image fmt data g) M)) as M'. rewrite M', E.
  unfold add_image, add_image_relation, add_rel in *. cbn [snd media imgid set_rid set_rels set_imgid add_media set_media fst] in *.
  rewrite E, !app_length in B. cbn [length] in B. rewrite uadd1_small in * by lia. rewrite itoa_u_small in * by lia.
  change ("image" ++ utoa (imgid g + 1) ++ "." ++ fmt) with (img_name (imgid g + 1) fmt) in *.
  destruct Q as [_ Q]; [lia|].
  rewrite !last_named_app. rewrite last_named_none.
  - cbn [last_named fst]. rewrite seqb_refl. reflexivity.
  - intro I. apply in_map_iff in I. destruct I as [m [E1 I]]. destruct (names_from_in _ _ _ Q I) as [k [f [A C]]].
    rewrite E1 in A. apply img_name_inj in A. lia.
Qed.

Lemma image_reg_same : forall g, rels (image_reg g) = rels g /\ media (image_reg g) = media g /\ midx (image_reg g) = midx g /\ rid (image_reg g) = rid g /\ imgid (image_reg g) = imgid g.
Proof. intros. unfold image_reg, increase_id, inc_docid. cbn. auto. Qed.

Lemma picture_keeps : forall g0 i w d0 j a anch pic0 w1 x p l w2 d2,
  nth_error w i = Some d0 -> numbered g0 -> media_ok g0 -> img_fresh g0 -> reg_steps g0 (d_reg d0) ->
  nth_error w j = Some x -> get_para (d_items x) a = Some p -> para_file p = Some i ->
  exec (OPara j a (ODrawing anch pic0)) w = Ok w1 -> run_ops l w1 = Some w2 -> nth_error w2 i = Some d2 ->
  (rid g0 + N.of_nat (length (rels (d_reg d2)) - length (rels g0)) < B63)%N ->
  (imgid g0 + N.of_nat (length (media (d_reg d2)) - length (media g0)) < B63)%N ->
  exists x1 r c pc embed name, nth_error w1 j = Some x1 /\
    get_para (d_items x1) a = Some (set_para_children (para_children p ++ [PRun r])%list p) /\
    runR_children r = [c] /\ drawing_pics c = [pc] /\ pic_embed pc = Some embed /\
    refer_target (d_reg d2) embed = Ok ("media/" ++ name) /\
    media_of (d_reg d2) name = Ok (Some (name, pic0)).
Proof.
  intros g0 i w d0 j a anch pic0 w1 x p l w2 d2 N0 NB MO IF S0 Nj G F E R N2 L LM.
  destruct (exec_para_inv _ _ _ _ _ E) as [x' [p' [w' [q [A1 [A2 [A3 [y [A4 [A5 A6]]]]]]]]]].
  rewrite Nj in A1. injection A1 as <-. rewrite G in A2. injection A2 as <-.
  cbn [exec_pop] in A3. destruct (add_drawing_inv _ _ _ _ _ _ A3) as [i' [d [sw [sh [fmt [ew [eh [B1 [B2 [B3 [B4 [B5 B6]]]]]]]]]]]].
  rewrite F in B1. injection B1 as <-. rewrite N0 in B2. injection B2 as <-.
  rewrite new_image_eq in B5, B6. cbn [fst snd] in B5, B6.
  eexists _, _, _, _, _, (img_name (imgid (d_reg d0) + 1) fmt). split; [rewrite A6; apply set_nth_same; eapply nth_lt; eauto|]. cbn [d_items set_d_items].
  split; [rewrite B6; eapply get_put_same; eauto|]. split; [reflexivity|].
  split; [destruct anch; reflexivity|]. split; [reflexivity|].
  destruct (nth_regs w' j y (set_d_items (put_para (d_items x) a q) y) i (set_d_reg (snd (add_image fmt pic0 (image_reg (d_reg d0)))) d0)) as [e [C1 C2]]; auto.
  { rewrite B5. apply set_nth_same. eapply nth_lt; eauto. }
  rewrite <- A6 in C1. destruct (run_ops_grows _ _ _ R _ _ C1) as [e' [D1 D2]]. rewrite N2 in D1. injection D1 as <-.
  rewrite C2 in D2. cbn [d_reg set_d_reg] in D2.
  destruct (image_reg_same (d_reg d0)) as [I1 [I2 [I3 [I4 I5]]]].
  destruct (steps_rels _ _ S0) as [l0 [R0 Q0]]. destruct (steps_media _ _ S0) as [m0 [R0' [_ Q0']]].
  destruct (steps_rels _ _ D2) as [l2 [R2 _]]. destruct (steps_media _ _ D2) as [m2 [R2' _]].
  unfold add_image, add_image_relation, add_rel in R2, R2'. cbn [snd rels media set_rid set_rels set_imgid add_media set_media] in R2, R2'.
  rewrite I1 in R2. rewrite I2 in R2'.
  assert (LL : length (rels (d_reg d2)) - length (rels g0) = length l0 + 1 + length l2).
  { rewrite R2, R0, !app_length. cbn. lia. }
  assert (LL' : length (media (d_reg d2)) - length (media g0) = length m0 + 1 + length m2).
  { rewrite R2', R0', !app_length. cbn. lia. }
  destruct Q0 as [Q0 _]; [lia|]. destruct Q0' as [Q0' _]; [lia|].
  assert (NB0 : numbered (d_reg d0)) by (eapply steps_numbered; eauto; lia).
  assert (NB1 : numbered (image_reg (d_reg d0))) by (unfold numbered; rewrite I1, I4; exact NB0).
  split.
  - eapply steps_refer; eauto. rewrite <- I5. apply image_resolves; auto; lia.
  - rewrite <- I5. eapply image_stored; eauto.
    + eapply media_ok_ext; [symmetry; exact I2|symmetry; exact I3|]. eapply steps_media_ok; eauto.
    + intros m n f. rewrite I2, I5. eapply (steps_img_fresh g0 (d_reg d0) m0); eauto. lia.
    + lia.
    + rewrite I5, I2. rewrite R2', !app_length. cbn [length]. lia.
Qed.

(** media count is below relationship count in a new document *)
Lemma steps_empty_media : forall g, reg_steps empty_reg g -> length (media g) <= length (rels g).
Proof. intros g S. destruct (steps_media _ _ S) as [l [E [L _]]]. rewrite E. cbn in *. lia. Qed.
End H.
