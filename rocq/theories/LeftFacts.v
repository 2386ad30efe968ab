(** What the body of a document uses of its relationships, through histories of calls. *)
From Coq Require Import String Ascii List Bool Arith NArith ZArith Lia.
From Verif Require Import GoStr Num Lib Types XmlTok Docx Api Keep Copy Pack History SpecLex SpecApi SpecLeft RegFacts IdFacts HistFacts HistFacts2 DrawIds HistInv CopyFacts StableFacts2 ReopenFacts HomeFacts.
Import ListNotations.
Local Open Scope list_scope.
Local Open Scope string_scope.

Inductive use := Lnk (id : string) | Pct (id : string).
Definition g_uses (og : option graphic) : list use :=
  match og with
  | Some g => match graphicR_data g with
              | Some d => match gdataR_pic d with
                          | Some p => match pic_blip p with Some b => [Pct (ablip_embed (picblip_blip b))] | None => [] end
                          | None => []
                          end
              | None => []
              end
  | None => []
  end.
Definition i_uses (o : option inline) : list use := match o with Some x => g_uses (inlineR_graphic x) | None => [] end.
Definition a_uses (o : option anchor) : list use := match o with Some x => g_uses (anchorR_graphic x) | None => [] end.
Definition r_uses (c : rchild) : list use := match c with RDraw i a => (i_uses i ++ a_uses a)%list | _ => [] end.
Definition run_uses (r : run) : list use := flat_map r_uses (runR_children r).
Definition c_uses (c : pchild) : list use := match c with PRun r => run_uses r | PLink id r => Lnk id :: run_uses r | PRPr _ => [] end.
Definition p_uses (p : para) : list use := flat_map c_uses (para_children p).
Definition cell_uses (c : cell) : list use := flat_map p_uses (cell_paras c).
Definition row_uses (r : row) : list use := flat_map cell_uses (row_cells r).
Definition item_uses (x : item) : list use := match x with IPara p => p_uses p | ITable t => flat_map row_uses (table_rows t) | ISect _ => [] end.
Definition body_uses (l : list item) : list use := flat_map item_uses l.

Definition explained (us : list use) (r : rel) : Prop :=
  xml_string (rel_id r) /\ (rel_mode r = "External" /\ In (Lnk (rel_id r)) us \/ rel_mode r = "" /\ In (Pct (rel_id r)) us).
Definition gain (g g' : reg) (us : list use) : Prop := forall r, In r (rels g') -> In r (rels g) \/ explained us r.
Lemma explained_incl : forall us vs r, incl us vs -> explained us r -> explained vs r.
Proof. intros us vs r I (X & [(M & K)|(M & K)]); split; auto. Qed.
Lemma gain_refl : forall g us, gain g g us. Proof. intros g us r I. now left. Qed.
Lemma gain_rels : forall g g' us, rels g' = rels g -> gain g g' us. Proof. intros g g' us E r I. left. now rewrite <- E. Qed.
Lemma gain_trans : forall a b c us vs ws, gain a b us -> gain b c vs -> incl us ws -> incl vs ws -> gain a c ws.
Proof.
  intros a b c us vs ws A B I J r K. destruct (B r K) as [L|L]; [|right; now apply (explained_incl vs)].
  destruct (A r L) as [M|M]; [now left|right; now apply (explained_incl us)].
Qed.
Lemma gain_incl : forall a b us vs, gain a b us -> incl us vs -> gain a b vs.
Proof. intros a b us vs A I r K. destruct (A r K) as [L|L]; [now left|right; now apply (explained_incl us)]. Qed.
Lemma rid_xml : forall n, xml_string ("rId" ++ itoa_u n).
Proof. intros n. apply xml_app; [apply (legal_xml _ _ (le_n _)); vm_compute; reflexivity|apply xml_itoau]. Qed.
Lemma gain_link : forall t g, gain g (snd (add_link_relation t g)) [Lnk (fst (add_link_relation t g))].
Proof. intros t g r I. cbn in I. apply in_app_iff in I as [I|[<-|[]]]; [now left|]. right. split; [apply rid_xml|]. left. split; [reflexivity|now left]. Qed.
Lemma gain_image : forall f b g, gain g (snd (add_image f b g)) [Pct (fst (add_image f b g))].
Proof. intros f b g r I. cbn in I. apply in_app_iff in I as [I|[<-|[]]]; [now left|]. right. split; [apply rid_xml|]. right. split; [reflexivity|now left]. Qed.

(** ** copies *)
Definition gains (to : nat) (w w' : world) (us : list use) : Prop :=
  forall d', nth_error w' to = Some d' -> exists d, nth_error w to = Some d /\ gain (d_reg d) (d_reg d') us.
Lemma gains_refl : forall to w us, gains to w w us.
Proof. intros to w us d N. exists d. split; auto using gain_refl. Qed.
Lemma gains_trans : forall to a b c us vs ws, gains to a b us -> gains to b c vs -> incl us ws -> incl vs ws -> gains to a c ws.
Proof. intros to a b c us vs ws A B I J d N. destruct (B d N) as (e & M & G). destruct (A e M) as (f & K & H). exists f. split; auto. eapply gain_trans; eauto. Qed.
Lemma gains_incl : forall to a b us vs, gains to a b us -> incl us vs -> gains to a b vs.
Proof. intros to a b us vs A I d N. destruct (A d N) as (e & M & G). exists e. split; auto. eapply gain_incl; eauto. Qed.
Lemma gains_file : forall A to w (k : reg -> A * reg) x w' us, on_file w (Some to) k = Ok (x, w') ->
  (forall g, x = fst (k g) -> gain g (snd (k g)) us) -> gains to w w' us.
Proof.
  intros A to w k x w' us E G d N. apply on_file_reg in E as (e & M & X & ->). rewrite set_nth_same in N by (eapply nth_lt; eauto). injection N as <-.
  exists e. split; auto. cbn. auto.
Qed.
Definition copied_uses (c : copied) : list use := match c with CNew _ g => g_uses (Some g) | _ => [] end.
Lemma copy_graphic_gains : forall to f og w w' c, copy_graphic to f og w = Ok (w', c) -> gains to w w' (copied_uses c).
Proof.
  intros to f og w w' c E. unfold copy_graphic in E. destruct og as [g|]; [|discriminate]. destruct (graphicR_data g) as [d|] eqn:D; [|discriminate].
  destruct (gdataR_pic d) as [p|] eqn:P.
  - destruct (pic_blip p) as [b|]; [|inversion E; subst; apply gains_refl].
    bok E. destruct (refer_target v _) as [tgt|e|]; [|inversion E; subst; apply gains_refl|discriminate].
    bok E. destruct v0 as [idn w1]. bok E. destruct v0 as [idu w2].
    assert (G : forall us, gains to w w2 us).
    { intros us. apply gains_trans with (b := w1) (us := us) (vs := us); try apply incl_refl.
      - eapply gains_file; [exact E1|]. intros r _. now apply gain_rels.
      - eapply gains_file; [exact E2|]. intros r _. now apply gain_rels. }
    destruct (drop 6 tgt); [|discriminate]. bok E. bok E. destruct v1 as [[? data]|]; [|inversion E; subst; apply G].
    bok E. destruct v1 as [rid w3]. destruct (pic_nvpic p); [|discriminate]. inversion E; subst. cbn [copied_uses].
    apply gains_trans with (b := w2) (us := []) (vs := [Pct rid]); [apply G| |intros x []|].
    + eapply gains_file; [exact E5|]. intros r ->. apply gain_image.
    + intros x [<-|[]]. cbn. now left.
  - destruct (gdataR_shape d), (gdataR_canvas d); inversion E; subst; apply gains_refl.
Qed.
Lemma copy_rchild_gains : forall to c w w' c', copy_rchild to c w = Ok (w', c') -> gains to w w' (r_uses c').
Proof.
  intros to c w w' c' E. destruct c as [t|t|t|[x|] [y|]]; cbn [copy_rchild] in E; try (inversion E; subst; apply gains_refl);
    bok E; destruct v as [w1 r]; inversion E; subst; (eapply gains_incl; [eapply copy_graphic_gains; eauto|]); destruct r as [| |dp g]; cbn; try (intros z []); rewrite ?app_nil_r; apply incl_refl.
Qed.
Lemma copy_list_gains : forall A B (u : B -> list use) to (f : A -> world -> res (world * B)),
  (forall x w w' y, f x w = Ok (w', y) -> gains to w w' (u y)) -> forall l w w' l', copy_list f l w = Ok (w', l') -> gains to w w' (flat_map u l').
Proof.
  intros A B u to f K. induction l as [|x l IH]; intros w w' l' E; cbn [copy_list] in E; [inversion E; subst; apply gains_refl|].
  bok E. destruct v as [w1 y]. bok E. destruct v as [w2 l2]. inversion E; subst. cbn [flat_map].
  eapply gains_trans; [eapply K; eauto|eapply IH; eauto|apply incl_appl, incl_refl|apply incl_appr, incl_refl].
Qed.
Lemma copy_run_gains : forall to r w w' r', copy_run to r w = Ok (w', r') -> gains to w w' (run_uses r').
Proof. intros to r w w' r' E. unfold copy_run in E. bok E. destruct v as [w1 c]. inversion E; subst. unfold run_uses. cbn. eapply copy_list_gains; [|eauto]. intros; eapply copy_rchild_gains; eauto. Qed.
Definition o_uses (o : option pchild) : list use := match o with Some c => c_uses c | None => [] end.
Lemma copy_pchild_gains : forall to f c w w' c', copy_pchild to f c w = Ok (w', c') -> gains to w w' (o_uses c').
Proof.
  intros to f c w w' c' E. destruct c as [r|id r|r]; cbn [copy_pchild] in E.
  - bok E. destruct v as [w1 y]. inversion E; subst. eapply copy_run_gains; eauto.
  - bok E. destruct (refer_target v id); [|inversion E; subst; apply gains_refl|discriminate].
    bok E. destruct v0 as [rid w1]. bok E. destruct v0 as [w2 y]. inversion E; subst. cbn [o_uses c_uses].
    apply gains_trans with (b := w1) (us := [Lnk rid]) (vs := run_uses y).
    + eapply gains_file; [exact E1|]. intros g ->. apply gain_link.
    + eapply copy_run_gains; eauto.
    + intros z [<-|[]]. now left.
    + apply incl_tl, incl_refl.
  - inversion E; subst. apply gains_refl.
Qed.
Lemma somes_uses : forall l, flat_map o_uses l = flat_map c_uses (somes l).
Proof. induction l as [|[c|] l IH]; cbn; auto. now rewrite IH. Qed.
Lemma copy_para_gains : forall to c w w' c', copy_para to c w = Ok (w', c') -> gains to w w' (p_uses c').
Proof.
  intros to c w w' c' E. unfold copy_para in E. bok E. destruct v as [w1 l]. inversion E; subst. unfold p_uses. cbn. change (flat_map c_uses (somes l)) with (flat_map c_uses (somes l)).
  rewrite <- somes_uses. eapply copy_list_gains; [|eauto]. intros; eapply copy_pchild_gains; eauto.
Qed.
Lemma copy_item_gains : forall to c w w' c', copy_item to c w = Ok (w', c') -> gains to w w' (item_uses c').
Proof.
  intros to c w w' c' E. destruct c as [p|t|s]; cbn [copy_item] in E.
  - bok E. destruct v as [w1 p']. inversion E; subst. eapply copy_para_gains; eauto.
  - bok E. destruct v as [w1 t']. inversion E; subst. unfold copy_table in E0. bok E0. destruct v as [w2 l]. inversion E0; subst. cbn.
    eapply copy_list_gains; [|exact E1]. intros r u u' r' Hr. unfold copy_row in Hr. bok Hr. destruct v. inversion Hr; subst. unfold row_uses. cbn.
    eapply copy_list_gains; [|eauto]. intros c x x' c' Hc. unfold copy_cell in Hc. bok Hc. destruct v. inversion Hc; subst. unfold cell_uses. cbn.
    eapply copy_list_gains; [|eauto]. intros; eapply copy_para_gains; eauto.
  - inversion E; subst. apply gains_refl.
Qed.

(** ** documents that use all their relationships *)
Definition used (d : docx) : Prop := forall r, In r (rels (d_reg d)) -> In r base_rels \/ explained (body_uses (d_items d)) r.
Definition J (i : nat) (w : world) : Prop := forall d, nth_error w i = Some d -> used d.
Lemma used_more : forall d d' us, used d -> gain (d_reg d) (d_reg d') us -> incl us (body_uses (d_items d')) -> incl (body_uses (d_items d)) (body_uses (d_items d')) -> used d'.
Proof.
  intros d d' us U G I K r R. destruct (G r R) as [L|L]; [|right; exact (explained_incl _ _ _ I L)].
  destruct (U r L) as [M|M]; [now left|right; exact (explained_incl _ _ _ K M)].
Qed.
Lemma J_only : forall i k w w', only k w w' -> i <> k -> J i w -> J i w'.
Proof. intros i k w w' (_ & O) N Q d E. apply Q. rewrite <- O; auto. Qed.
Lemma copy_push_J : forall i to x w w', copy_push to x w = Ok w' -> J i w -> J i w'.
Proof.
  intros i to x w w' E Q. destruct (Nat.eq_dec i to) as [->|N]; [|eapply J_only; eauto; eapply copy_push_only; eauto].
  unfold copy_push in E. bok E. destruct v as [w1 y]. unfold push_item in E. destruct (nth_error w1 to) as [d1|] eqn:D1; [|discriminate]. injection E as <-.
  intros d' N. rewrite set_nth_same in N by (eapply nth_lt; eauto). injection N as <-.
  destruct (copy_item_gains _ _ _ _ _ E0 _ D1) as (d & D & G). pose proof (proj2 (copy_item_frame _ _ _ _ _ E0) to) as S. unfold items_at in S. rewrite D, D1 in S. cbn in S. injection S as S _.
  apply (used_more d) with (us := item_uses y); auto.
  - unfold body_uses. cbn. rewrite flat_map_app. cbn. rewrite app_nil_r. apply incl_appr, incl_refl.
  - unfold body_uses. cbn. rewrite flat_map_app, S. apply incl_appl, incl_refl.
Qed.
Lemma append_items_J : forall i to l w w', append_items to l w = Ok w' -> J i w -> J i w'.
Proof. intros i to. induction l as [|x l IH]; intros w w' E Q; cbn [append_items] in E; [inversion E; subst; auto|]. bok E. eapply IH; eauto. eapply copy_push_J; eauto. Qed.
Lemma J_app : forall i w x, J i w -> used x -> J i (w ++ [x])%list.
Proof.
  intros i w x Q U d N. destruct (lt_dec i (length w)) as [L|L]; [rewrite nth_error_app1 in N by lia; auto|].
  rewrite nth_error_app2 in N by lia. destruct (i - length w) as [|k]; [injection N as <-; exact U|destruct k; discriminate].
Qed.
Lemma base_used : forall d, rels (d_reg d) = base_rels -> used d.
Proof. intros d E r I. left. now rewrite <- E. Qed.
Lemma parts_J : forall i t ps w w', parts_of t ps w w' -> J i w -> J i w'.
Proof. induction 1 as [w|s ps w w1 w2 A P IH]; intros Q; [exact Q|]. apply IH. eapply append_items_J; eauto. apply J_app; auto. now apply base_used. Qed.

(** ** changes in place *)
Lemma set_nth_incl : forall A (u : A -> list use) l k x y, nth_error l k = Some x -> incl (u x) (u y) -> incl (flat_map u l) (flat_map u (set_nth l k y)).
Proof.
  induction l as [|z l IH]; intros [|k] x y N I; try discriminate; cbn in *.
  - injection N as ->. apply incl_app; [now apply incl_appl|apply incl_appr, incl_refl].
  - apply incl_app; [apply incl_appl, incl_refl|]. apply incl_appr. eapply IH; eauto.
Qed.
Lemma set_nth_has : forall A (u : A -> list use) l k x y, nth_error l k = Some x -> incl (u y) (flat_map u (set_nth l k y)).
Proof.
  induction l as [|z l IH]; intros [|k] x y N; try discriminate; cbn in *; [apply incl_appl, incl_refl|]. apply incl_appr. eapply IH; eauto.
Qed.
Lemma put_cell_uses : forall l i r c x y, get_cell l i r c = Some x -> incl (cell_uses x) (cell_uses y) ->
  incl (body_uses l) (body_uses (put_cell l i r c y)) /\ incl (cell_uses y) (body_uses (put_cell l i r c y)).
Proof.
  intros l i r c x y G I. unfold get_cell in G. unfold put_cell. destruct (nth_error l i) as [[p|t|s]|] eqn:K; try discriminate.
  destruct (nth_error (table_rows t) r) as [z|] eqn:R; [|discriminate]. unfold body_uses. split.
  - eapply set_nth_incl; [exact K|]. cbn. eapply set_nth_incl; [exact R|]. unfold row_uses. cbn. eapply set_nth_incl; eauto.
  - eapply incl_tran; [|eapply set_nth_has; exact K]. cbn. eapply incl_tran; [|eapply set_nth_has; exact R]. unfold row_uses. cbn. eapply set_nth_has; eauto.
Qed.
Lemma put_para_uses : forall l a p p', get_para l a = Some p -> incl (p_uses p) (p_uses p') ->
  incl (body_uses l) (body_uses (put_para l a p')) /\ incl (p_uses p') (body_uses (put_para l a p')).
Proof.
  intros l [i|i r c k] p p' G I; cbn in *.
  - destruct (nth_error l i) as [[q|t|s]|] eqn:K; try discriminate. injection G as ->. unfold body_uses. split; [eapply set_nth_incl; eauto|].
    exact (set_nth_has _ item_uses _ _ _ (IPara p') K).
  - destruct (get_cell l i r c) as [x|] eqn:K; [|discriminate].
    destruct (put_cell_uses l i r c x (set_cell_paras (set_nth (cell_paras x) k p') x) K) as [A B].
    + unfold cell_uses. cbn. eapply set_nth_incl; eauto.
    + split; auto. eapply incl_tran; [|exact B]. unfold cell_uses. cbn. eapply set_nth_has; eauto.
Qed.

Section H.
Context `{GoLib}.
Lemma size_uses : forall anch sw sh c c', child_size anch sw sh c = Ok c' -> r_uses c' = r_uses c.
Proof.
  assert (G : forall sw sh og, g_uses (option_map (graphic_size sw sh) og) = g_uses og).
  { intros sw sh [g|]; auto. cbn [option_map g_uses]. unfold graphic_size. destruct (graphicR_data g) as [d|] eqn:D; [|now rewrite D].
    destruct (gdataR_pic d) as [p|] eqn:P; [|now rewrite D, P]. destruct (pic_sp p) as [s|]; [|now rewrite D, P]. reflexivity. }
  intros anch sw sh [t|t|t|[x|] [y|]] c' E; destruct anch; cbn in E; try discriminate; injection E as <-; cbn; rewrite ?G; reflexivity.
Qed.
Lemma rop_uses : forall o r r', exec_rop o r = Ok r' -> match o with RKeep _ => False | _ => True end -> incl (run_uses r) (run_uses r').
Proof.
  intros o r r' E A. destruct o; cbn [exec_rop] in E;
    try (unfold run_color, run_size, run_sizecs, run_shade, run_spacing, run_bold, run_italic, run_underline, run_highlight, run_strike, run_font, on_rpr in E;
         destruct (runR_rpr r); inversion E; subst; apply incl_refl).
  - inversion E; subst. unfold run_uses. cbn. rewrite flat_map_app. apply incl_appl, incl_refl.
  - destruct A.
  - destruct (nth_error (runR_children r) k) as [c|] eqn:K; [|discriminate]. bok E. inversion E; subst. unfold run_uses. cbn.
    eapply set_nth_incl; eauto. rewrite (size_uses _ _ _ _ _ E0). apply incl_refl.
Qed.
Lemma add_child_uses : forall c p, p_uses (add_child c p) = (p_uses p ++ c_uses c)%list.
Proof. intros c [[pp ch f]]. unfold p_uses, add_child. cbn. rewrite flat_map_app. cbn. now rewrite app_nil_r. Qed.
Definition pop_adds (o : pop) : Prop := match o with OKeepP _ | ODropP _ | ORun _ (RKeep _) => False | _ => True end.
Lemma pop_uses : forall i o w p w' p', exec_pop o w p = Ok (w', p') -> pop_adds o -> para_file p = Some i ->
  gains i w w' (p_uses p') /\ incl (p_uses p) (p_uses p').
Proof.
  intros i o w p w' p' E A F.
  assert (S : forall q, para_children q = para_children p -> gains i w w (p_uses q) /\ incl (p_uses p) (p_uses q)).
  { intros q K. split; [apply gains_refl|]. unfold p_uses. rewrite K. apply incl_refl. }
  assert (S2 : forall c, gains i w w (p_uses (add_child c p)) /\ incl (p_uses p) (p_uses (add_child c p))).
  { intros c. split; [apply gains_refl|]. rewrite add_child_uses. apply incl_appl, incl_refl. }
  destruct o; cbn [exec_pop] in E; try (match type of E with Ok _ = Ok _ => inversion E; subst; clear E end).
  - unfold add_text. destruct (String.eqb t _); apply S2.
  - apply S2.
  - apply S2.
  - unfold add_link in E. bok E. destruct v as [id w1]. rewrite F in E0. inversion E; subst. split; [|apply S2].
    apply gains_incl with (us := [Lnk id]); [eapply gains_file; [exact E0|]; intros g ->; apply gain_link|]. rewrite add_child_uses. apply incl_appr. intros z [<-|[]]. now left.
  - unfold add_drawing in E. destruct (lib_imgsize data) as [[[sw sh] fmt]|]; [|discriminate]. bok E. destruct v as [[[idn id] r] w1]. bok E. destruct v as [ew eh].
    rewrite F in E0. inversion E; subst. split; [|apply S2]. eapply gains_incl with (us := [Pct r]).
    + eapply gains_file; [exact E0|]. intros g K. unfold new_image in *.
      destruct (inc_docid g) as [x1 g1] eqn:E2. destruct (increase_id TUPIAN g1) as [x2 g2] eqn:E3. destruct (add_image fmt data g2) as [x3 g3] eqn:E4. cbn in K. injection K as -> -> ->.
      assert (R1 : rels g1 = rels g) by (inversion E2; reflexivity).
      assert (R2 : rels g2 = rels g1) by (unfold increase_id in E3; inversion E3; reflexivity).
      pose proof (gain_image fmt data g2) as G. rewrite E4 in G. cbn in G. cbn. intros q I. destruct (G q I) as [L|L]; [left; congruence|now right].
    + rewrite add_child_uses. apply incl_appr. intros z [<-|[]]. destruct anch; cbn; now left.
  - unfold add_shape in E. bok E. destruct v as [[idn ids] w1]. rewrite F in E0. inversion E; subst. split; [|apply S2].
    eapply gains_file; [exact E0|]. intros g K. apply gain_rels. unfold new_shape_ids. destruct (inc_docid g) as [x1 g1] eqn:E2. destruct (increase_id name g1) as [x2 g2] eqn:E3. cbn.
    assert (R1 : rels g1 = rels g) by (inversion E2; reflexivity).
    assert (R2 : rels g2 = rels g1) by (unfold increase_id in E3; inversion E3; reflexivity). congruence.
  - apply S; now destruct p as [[pp ch f]].
  - apply S; now destruct p as [[pp ch f]].
  - apply S; now destruct p as [[pp ch f]].
  - apply S; now destruct p as [[pp ch f]].
  - apply S; now destruct p as [[pp ch f]].
  - destruct A.
  - destruct A.
  - assert (A' : match o with RKeep _ => False | _ => True end) by (destruct o; auto).
    destruct (nth_error (para_children p) k) as [[r|id r|r]|] eqn:K; try discriminate;
      bok E; inversion E; subst; (split; [apply gains_refl|]); destruct p as [[pp ch f]]; unfold p_uses; cbn in *; (eapply set_nth_incl; [exact K|]); cbn.
    + eapply rop_uses; eauto.
    + apply incl_cons; [now left|]. apply incl_tl. eapply rop_uses; eauto.
Qed.

Lemma on_doc_J : forall i w d k w', on_doc w d k = Ok w' -> (forall x y, k x = Ok y -> d_reg y = d_reg x /\ (d = i -> incl (body_uses (d_items x)) (body_uses (d_items y)))) -> J i w -> J i w'.
Proof.
  intros i w d k w' E K Q. destruct (on_doc_inv _ _ _ _ E) as [x [y [N [Ky ->]]]]. destruct (K _ _ Ky) as (R & I). destruct (Nat.eq_dec d i) as [->|D].
  - intros e M. rewrite set_nth_same in M by (eapply nth_lt; eauto). injection M as <-. eapply (used_more x y []); auto; [apply gain_rels; now rewrite R|intros z []].
  - intros e M. rewrite set_nth_other in M by auto. auto.
Qed.
Lemma incl_add : forall l x, incl (body_uses l) (body_uses (l ++ [x])%list).
Proof. intros l x. unfold body_uses. rewrite flat_map_app. apply incl_appl, incl_refl. Qed.
Lemma exec_J : forall i o w w', exec o w = Ok w' -> adding i o -> home w -> J i w -> J i w'.
Proof.
  intros i o w w' E A HM Q. destruct o; cbn [exec] in E.
  - inversion E; subst. apply J_app; auto. now apply base_used.
  - destruct A.
  - destruct (nth_error w d) as [x|] eqn:N; [|discriminate]. destruct (get_para (d_items x) a) as [p|] eqn:G; [|discriminate].
    bok E. destruct v as [w1 p']. destruct (exec_pop_items _ _ _ _ _ E0) as (S & _ & O).
    destruct (get_para_home _ _ _ _ (HM _ _ N) G) as [F _].
    destruct (on_doc_inv _ _ _ _ E) as [y [z [M [Kz ->]]]]. injection Kz as <-.
    destruct (Nat.eq_dec d i) as [->|D].
    + intros e K. rewrite set_nth_same in K by (eapply nth_lt; eauto). injection K as <-.
      assert (A' : pop_adds o) by (destruct o as [| | | | | | | | | | | | |k0 r0]; cbn in *; auto; destruct r0; auto).
      destruct (pop_uses i _ _ _ _ _ E0 A' F) as (GN & IN). destruct (GN _ M) as (x' & N' & GN'). rewrite N in N'. injection N' as <-.
      specialize (S i). unfold items_at in S. rewrite N, M in S. cbn in S. injection S as S _.
      destruct (put_para_uses (d_items y) a p p') as (I1 & I2); [now rewrite S|exact IN|].
      apply (used_more x) with (us := p_uses p'); auto; cbn [d_items set_d_items]; auto. now rewrite <- S.
    + intros e K. rewrite set_nth_other in K by auto. apply Q. rewrite <- O; auto. rewrite F. congruence.
  - bok E. destruct v as [w1 p']. inversion E; subst. destruct (exec_pop_items _ _ _ _ _ E0) as (_ & _ & O). intros e K. apply Q. rewrite <- O; auto.
  - eapply on_doc_J; eauto. intros y z K. injection K as <-. split; [reflexivity|]. intros _. apply incl_add.
  - eapply on_doc_J; eauto. intros y z K. cbv beta in K. destruct (get_cell (d_items y) i0 r c) as [v|] eqn:G; [|discriminate]. injection K as <-. split; [reflexivity|]. intros _. cbn.
    eapply put_cell_uses; eauto. unfold cell_uses, cell_add_paragraph. cbn. rewrite flat_map_app. apply incl_appl, incl_refl.
  - eapply on_doc_J; eauto. intros y z K. cbv beta in K. bok K. destruct v as [y' col']. injection K as <-. unfold add_table in E0.
    destruct (Z.ltb (iv r) 0); [discriminate|]. destruct (_ && _)%bool; [discriminate|]. destruct (use_colors col). injection E0 as <- _. split; [reflexivity|]. intros _. apply incl_add.
  - eapply on_doc_J; eauto. intros y z K. injection K as <-. unfold add_table_twips. destruct (use_colors col). split; [reflexivity|]. intros _. apply incl_add.
  - eapply on_doc_J; eauto. intros y z K. cbv beta in K. destruct (nth_error (d_items y) i0) as [[p|t|s]|] eqn:G; try discriminate. bok K. injection K as <-. split; [reflexivity|]. intros _. cbn.
    unfold body_uses. eapply set_nth_incl; [exact G|]. unfold table_justification in E0. destruct (table_props t); [|discriminate]. injection E0 as <-. apply incl_refl.
  - eapply on_doc_J; eauto. intros y z K. cbv beta in K. destruct (nth_error (d_items y) i0) as [[p|t|s]|] eqn:G; try discriminate.
    destruct (nth_error (table_rows t) r) as [rw|] eqn:R; [|discriminate]. bok K. injection K as <-. split; [reflexivity|]. intros _. cbn.
    unfold body_uses. eapply set_nth_incl; [exact G|]. cbn. eapply set_nth_incl; [exact R|].
    unfold row_justification in E0. destruct (row_props rw); [|discriminate]. injection E0 as <-. apply incl_refl.
  - eapply on_doc_J; eauto. intros y z K. cbv beta in K. destruct (get_cell (d_items y) i0 r c) as [q|] eqn:G; [|discriminate]. bok K. injection K as <-. split; [reflexivity|]. intros _. cbn.
    eapply put_cell_uses; eauto. unfold cell_shade in E0. destruct (cell_props q); [|discriminate]. injection E0 as <-. apply incl_refl.
  - eapply on_doc_J; eauto. intros y z K. injection K as <-. destruct a3; (split; [reflexivity|]); intros _; apply incl_add.
  - eapply on_doc_J; eauto. intros y z K. injection K as <-. split; [reflexivity|]. intros _. apply incl_refl.
  - eapply on_doc_J; eauto. intros y z K. injection K as <-. split; [reflexivity|]. intros D. contradiction.
  - eapply on_doc_J; eauto. intros y z K. injection K as <-. split; [reflexivity|]. intros D. contradiction.
  - destruct (nth_error w d); [|discriminate]. unfold append_file in E. destruct (nth_error w from) as [x|] eqn:D; [|discriminate]. eapply append_items_J; eauto.
  - destruct (nth_error w d) as [x|] eqn:N; [|unfold split_by_paragraph in E; rewrite N in E; discriminate].
    destruct (split_parts _ _ _ _ _ N E) as (ps & _ & P). eapply parts_J; eauto.
  - destruct A.
Qed.
End H.
