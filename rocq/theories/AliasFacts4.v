(** Documents in memory: calls on paragraphs. *)
From Coq Require Import String List Bool Arith Lia.
From Verif Require Import GoStr Num Lib Types Docx Api Keep Copy History RegFacts Alias SpecAlias AliasFacts AliasFacts2 AliasFacts3.
Import ListNotations.
Local Open Scope list_scope.

(** ** The rest of a document does not look at its items *)
Definition strip (d : docx) : docx := set_d_items [] d.
Definition sres {A} (x : res (world * A)) : res (world * A) := bind x (fun '(w, y) => Ok (map strip w, y)).

Lemma nth_strip : forall w i, nth_error (map strip w) i = option_map strip (nth_error w i).
Proof. intros. apply nth_error_map. Qed.
Lemma file_reg_strip : forall w f, file_reg (map strip w) f = file_reg w f.
Proof. intros w [i|]; cbn; [|reflexivity]. rewrite nth_strip. destruct (nth_error w i) as [[]|]; reflexivity. Qed.
Lemma on_file_strip : forall A w f (k : reg -> A * reg), on_file (map strip w) f k = bind (on_file w f k) (fun '(x, w') => Ok (x, map strip w')).
Proof.
  intros A w [i|] k; cbn; [|reflexivity]. rewrite nth_strip. destruct (nth_error w i) as [[it g t]|]; cbn; [|reflexivity].
  destruct (k g) as [x g']. cbn. rewrite set_nth_map. reflexivity.
Qed.
Lemma on_file_items : forall A w f (k : reg -> A * reg) x w', on_file w f k = Ok (x, w') -> map d_items w' = map d_items w.
Proof.
  intros A w [i|] k x w' E; cbn in E; [|discriminate]. destruct (nth_error w i) as [d|] eqn:D; [|discriminate].
  destruct (k (d_reg d)) as [y g]. inversion E; subst. rewrite set_nth_map. cbn.
  clear - D. revert i D. induction w as [|z w IH]; intros [|i] D; cbn in *; try discriminate.
  - inversion D; subst. reflexivity.
  - f_equal. auto.
Qed.

(** calls that add content, as what they do to an empty paragraph *)
Definition is_content (o : pop) : bool :=
  match o with OText _ | OTab | OBreak | OLink _ _ | ODrawing _ _ | OShape _ _ _ _ _ _ _ => true | _ => false end.
Lemma content_pop : forall (L : GoLib) o, is_content o = true -> forall w p,
  exec_pop o w p = bind (exec_pop o w (mk_para None [] (para_file p))) (fun '(w', q) => Ok (w', set_para_children (para_children p ++ para_children q) p)).
Proof.
  intros L o Ho w p. destruct o; cbn in Ho; try discriminate; cbn [exec_pop].
  - unfold add_text. destruct (String.eqb t (String TAB "")); reflexivity.
  - reflexivity.
  - reflexivity.
  - unfold add_link. cbn [para_file mk_para para_r paraR_file]. destruct (on_file w (para_file p) _) as [[x w']| |]; reflexivity.
  - unfold add_drawing. destruct (lib_imgsize data) as [[[sw sh] fm]|]; [|reflexivity]. cbn [para_file mk_para para_r paraR_file].
    destruct (on_file w (para_file p) _) as [[[[x y] z] w']| |]; cbn [bind]; try reflexivity.
    destruct (pic_size sw sh) as [[? ?]| |]; reflexivity.
  - unfold add_shape. cbn [para_file mk_para para_r paraR_file].
    destruct (on_file w (para_file p) _) as [[[x y] w']| |]; cbn [bind]; reflexivity.
Qed.
Lemma pop_strip : forall (L : GoLib) o w p, exec_pop o (map strip w) p = sres (exec_pop o w p).
Proof.
  intros L o w p. destruct o; cbn [exec_pop]; try reflexivity.
  - unfold add_link. rewrite on_file_strip. destruct (on_file w (para_file p) _) as [[x w']| |]; reflexivity.
  - unfold add_drawing. destruct (lib_imgsize data) as [[[sw sh] fm]|]; [|reflexivity]. rewrite on_file_strip.
    destruct (on_file w (para_file p) _) as [[[[x y] z] w']| |]; cbn [bind sres]; try reflexivity.
    destruct (pic_size sw sh) as [[? ?]| |]; reflexivity.
  - unfold add_shape. rewrite on_file_strip. destruct (on_file w (para_file p) _) as [[[x y] w']| |]; reflexivity.
  - destruct (nth_error (para_children p) k) as [[r|id r|q]|]; try reflexivity; destruct (exec_rop o r); reflexivity.
Qed.
Lemma pop_items : forall (L : GoLib) o w p w' p', exec_pop o w p = Ok (w', p') -> map d_items w' = map d_items w.
Proof.
  intros L o w p w' p' E. destruct o; cbn [exec_pop] in E; try (inversion E; reflexivity).
  - unfold add_link in E. destruct (on_file w (para_file p) _) as [[x w2]| |] eqn:F; try discriminate. inversion E; subst.
    eapply on_file_items; eauto.
  - unfold add_drawing in E. destruct (lib_imgsize data) as [[[sw sh] fm]|]; [|discriminate].
    destruct (on_file w (para_file p) _) as [[[[x y] z] w2]| |] eqn:F; cbn [bind] in E; try discriminate.
    destruct (pic_size sw sh) as [[? ?]| |]; try discriminate. inversion E; subst. eapply on_file_items; eauto.
  - unfold add_shape in E. destruct (on_file w (para_file p) _) as [[[x y] w2]| |] eqn:F; cbn [bind] in E; try discriminate.
    inversion E; subst. eapply on_file_items; eauto.
  - destruct (nth_error (para_children p) k) as [[r|id r|q]|]; try discriminate; destruct (exec_rop o r); try discriminate; inversion E; reflexivity.
Qed.

(** ** Changing objects in place *)
Definition owned (h : heap) (L : list nat) : Prop := forall b, cont h b = true -> cnt L b <= 1.
Lemma owned_app : forall h L L', owned h (L ++ L') -> owned h L /\ owned h L'.
Proof. intros h L L' O. split; intros b Hb; specialize (O b Hb); rewrite cnt_app in O; lia. Qed.

Definition inplace {A B} (u : A -> heap -> heap) (v : heap -> A -> option B) (r : heap -> A -> list nat) (g : B -> B) : Prop :=
  forall h x y, v h x = Some y -> owned h (r h x) -> exists S,
    touched h (u x h) S /\ incl S (r h x) /\ (forall b, In b S -> cont h b = true) /\
    v (u x h) x = Some (g y) /\ (forall b, cnt (r (u x h) x) b <= cnt (r h x) b) /\ kinds h (u x h) /\ length (u x h) = length h.

Lemma inplace_list : forall A B (u : A -> heap -> heap) v r (g : B -> B), lawful v r -> inplace u v r g ->
  inplace (fun l h => fold_left (fun h x => u x h) l h) (fun h l => all_some (v h) l) (fun h l => flat_map (r h) l) (map g).
Proof.
  intros A B u v r g L I h l. revert h. induction l as [|x l IH]; intros h ys V O; cbn in V.
  - inversion V; subst. exists []. repeat split; cbn; auto; try (intros ? []). 
  - destruct (v h x) as [y|] eqn:Ex; [|discriminate]. destruct (all_some (v h) l) as [zs|] eqn:El; [|discriminate]. inversion V; subst ys.
    cbn [flat_map] in O. destruct (owned_app _ _ _ O) as [O1 O2].
    destruct (I h x y Ex O1) as (S1 & T1 & I1 & C1 & V1 & N1 & K1 & L1).
    assert (D1 : forall b, In b S1 -> ~ In b (flat_map (r h) l)).
    { intros b Hb Hin. specialize (O b (C1 b Hb)). rewrite cnt_app in O. apply I1 in Hb. apply cnt_in in Hb. apply cnt_in in Hin. lia. }
    destruct (touched_agree _ _ _ _ (law_list _ _ _ _ L) h (u x h) S1 l zs El T1 D1) as [El1 Rl1]. cbn in El1, Rl1.
    destruct (IH (u x h) zs El1) as (S2 & T2 & I2 & C2 & V2 & N2 & K2 & L2).
    { rewrite Rl1. intros b Hb. apply O2. rewrite <- (K1 b); [exact Hb|]. apply cont_bound in Hb. lia. }
    assert (C2' : forall b, In b S2 -> cont h b = true).
    { intros b Hb. pose proof (C2 b Hb) as Hc. rewrite <- (K1 b); [exact Hc|]. apply cont_bound in Hc. lia. }
    assert (D2 : forall b, In b S2 -> ~ In b (r (u x h) x)).
    { intros b Hb Hin. specialize (O b (C2' b Hb)). rewrite cnt_app in O. specialize (N1 b). apply I2 in Hb. rewrite Rl1 in Hb.
      apply cnt_in in Hb. apply cnt_in in Hin. lia. }
    destruct (touched_agree _ _ _ _ L (u x h) _ S2 x _ V1 T2 D2) as [V1' R1'].
    exists (S1 ++ S2). cbn [fold_left]. cbn in V2. repeat split.
    + eapply touched_trans; eauto.
    + eapply touched_trans; eauto.
    + intros b Hb. cbn. apply in_or_app. apply in_app_or in Hb. destruct Hb as [Hb|Hb]; [left; auto|right]. rewrite <- Rl1. auto.
    + intros b Hb. apply in_app_or in Hb. destruct Hb; auto.
    + cbn. rewrite V1', V2. reflexivity.
    + intros b. cbn. rewrite !cnt_app, R1'. specialize (N1 b). specialize (N2 b). rewrite Rl1 in N2. lia.
    + apply (kinds_trans _ (u x h)); [lia|exact K1|exact K2].
    + lia.
Qed.

Lemma inplace_obj : forall C Q A B Y (as_ : obj -> option C) (as1 : obj -> option Q) (p : C -> option nat) (q : C -> list A)
  (u : list A -> heap -> heap) (v : heap -> A -> option B) r (f : C -> option Q -> list B -> Y) (g : list B -> list B) (gy : Y -> Y),
  (forall h a c, deref as_ h a = Some c -> cont h a = true) -> (forall h a c, deref as1 h a = Some c -> cont h a = false) ->
  (forall c x ys, gy (f c x ys) = f c x (g ys)) ->
  inplace u (fun h l => all_some (v h) l) (fun h l => flat_map (r h) l) g ->
  inplace (fun a h => match deref as_ h a with Some c => u (q c) h | None => h end)
   (fun h a => match deref as_ h a with
               | Some c => match maybe (deref as1 h) (p c), all_some (v h) (q c) with Some x, Some y => Some (f c x y) | _, _ => None end
               | None => None
               end)
   (fun h a => a :: match deref as_ h a with Some c => ptr (p c) ++ flat_map (r h) (q c) | None => [] end) gy.
Proof.
  intros C Q A B Y as_ as1 p q u v r f g gy HC HP HG I h a y V O.
  destruct (deref as_ h a) as [c|] eqn:D; [|discriminate].
  destruct (maybe (deref as1 h) (p c)) as [pv|] eqn:Ep; [|discriminate]. destruct (all_some (v h) (q c)) as [ys|] eqn:Eq; [|discriminate].
  inversion V; subst y.
  assert (O2 : owned h (flat_map (r h) (q c))).
  { intros b Hb. specialize (O b Hb). cbn [count_occ] in O. rewrite cnt_app in O. destruct (Nat.eq_dec a b); lia. }
  destruct (I h (q c) ys Eq O2) as (S & T & In1 & C1 & V1 & N1 & K1 & L1).
  assert (Ha : ~ In a S).
  { intros Hb. specialize (O a (HC h a c D)). cbn [count_occ] in O. rewrite cnt_app in O. apply In1 in Hb. apply cnt_in in Hb.
    destruct (Nat.eq_dec a a); [lia|tauto]. }
  assert (D' : deref as_ (u (q c) h) a = Some c).
  { rewrite <- D. apply deref_agree. apply T; [eapply deref_bound; eauto|exact Ha]. }
  destruct (touched_agree _ _ _ _ (law_prop _ as1) h (u (q c) h) S (p c) pv Ep T) as [P' _].
  { intros b Hb Hin. destruct (p c) as [b'|]; [|destruct Hin]. destruct Hin as [->|[]]. cbn in Ep.
    destruct (deref as1 h b) as [z|] eqn:Z; [|discriminate]. pose proof (HP _ _ _ Z). pose proof (C1 b Hb). congruence. }
  exists S. split; [exact T|]. split; [intros b Hb; right; apply in_or_app; right; auto|]. split; [exact C1|]. split; [|split; [|split; [exact K1|exact L1]]].
  - rewrite D', P', V1. rewrite HG. reflexivity.
  - intros b. rewrite D'. cbn [count_occ]. rewrite !cnt_app. specialize (N1 b). destruct (Nat.eq_dec a b); lia.
Qed.

(** the Drop functions *)
Lemma filter_view : forall h t l ys, all_some (v_rchild h) l = Some ys ->
  all_some (v_rchild h) (filter (h_keeps h t) l) = Some (filter (fun c => negb (t c)) ys).
Proof.
  intros h t. induction l as [|x l IH]; intros ys E; cbn in E; [inversion E; reflexivity|].
  destruct (v_rchild h x) as [y|] eqn:Ex; [|discriminate]. destruct (all_some (v_rchild h) l) as [zs|] eqn:El; [|discriminate]. inversion E; subst ys.
  cbn [filter]. assert (Hk : h_keeps h t x = negb (t y)) by (unfold h_keeps; rewrite Ex; reflexivity). rewrite Hk. destruct (negb (t y)); [|apply IH; reflexivity].
  cbn. rewrite Ex, (IH zs eq_refl). reflexivity.
Qed.
Lemma filter_cnt : forall A (k : A -> bool) (r : A -> list nat) l b, cnt (flat_map r (filter k l)) b <= cnt (flat_map r l) b.
Proof. intros A k r l b. induction l as [|x l IH]; cbn; [lia|]. destruct (k x); cbn; rewrite ?cnt_app; lia. Qed.

Definition drop_child (t : rchild -> bool) (c : hchild) (h : heap) : heap := h_drop_children t [c] h.
Lemma drop_children_fold : forall t l h, h_drop_children t l h = fold_left (fun h c => drop_child t c h) l h.
Proof. intros t. induction l as [|[a|a|q] l IH]; intros h; cbn; auto. Qed.

Lemma inplace_drop_child : forall t, inplace (drop_child t) v_child reach_child (drop_in_pchild t).
Proof.
  intros t h c y V O. destruct c as [a|a|q]; cbn [drop_child h_drop_children].
  - cbn [v_child reach_child] in V, O. destruct (deref as_run h a) as [r|] eqn:D; [|discriminate].
    destruct (v_run h r) as [rv|] eqn:Vr; [|discriminate]. inversion V; subst y.
    assert (Ha : ~ In a (reach_run h r)).
    { intros Hin. specialize (O a (c_run _ _ _ D)). apply cnt_in in Hin. cbn [count_occ] in O. destruct (Nat.eq_dec a a); [lia|tauto]. }
    set (r' := h_drop_run t r h).
    assert (V' : v_run h r' = Some (drop_in_run t rv)).
    { destruct (run_inv _ _ _ Vr) as (Vp & Vc & Es & Ei). unfold v_run, r', h_drop_run. cbn [hr_rpr hr_children hr_space hr_instr].
      rewrite Vp, (filter_view h t _ _ Vc), Es, Ei. destruct rv; reflexivity. }
    assert (N' : forall b, cnt (reach_run h r') b <= cnt (reach_run h r) b).
    { intros b. unfold reach_run, r', h_drop_run. cbn [hr_rpr hr_children]. rewrite !cnt_app. pose proof (filter_cnt _ (h_keeps h t) (reach_rchild h) (hr_children r) b). lia. }
    assert (Ha' : ~ In a (reach_run h r')).
    { intros Hin. apply cnt_in in Hin. specialize (N' a). apply cnt_notin in Ha. lia. }
    destruct (touched_agree _ _ _ _ law_run h (upd h a (OHRun r')) [a] r' _ V' (touched_upd h a _)) as [V2 R2].
    { intros b [<-|[]]. exact Ha'. }
    exists [a]. split; [apply touched_upd|]. split; [intros b [<-|[]]; cbn; auto|].
    split; [intros b [<-|[]]; eapply c_run; eauto|]. split.
    { cbn [v_child]. rewrite deref_upd by (eapply deref_bound; eauto). cbn [as_run]. rewrite V2. reflexivity. }
    split; [|split; [apply kinds_upd; rewrite (c_run _ _ _ D); reflexivity|apply upd_len]].
    intros b. cbn [reach_child]. rewrite deref_upd by (eapply deref_bound; eauto). cbn [as_run]. rewrite D, R2. cbn [count_occ]. specialize (N' b).
    destruct (Nat.eq_dec a b); lia.
  - exists []. repeat split; auto; try (intros ? []). cbn [v_child] in V |- *.
    destruct (deref as_link h a) as [[id r]|]; [|discriminate]. destruct (v_run h r); [|discriminate]. inversion V; subst. reflexivity.
  - exists []. repeat split; auto; try (intros ? []). cbn in *. inversion V; subst. reflexivity.
Qed.
Lemma inplace_ext : forall A B (u u' : A -> heap -> heap) (v : heap -> A -> option B) r g, (forall x h, u' x h = u x h) -> inplace u v r g -> inplace u' v r g.
Proof. intros A B u u' v r g E I h x y V O. rewrite !E. exact (I h x y V O). Qed.
Lemma inplace_drop_children : forall t, inplace (h_drop_children t) (fun h l => all_some (v_child h) l) (fun h l => flat_map (reach_child h) l) (map (drop_in_pchild t)).
Proof. intros t. eapply inplace_ext; [|apply (inplace_list _ _ _ _ _ _ law_child (inplace_drop_child t))]. intros. apply drop_children_fold. Qed.
Lemma inplace_drop_para : forall name, inplace (h_drop_para name) v_para reach_para (para_drop name).
Proof.
  intros name. unfold para_drop. destruct (drop_test name) as [t|] eqn:E.
  - eapply inplace_ext; [|apply (inplace_obj _ _ _ _ _ as_para as_ppr hp_ppr hp_children _ v_child reach_child
      (fun p q c => mk_para q c (hp_file p)) _ (drop_in_para t) c_para c_ppr (fun c x ys => eq_refl) (inplace_drop_children t))].
    intros x h. unfold h_drop_para. rewrite E. reflexivity.
  - intros h a y V O. assert (Eh : h_drop_para name a h = h) by (unfold h_drop_para; rewrite E; reflexivity). rewrite Eh.
    exists []. repeat split; auto; intros ? [].
Qed.
Definition inplace_drop_paras name := inplace_list _ _ _ _ _ _ law_para (inplace_drop_para name).
Lemma inplace_drop_cell : forall name, inplace (fun a h => match deref as_cell h a with Some c => h_drop_paras name (hc_paras c) h | None => h end) v_cell reach_cell (drop_cell name).
Proof.
  intros name. exact (inplace_obj _ _ _ _ _ as_cell as_tc hc_tc hc_paras (h_drop_paras name) v_para reach_para
      (fun p q c => mk_cell q c (hc_file p)) _ (drop_cell name) c_cell c_tc (fun c x ys => eq_refl) (inplace_drop_paras name)).
Qed.
Definition inplace_drop_cells name := inplace_list _ _ _ _ _ _ law_cell (inplace_drop_cell name).
Lemma inplace_drop_row : forall name, inplace (fun a h => match deref as_row h a with Some c => h_drop_cells name (hw_cells c) h | None => h end) v_row reach_row (drop_row name).
Proof.
  intros name. exact (inplace_obj _ _ _ _ _ as_row as_tr hw_tr hw_cells (h_drop_cells name) v_cell reach_cell
      (fun p q c => mk_row q c) _ (drop_row name) c_row c_tr (fun c x ys => eq_refl) (inplace_drop_cells name)).
Qed.
Definition inplace_drop_rows name := inplace_list _ _ _ _ _ _ law_row (inplace_drop_row name).
Lemma inplace_drop_table : forall name, inplace (fun a h => match deref as_table h a with Some c => h_drop_rows name (ht_rows c) h | None => h end) v_table reach_table (drop_table name).
Proof.
  intros name. exact (inplace_obj _ _ _ _ _ as_table as_tbl ht_tbl ht_rows (h_drop_rows name) v_row reach_row
      (fun p q c => mk_table q (ht_grid p) c) _ (drop_table name) c_table c_tbl (fun c x ys => eq_refl) (inplace_drop_rows name)).
Qed.
Lemma inplace_drop_item : forall name, inplace (fun x h => h_drop_item name x h) v_item reach_item (drop_item name).
Proof.
  intros name h [a|a|s] y V O; cbn [h_drop_item v_item reach_item] in *.
  - destruct (v_para h a) as [p|] eqn:E; [|discriminate]. inversion V; subst. destruct (inplace_drop_para name h a p E O) as (S & T & I & C & V' & N & K & L).
    exists S. rewrite V'. auto 10.
  - destruct (v_table h a) as [p|] eqn:E; [|discriminate]. inversion V; subst. destruct (inplace_drop_table name h a p E O) as (S & T & I & C & V' & N & K & L).
    exists S. rewrite V'. auto 10.
  - inversion V; subst. exists []. repeat split; auto; intros ? [].
Qed.
Definition inplace_drop_items name := inplace_list _ _ _ _ _ _ law_item (inplace_drop_item name).
