(** Documents in memory: calls on runs and paragraphs. *)
From Coq Require Import String List Bool Arith Lia.
From Verif Require Import GoStr Num Lib Types Docx Api Keep Copy History RegFacts Alias SpecAlias AliasFacts AliasFacts2.
Import ListNotations.
Local Open Scope list_scope.

(** objects that are never shared: those that hold lists *)
Definition is_cont (o : obj) : bool :=
  match o with OHRun _ | OHLink _ _ | OHPara _ | OHCell _ | OHRow _ | OHTable _ => true | _ => false end.
Definition cont (h : heap) (b : nat) : bool := match nth_error h b with Some o => is_cont o | None => false end.
Definition kinds (h h' : heap) : Prop := forall b, b < length h -> cont h' b = cont h b.
(** what becomes of the reached objects: new ones once, old ones at most as often as before *)
Definition grows (h : heap) (L L' : list nat) : Prop :=
  forall b, (b < length h -> cnt L' b <= cnt L b) /\ (length h <= b -> cnt L' b <= 1).

Lemma kinds_refl : forall h, kinds h h. Proof. intros h b _. reflexivity. Qed.
Lemma kinds_trans : forall a b c, length a <= length b -> kinds a b -> kinds b c -> kinds a c.
Proof. intros a b c L H1 H2 i Hi. rewrite (H2 i) by lia. auto. Qed.
Lemma kinds_keeps : forall h h', keeps h h' -> kinds h h'.
Proof. intros h h' K b Hb. unfold cont. rewrite (keeps_nth h h' b K Hb). reflexivity. Qed.
Lemma cont_bound : forall h b, cont h b = true -> b < length h.
Proof. intros h b H. unfold cont in H. destruct (nth_error h b) eqn:E; [|discriminate]. apply nth_error_Some. congruence. Qed.

Lemma upd_len : forall h a o, length (upd h a o) = length h.
Proof. intros. apply set_nth_length. Qed.
Lemma deref_upd : forall A (as_ : obj -> option A) h a o, a < length h -> deref as_ (upd h a o) a = as_ o.
Proof. intros. unfold deref, upd. rewrite set_nth_same by assumption. reflexivity. Qed.
Lemma touched_refl : forall h, touched h h [].
Proof. intros h. split; [lia|]. auto. Qed.
Lemma touched_upd : forall h a o, touched h (upd h a o) [a].
Proof.
  intros h a o. split; [rewrite upd_len; lia|]. intros b _ Hb. apply set_nth_other. intros ->. apply Hb. simpl. auto.
Qed.
Lemma touched_trans : forall a b c S S', touched a b S -> touched b c S' -> touched a c (S ++ S').
Proof.
  intros a b c S S' [L1 T1] [L2 T2]. split; [lia|]. intros i Hi Hn.
  rewrite T2; [apply T1; [exact Hi|]|lia|]; intros Hin; apply Hn; apply in_or_app; auto.
Qed.
Lemma touched_keeps : forall h h', keeps h h' -> touched h h' [].
Proof. intros h h' K. split; [apply keeps_len; exact K|]. intros b Hb _. apply keeps_nth; assumption. Qed.
Lemma touched_weak : forall h h' S S', touched h h' S -> incl S S' -> touched h h' S'.
Proof. intros h h' S S' [L T] I. split; [exact L|]. intros b Hb Hn. apply T; auto. Qed.
Lemma kinds_upd : forall h a o, cont h a = is_cont o -> kinds h (upd h a o).
Proof.
  intros h a o E b Hb. unfold cont. destruct (Nat.eq_dec a b) as [->|N].
  - unfold upd. rewrite set_nth_same by exact Hb. symmetry. exact E.
  - unfold upd. rewrite set_nth_other by exact N. reflexivity.
Qed.
Lemma deref_cont : forall A (as_ : obj -> option A) h a x, deref as_ h a = Some x -> exists o, nth_error h a = Some o /\ as_ o = Some x.
Proof. intros A as_ h a x E. unfold deref in E. destruct (nth_error h a); [eauto|discriminate]. Qed.
Ltac kind_of E := apply deref_cont in E; let o := fresh "o" in let H1 := fresh in let H2 := fresh in
  destruct E as (o & H1 & H2); unfold cont; rewrite H1; destruct o; cbn in H2; try discriminate; reflexivity.
Lemma c_rpr : forall h a x, deref as_rpr h a = Some x -> cont h a = false. Proof. intros h a x E. kind_of E. Qed.
Lemma c_ppr : forall h a x, deref as_ppr h a = Some x -> cont h a = false. Proof. intros h a x E. kind_of E. Qed.
Lemma c_tbl : forall h a x, deref as_tbl h a = Some x -> cont h a = false. Proof. intros h a x E. kind_of E. Qed.
Lemma c_tr : forall h a x, deref as_tr h a = Some x -> cont h a = false. Proof. intros h a x E. kind_of E. Qed.
Lemma c_tc : forall h a x, deref as_tc h a = Some x -> cont h a = false. Proof. intros h a x E. kind_of E. Qed.
Lemma c_ext : forall h a x, deref as_ext h a = Some x -> cont h a = false. Proof. intros h a x E. kind_of E. Qed.
Lemma c_sp : forall h a x, deref as_sp h a = Some x -> cont h a = false. Proof. intros h a x E. kind_of E. Qed.
Lemma c_run : forall h a x, deref as_run h a = Some x -> cont h a = true. Proof. intros h a x E. kind_of E. Qed.
Lemma c_link : forall h a x, deref as_link h a = Some x -> cont h a = true. Proof. intros h a x E. kind_of E. Qed.
Lemma c_para : forall h a x, deref as_para h a = Some x -> cont h a = true. Proof. intros h a x E. kind_of E. Qed.
Lemma c_cell : forall h a x, deref as_cell h a = Some x -> cont h a = true. Proof. intros h a x E. kind_of E. Qed.
Lemma c_row : forall h a x, deref as_row h a = Some x -> cont h a = true. Proof. intros h a x E. kind_of E. Qed.
Lemma c_table : forall h a x, deref as_table h a = Some x -> cont h a = true. Proof. intros h a x E. kind_of E. Qed.

Lemma all_some_app : forall A B (f : A -> option B) l l' ys ys', all_some f l = Some ys -> all_some f l' = Some ys' ->
  all_some f (l ++ l') = Some (ys ++ ys').
Proof.
  induction l as [|x l IH]; intros l' ys ys' E E'; cbn in *; [inversion E; exact E'|].
  destruct (f x); [|discriminate]. destruct (all_some f l) eqn:El; [|discriminate]. inversion E; subst.
  rewrite (IH l' l0 ys' eq_refl E'). reflexivity.
Qed.

(** ** Resizing a drawing *)
Lemma resize_touched : forall ew eh e s h, touched h (h_resize ew eh e s h) (ptr e ++ ptr s).
Proof.
  intros ew eh e s h. unfold h_resize.
  set (h1 := match e with Some a => upd h a (OExt (mk_xy ew eh)) | None => h end).
  assert (T1 : touched h h1 (ptr e)) by (unfold h1; destruct e; [apply touched_upd|apply touched_refl]).
  apply (touched_trans h h1); [exact T1|]. destruct s as [b|]; [|apply touched_refl].
  destruct (deref as_sp h1 b); [apply touched_upd|]. apply (touched_weak _ _ []); [apply touched_refl|intros ? []].
Qed.
Lemma resize_ext : forall ew eh e s h ev sv, maybe (deref as_ext h) e = Some ev -> maybe (deref as_sp h) s = Some sv ->
  maybe (deref as_ext (h_resize ew eh e s h)) e = Some (option_map (fun _ => mk_xy ew eh) ev) /\
  maybe (deref as_sp (h_resize ew eh e s h)) s = Some (option_map (fun q => set_picsp_xfrm (set_xfrm_ext (mk_xy ew eh) (picsp_xfrm q)) q) sv) /\
  kinds h (h_resize ew eh e s h) /\ length (h_resize ew eh e s h) = length h.
Proof.
  intros ew eh e s h ev sv He Hs. unfold h_resize.
  set (h1 := match e with Some a => upd h a (OExt (mk_xy ew eh)) | None => h end).
  assert (H1 : maybe (deref as_ext h1) e = Some (option_map (fun _ => mk_xy ew eh) ev) /\ maybe (deref as_sp h1) s = Some sv /\ kinds h h1 /\ length h1 = length h).
  { unfold h1. destruct e as [a|].
    - cbn in He. destruct (deref as_ext h a) as [x|] eqn:E; [|discriminate]. inversion He; subst ev. repeat split.
      + cbn. rewrite deref_upd by (eapply deref_bound; eauto). reflexivity.
      + destruct s as [b|]; [|exact Hs]. cbn in *. destruct (Nat.eq_dec a b) as [->|N].
        * exfalso. unfold deref in E, Hs. destruct (nth_error h b) as [[]|]; discriminate.
        * rewrite (deref_agree _ as_sp h (upd h a (OExt (mk_xy ew eh))) b); [exact Hs|]. apply set_nth_other. exact N.
      + apply kinds_upd. rewrite (c_ext _ _ _ E). reflexivity.
      + apply upd_len.
    - cbn in He. inversion He; subst. repeat split; auto. }
  destruct H1 as (A1 & A2 & A3 & A4). destruct s as [b|].
  - cbn in A2. destruct (deref as_sp h1 b) as [q|] eqn:E; [|discriminate]. inversion A2; subst sv. repeat split.
    + destruct e as [a|]; [|exact A1]. cbn in *. destruct (Nat.eq_dec b a) as [->|N].
      * exfalso. unfold deref in E, A1. destruct (nth_error h1 a) as [[]|]; discriminate.
      * rewrite (deref_agree _ as_ext h1 (upd h1 b _) a); [exact A1|]. apply set_nth_other. exact N.
    + cbn. rewrite deref_upd by (eapply deref_bound; eauto). reflexivity.
    + apply (kinds_trans _ h1); [lia|exact A3|]. apply kinds_upd. rewrite (c_sp _ _ _ E). reflexivity.
    + rewrite upd_len. exact A4.
  - cbn in A2. inversion A2; subst sv. repeat split; auto.
Qed.

Lemma size_put_sp : forall ew eh sv g, graphic_size ew eh (put_sp sv g) =
  put_sp (option_map (fun q => set_picsp_xfrm (set_xfrm_ext (mk_xy ew eh) (picsp_xfrm q)) q) sv) g.
Proof.
  intros ew eh sv [xa d]. unfold graphic_size, put_sp. cbn. destruct d as [[u p sh ca gr]|]; cbn; [|reflexivity].
  destruct p as [[x n b s]|]; cbn; [|reflexivity]. destruct sv; reflexivity.
Qed.
Lemma size_put_inl : forall ew eh ev sv x, inline_size ew eh (put_inl ev sv x) =
  put_inl (option_map (fun _ => mk_xy ew eh) ev) (option_map (fun q => set_picsp_xfrm (set_xfrm_ext (mk_xy ew eh) (picsp_xfrm q)) q) sv) x.
Proof.
  intros ew eh ev sv [t b l r e ee dp fr g f]. unfold inline_size, put_inl. cbn. destruct g as [g|]; cbn [option_map]; [|reflexivity].
  rewrite size_put_sp. reflexivity.
Qed.
Lemma size_put_anc : forall ew eh ev sv x, anchor_size ew eh (put_anc ev sv x) =
  put_anc (option_map (fun _ => mk_xy ew eh) ev) (option_map (fun q => set_picsp_xfrm (set_xfrm_ext (mk_xy ew eh) (picsp_xfrm q)) q) sv) x.
Proof.
  intros ew eh ev sv [? ? ? ? ? ? ? ? ? ? ? ? ? ? ? ? ? ? ? g ?]. unfold anchor_size, put_anc. cbn. destruct g as [g|]; cbn [option_map]; [|reflexivity].
  rewrite size_put_sp. reflexivity.
Qed.

Lemma inl_inv : forall h a x, v_inl h a = Some x -> exists x0 e s ev sv, deref as_inl h a = Some (x0, e, s) /\
  maybe (deref as_ext h) e = Some ev /\ maybe (deref as_sp h) s = Some sv /\ x = put_inl ev sv x0.
Proof.
  intros h a x E. unfold v_inl in E. destruct (deref as_inl h a) as [[[x0 e] s]|]; [|discriminate].
  destruct (maybe (deref as_ext h) e) as [ev|] eqn:E1; [|discriminate]. destruct (maybe (deref as_sp h) s) as [sv|] eqn:E2; [|discriminate].
  inversion E; subst. exists x0, e, s, ev, sv. auto.
Qed.
Lemma anc_inv : forall h a x, v_anc h a = Some x -> exists x0 e s ev sv, deref as_anc h a = Some (x0, e, s) /\
  maybe (deref as_ext h) e = Some ev /\ maybe (deref as_sp h) s = Some sv /\ x = put_anc ev sv x0.
Proof.
  intros h a x E. unfold v_anc in E. destruct (deref as_anc h a) as [[[x0 e] s]|]; [|discriminate].
  destruct (maybe (deref as_ext h) e) as [ev|] eqn:E1; [|discriminate]. destruct (maybe (deref as_sp h) s) as [sv|] eqn:E2; [|discriminate].
  inversion E; subst. exists x0, e, s, ev, sv. auto.
Qed.

(** the drawing itself is another object than its extent and SpPr *)
Lemma resize_inl : forall ew eh h a x0 e s x, deref as_inl h a = Some (x0, e, s) -> v_inl h a = Some x ->
  v_inl (h_resize ew eh e s h) a = Some (inline_size ew eh x) /\ reach_inl (h_resize ew eh e s h) a = reach_inl h a.
Proof.
  intros ew eh h a x0 e s x D E. destruct (inl_inv _ _ _ E) as (x1 & e1 & s1 & ev & sv & D' & He & Hs & ->).
  rewrite D in D'. inversion D'; subst x1 e1 s1.
  destruct (resize_ext ew eh e s h ev sv He Hs) as (R1 & R2 & _ & _).
  assert (D2 : deref as_inl (h_resize ew eh e s h) a = Some (x0, e, s)).
  { rewrite <- D. apply deref_agree. apply (resize_touched ew eh e s h); [eapply deref_bound; eauto|].
    intros Hin. apply in_app_or in Hin. unfold deref in *. destruct (nth_error h a) as [o|] eqn:Eo; [|discriminate].
    destruct Hin as [Hin|Hin].
    - destruct e as [b|]; [|destruct Hin]. destruct Hin as [->|[]]. cbn in He. unfold deref in He. rewrite Eo in He. destruct o; discriminate.
    - destruct s as [b|]; [|destruct Hin]. destruct Hin as [->|[]]. cbn in Hs. unfold deref in Hs. rewrite Eo in Hs. destruct o; discriminate. }
  unfold v_inl, reach_inl. rewrite D2, D, R1, R2. rewrite size_put_inl. auto.
Qed.
Lemma resize_anc : forall ew eh h a x0 e s x, deref as_anc h a = Some (x0, e, s) -> v_anc h a = Some x ->
  v_anc (h_resize ew eh e s h) a = Some (anchor_size ew eh x) /\ reach_anc (h_resize ew eh e s h) a = reach_anc h a.
Proof.
  intros ew eh h a x0 e s x D E. destruct (anc_inv _ _ _ E) as (x1 & e1 & s1 & ev & sv & D' & He & Hs & ->).
  rewrite D in D'. inversion D'; subst x1 e1 s1.
  destruct (resize_ext ew eh e s h ev sv He Hs) as (R1 & R2 & _ & _).
  assert (D2 : deref as_anc (h_resize ew eh e s h) a = Some (x0, e, s)).
  { rewrite <- D. apply deref_agree. apply (resize_touched ew eh e s h); [eapply deref_bound; eauto|].
    intros Hin. apply in_app_or in Hin. unfold deref in *. destruct (nth_error h a) as [o|] eqn:Eo; [|discriminate].
    destruct Hin as [Hin|Hin].
    - destruct e as [b|]; [|destruct Hin]. destruct Hin as [->|[]]. cbn in He. unfold deref in He. rewrite Eo in He. destruct o; discriminate.
    - destruct s as [b|]; [|destruct Hin]. destruct Hin as [->|[]]. cbn in Hs. unfold deref in Hs. rewrite Eo in Hs. destruct o; discriminate. }
  unfold v_anc, reach_anc. rewrite D2, D, R1, R2. rewrite size_put_anc. auto.
Qed.

Lemma child_resize : forall ew eh anch h c cv, v_rchild h c = Some cv ->
  match draw_ptrs h anch c with
  | None => child_size anch ew eh cv = Panic
  | Some (e, s) =>
      (forall b, In b (ptr e ++ ptr s) -> cnt (reach_rchild h c) b <= 1) ->
      exists cv', child_size anch ew eh cv = Ok cv' /\ v_rchild (h_resize ew eh e s h) c = Some cv' /\
        reach_rchild (h_resize ew eh e s h) c = reach_rchild h c /\ incl (ptr e ++ ptr s) (reach_rchild h c) /\
        (forall b, In b (ptr e ++ ptr s) -> cont h b = false) /\
        kinds h (h_resize ew eh e s h) /\ length (h_resize ew eh e s h) = length h
  end.
Proof.
  intros ew eh anch h c cv V. destruct c as [t|t|t|i a]; cbn [draw_ptrs]; try (cbn in V; inversion V; subst; destruct anch; reflexivity).
  cbn [v_rchild] in V. destruct (maybe (v_inl h) i) as [iv|] eqn:Ei; [|discriminate]. destruct (maybe (v_anc h) a) as [av|] eqn:Ea; [|discriminate].
  inversion V; subst cv. destruct anch.
  - destruct a as [a|]; [|cbn in Ea; inversion Ea; subst; destruct iv; reflexivity].
    cbn in Ea. destruct (v_anc h a) as [x|] eqn:Ex; [|discriminate]. inversion Ea; subst av.
    destruct (anc_inv _ _ _ Ex) as (x0 & e & s & ev & sv & D & He & Hs & _). rewrite D. cbn [option_map].
    intros C. destruct (resize_anc ew eh h a x0 e s x D Ex) as [V' R'].
    assert (Hin : incl (ptr e ++ ptr s) (reach_anc h a)) by (unfold reach_anc; rewrite D; intros b Hb; simpl; auto).
    destruct (touched_agree _ _ _ _ (law_maybe _ _ _ law_inl) h (h_resize ew eh e s h) _ i iv Ei (resize_touched ew eh e s h)) as [Vi Ri].
    { intros b Hb Hn. specialize (C b Hb). cbn [reach_rchild ptr flat_map] in C. rewrite app_nil_r, cnt_app in C. apply cnt_in in Hn.
      apply Hin in Hb. apply cnt_in in Hb. lia. }
    destruct (resize_ext ew eh e s h ev sv He Hs) as (_ & _ & K1 & K2).
    exists (RDraw iv (Some (anchor_size ew eh x))). repeat split; auto.
    + destruct iv; reflexivity.
    + cbn [v_rchild]. rewrite Vi. cbn [maybe]. rewrite V'. reflexivity.
    + cbn [reach_rchild ptr flat_map]. cbn in Ri. rewrite Ri, R'. reflexivity.
    + intros b Hb. cbn [reach_rchild ptr flat_map]. rewrite app_nil_r. apply in_or_app. right. apply Hin. exact Hb.
    + intros b Hb. apply in_app_or in Hb. destruct Hb as [Hb|Hb].
      * destruct e as [q|]; [|destruct Hb]. destruct Hb as [->|[]]. cbn in He. destruct (deref as_ext h b) eqn:Q; [|discriminate]. eapply c_ext; eauto.
      * destruct s as [q|]; [|destruct Hb]. destruct Hb as [->|[]]. cbn in Hs. destruct (deref as_sp h b) eqn:Q; [|discriminate]. eapply c_sp; eauto.
  - destruct i as [i|]; [|cbn in Ei; inversion Ei; subst; destruct av; reflexivity].
    cbn in Ei. destruct (v_inl h i) as [x|] eqn:Ex; [|discriminate]. inversion Ei; subst iv.
    destruct (inl_inv _ _ _ Ex) as (x0 & e & s & ev & sv & D & He & Hs & _). rewrite D. cbn [option_map].
    intros C. destruct (resize_inl ew eh h i x0 e s x D Ex) as [V' R'].
    assert (Hin : incl (ptr e ++ ptr s) (reach_inl h i)) by (unfold reach_inl; rewrite D; intros b Hb; simpl; auto).
    destruct (touched_agree _ _ _ _ (law_maybe _ _ _ law_anc) h (h_resize ew eh e s h) _ a av Ea (resize_touched ew eh e s h)) as [Vi Ri].
    { intros b Hb Hn. specialize (C b Hb). cbn [reach_rchild ptr flat_map] in C. rewrite app_nil_r, cnt_app in C. apply cnt_in in Hn.
      apply Hin in Hb. apply cnt_in in Hb. cbn [ptr flat_map] in Hn. lia. }
    destruct (resize_ext ew eh e s h ev sv He Hs) as (_ & _ & K1 & K2).
    exists (RDraw (Some (inline_size ew eh x)) av). repeat split; auto.
    + destruct av; reflexivity.
    + cbn [v_rchild]. rewrite Vi. cbn [maybe]. rewrite V'. reflexivity.
    + cbn [reach_rchild ptr flat_map]. cbn in Ri. rewrite Ri, R'. reflexivity.
    + intros b Hb. cbn [reach_rchild ptr flat_map]. rewrite app_nil_r. apply in_or_app. left. apply Hin. exact Hb.
    + intros b Hb. apply in_app_or in Hb. destruct Hb as [Hb|Hb].
      * destruct e as [q|]; [|destruct Hb]. destruct Hb as [->|[]]. cbn in He. destruct (deref as_ext h b) eqn:Q; [|discriminate]. eapply c_ext; eauto.
      * destruct s as [q|]; [|destruct Hb]. destruct Hb as [->|[]]. cbn in Hs. destruct (deref as_sp h b) eqn:Q; [|discriminate]. eapply c_sp; eauto.
Qed.

Lemma keep_named_view : forall A B (ty : A -> string) (ty' : B -> string) (f : A -> option B) names,
  (forall x y, f x = Some y -> ty' y = ty x) ->
  forall l ys, all_some f l = Some ys -> all_some f (keep_named ty names l) = Some (keep_named ty' names ys).
Proof.
  intros A B ty ty' f names T l. induction l as [|x l IH]; intros ys E; cbn in E; [inversion E; reflexivity|].
  destruct (f x) as [y|] eqn:Ex; [|discriminate]. destruct (all_some f l) as [zs|] eqn:El; [|discriminate]. inversion E; subst ys.
  cbn. rewrite (T x y Ex). destruct (existsb (String.eqb (ty x)) names); [|apply IH; reflexivity].
  cbn. rewrite Ex, (IH zs eq_refl). reflexivity.
Qed.
Lemma keep_named_cnt : forall A (ty : A -> string) (r : A -> list nat) names l b,
  cnt (flat_map r (keep_named ty names l)) b <= cnt (flat_map r l) b.
Proof.
  intros A ty r names l b. induction l as [|x l IH]; cbn; [lia|]. destruct (existsb _ names); cbn; rewrite ?cnt_app; lia.
Qed.

Lemma run_inv : forall h r rv, v_run h r = Some rv ->
  maybe (deref as_rpr h) (hr_rpr r) = Some (runR_rpr rv) /\ all_some (v_rchild h) (hr_children r) = Some (runR_children rv) /\
  hr_space r = runR_space rv /\ hr_instr r = runR_instr rv.
Proof.
  intros h r rv E. unfold v_run in E. destruct (maybe (deref as_rpr h) (hr_rpr r)); [|discriminate].
  destruct (all_some (v_rchild h) (hr_children r)); [|discriminate]. inversion E; subst. auto.
Qed.
Lemma rchild_type_view : forall h x y, v_rchild h x = Some y -> rchild_type y = hrchild_type x.
Proof.
  intros h [t|t|t|i a] y E; cbn in E; try (inversion E; reflexivity).
  destruct (maybe (v_inl h) i); [|discriminate]. destruct (maybe (v_anc h) a); [|discriminate]. inversion E; reflexivity.
Qed.

Lemma rop_format : forall o f, rop_set o = Some f -> forall r, exec_rop o r = on_rpr f r.
Proof. intros o f E r. destruct o; cbn in E; inversion E; reflexivity. Qed.
Lemma h_rop_format : forall o f, rop_set o = Some f -> forall r h, h_rop o r h =
  match hr_rpr r with Some a => match deref as_rpr h a with Some q => Ok (upd h a (ORpr (f q)), r) | None => Panic end | None => Panic end.
Proof. intros o f E r h. destruct o; cbn in E; inversion E; subst; reflexivity. Qed.
Lemma written_format : forall o f, rop_set o = Some f -> forall r h, written_rop h o r = ptr (hr_rpr r).
Proof. intros o f E r h. destruct o; cbn in E; inversion E; reflexivity. Qed.

Definition rop_spec (o : rop) (r : hrun) (h : heap) (x : res run) : Prop :=
  match x with
  | Ok rv' => exists h' r', h_rop o r h = Ok (h', r') /\ touched h h' (written_rop h o r) /\ length h' = length h /\ kinds h h' /\
      v_run h' r' = Some rv' /\ (forall b, cnt (reach_run h' r') b <= cnt (reach_run h r) b) /\
      incl (written_rop h o r) (reach_run h r) /\ (forall b, In b (written_rop h o r) -> cont h b = false)
  | Err e => h_rop o r h = Err e
  | Panic => h_rop o r h = Panic
  end.

Lemma rop_step : forall o r rv h, v_run h r = Some rv -> (forall b, In b (written_rop h o r) -> cnt (reach_run h r) b <= 1) ->
  rop_spec o r h (exec_rop o rv).
Proof.
  intros o r rv h V C. destruct (run_inv _ _ _ V) as (Vp & Vc & Es & Ei).
  destruct (rop_set o) as [f|] eqn:Ef.
  - rewrite (rop_format o f Ef). rewrite (written_format o f Ef r h) in C. unfold on_rpr, rop_spec.
    pose proof (h_rop_format o f Ef r h) as EH. rewrite (written_format o f Ef r h).
    destruct (hr_rpr r) as [a|] eqn:Er; cbn in Vp.
    2:{ inversion Vp as [Hq]. rewrite EH. reflexivity. }
    destruct (deref as_rpr h a) as [q|] eqn:D; [|discriminate]. inversion Vp as [Hq]. 
    exists (upd h a (ORpr (f q))), r. split; [exact EH|].
    assert (Hc : ~ In a (flat_map (reach_rchild h) (hr_children r))).
    { intros Hin. specialize (C a (or_introl eq_refl)). unfold reach_run in C. rewrite Er in C. cbn [ptr] in C. rewrite cnt_app in C.
      apply cnt_in in Hin. cbn [count_occ] in C. destruct (Nat.eq_dec a a); lia. }
    destruct (touched_agree _ _ _ _ law_rchildren h (upd h a (ORpr (f q))) [a] _ _ Vc (touched_upd h a _)) as [V2 R2].
    { intros b [<-|[]]. exact Hc. }
    split; [apply touched_upd|]. split; [apply upd_len|]. split; [apply kinds_upd; rewrite (c_rpr _ _ _ D); reflexivity|]. split.
    { unfold v_run. rewrite Er. cbn [maybe]. rewrite deref_upd by (eapply deref_bound; eauto). cbn [as_rpr]. rewrite V2.
      destruct rv as [sp pp ins ch]. cbn in *. subst. reflexivity. }
    split.
    { intros b. unfold reach_run. rewrite R2. lia. }
    split; [unfold reach_run; rewrite Er; cbn; intros b [<-|[]]; simpl; auto|].
    intros b [<-|[]]. exact (c_rpr _ _ _ D).
  - destruct o; cbn in Ef; try discriminate.
    + (* AddTab *)
      cbn [exec_rop rop_spec]. eexists; eexists. split; [reflexivity|]. split; [apply touched_refl|]. split; [reflexivity|]. split; [apply kinds_refl|]. split.
      { unfold v_run. cbn [hr_rpr hr_children hr_space hr_instr]. rewrite Vp.
        rewrite (all_some_app _ _ _ _ [HTab tab0] _ [RTab tab0] Vc eq_refl). rewrite Es, Ei. destruct rv; reflexivity. }
      split; [|split; [intros b []|intros b []]].
      intros b. unfold reach_run. cbn [hr_rpr hr_children]. rewrite flat_map_app. cbn [flat_map reach_rchild]. rewrite !app_nil_r. lia.
    + (* KeepElements *)
      cbn [exec_rop rop_spec]. eexists; eexists. split; [reflexivity|]. split; [apply touched_refl|]. split; [reflexivity|]. split; [apply kinds_refl|]. split.
      { unfold v_run. cbn [hr_rpr hr_children hr_space hr_instr]. rewrite Vp.
        rewrite (keep_named_view _ _ hrchild_type rchild_type _ names (rchild_type_view h) _ _ Vc). rewrite Es, Ei. destruct rv; reflexivity. }
      split; [|split; [intros b []|intros b []]].
      intros b. unfold reach_run. cbn [hr_rpr hr_children]. rewrite !cnt_app. pose proof (keep_named_cnt _ hrchild_type (reach_rchild h) names (hr_children r) b). lia.
    + (* Size of a drawing *)
      cbn [exec_rop]. unfold rop_spec. cbn [h_rop written_rop] in *.
      destruct (nth_error (hr_children r) k) as [c|] eqn:Ek.
      2:{ rewrite (all_some_none _ _ _ _ _ _ Vc Ek). reflexivity. }
      destruct (all_some_nth _ _ _ _ _ _ _ Vc Ek) as (cv & Ek' & Ec). rewrite Ek'.
      pose proof (child_resize w h0 anch h c cv Ec) as CR. destruct (draw_ptrs h anch c) as [[e s]|]; [|rewrite CR; reflexivity].
      assert (Hle : forall b, cnt (reach_rchild h c) b <= cnt (flat_map (reach_rchild h) (hr_children r)) b) by (apply (in_sub _ _ _ _ _ Ek)).
      destruct CR as (cv' & Esz & Vc' & Rc' & Hin & Hnc & K1 & K2).
      { intros b Hb. specialize (C b Hb). unfold reach_run in C. rewrite cnt_app in C. specialize (Hle b). lia. }
      rewrite Esz. cbn [bind]. eexists; eexists. split; [reflexivity|]. split; [apply resize_touched|]. split; [exact K2|]. split; [exact K1|].
      assert (Hfl : incl (ptr e ++ ptr s) (flat_map (reach_rchild h) (hr_children r))).
      { intros b Hb. apply in_flat_map. exists c. split; [eapply nth_error_In; eauto|apply Hin; exact Hb]. }
      assert (Hone : forall b, In b (ptr e ++ ptr s) -> cnt (flat_map (reach_rchild h) (hr_children r)) b <= 1).
      { intros b Hb. specialize (C b Hb). unfold reach_run in C. rewrite cnt_app in C. lia. }
      destruct (list_focus _ _ _ _ law_rchild h (h_resize w h0 e s h) _ (hr_children r) k _ c cv' Vc Ek Hin Hone (resize_touched w h0 e s h) Vc') as [V2 C2].
      destruct (touched_agree _ _ _ _ (law_prop _ as_rpr) h _ _ (hr_rpr r) _ Vp (resize_touched w h0 e s h)) as [P2 _].
      { intros b Hb Hn. specialize (C b Hb). unfold reach_run in C. rewrite cnt_app in C. apply cnt_in in Hn. apply Hfl in Hb. apply cnt_in in Hb. lia. }
      split.
      { unfold v_run. rewrite P2, V2. rewrite Es, Ei. destruct rv; reflexivity. }
      split.
      { intros b. unfold reach_run. rewrite !cnt_app. specialize (C2 b). rewrite Rc' in C2. lia. }
      split; [|exact Hnc]. intros b Hb. unfold reach_run. apply in_or_app. right. apply Hfl. exact Hb.
Qed.
