(** Documents in memory: formatting shared properties; histories. *)
From Coq Require Import String List Bool Arith Lia.
From Verif Require Import GoStr Num Lib Types Docx Api Keep Copy History RegFacts Alias SpecAlias AliasFacts AliasFacts2 AliasFacts3 AliasFacts4 AliasFacts5 AliasFacts6 AliasFacts7 AliasFacts8.
Import ListNotations.
Local Open Scope list_scope.

(** property objects by kind *)
Definition pkind (o : obj) : option nat :=
  match o with ORpr _ => Some 0 | OPpr _ => Some 1 | OTbl _ => Some 2 | OTr _ => Some 3 | OTc _ => Some 4 | OExt _ => Some 5 | OSp _ => Some 6 | _ => None end.
(** [h'] differs from [h] only in the contents of property objects *)
Definition shape (h h' : heap) : Prop :=
  length h' = length h /\ forall b o, nth_error h b = Some o -> exists o', nth_error h' b = Some o' /\ (o' = o \/ (pkind o' = pkind o /\ pkind o <> None)).

Lemma shape_refl : forall h, shape h h. Proof. intros h. split; [reflexivity|]. intros b o E. exists o. auto. Qed.
Lemma shape_trans : forall a b c, shape a b -> shape b c -> shape a c.
Proof.
  intros a b c [L1 H1] [L2 H2]. split; [congruence|]. intros x o E. destruct (H1 x o E) as (o1 & E1 & S1). destruct (H2 x o1 E1) as (o2 & E2 & S2). exists o2. split; [exact E2|].
  destruct S1 as [->|[S1 N1]], S2 as [->|[S2 N2]]; auto. right. split; congruence.
Qed.
Lemma shape_upd : forall h b o o', nth_error h b = Some o -> pkind o' = pkind o -> pkind o <> None -> shape h (upd h b o').
Proof.
  intros h b o o' E K N. split; [apply upd_len|]. intros x ox Ex. destruct (Nat.eq_dec b x) as [<-|Nx].
  - rewrite E in Ex. inversion Ex; subst ox. exists o'. split; [unfold upd; apply set_nth_same; apply nth_error_Some; congruence|auto].
  - exists ox. unfold upd. rewrite set_nth_other by exact Nx. auto.
Qed.
Lemma shape_cont : forall h h', shape h h' -> forall b, cont h' b = cont h b.
Proof.
  intros h h' [Ln H] b. unfold cont. destruct (nth_error h b) as [o|] eqn:E.
  - destruct (H b o E) as (o' & -> & [->|[K N]]); [reflexivity|]. destruct o, o'; cbn in *; try reflexivity; congruence.
  - apply nth_error_None in E. rewrite <- Ln in E. apply nth_error_None in E. rewrite E. reflexivity.
Qed.
(** pointers to anything but properties *)
Lemma shape_deref : forall A (as_ : obj -> option A) h h' a, shape h h' -> (forall o, pkind o <> None -> as_ o = None) -> deref as_ h' a = deref as_ h a.
Proof.
  intros A as_ h h' a [Ln H] N. unfold deref. destruct (nth_error h a) as [o|] eqn:E.
  - destruct (H a o E) as (o' & -> & [->|[K N']]); [reflexivity|]. rewrite (N o N'). apply N. congruence.
  - apply nth_error_None in E. rewrite <- Ln in E. apply nth_error_None in E. rewrite E. reflexivity.
Qed.
(** pointers to properties *)
Definition propkind {A} (as_ : obj -> option A) : Prop := exists k, forall o, as_ o <> None <-> pkind o = Some k.
Lemma shape_prop : forall A (as_ : obj -> option A) h h' a, shape h h' -> propkind as_ -> deref as_ h a <> None -> deref as_ h' a <> None.
Proof.
  intros A as_ h h' a [Ln H] [k N] D. unfold deref in *. destruct (nth_error h a) as [o|] eqn:E; [|tauto].
  destruct (H a o E) as (o' & -> & [->|[K N']]); [exact D|]. apply N. apply N in D. congruence.
Qed.

Definition shaped {A B} (v : heap -> A -> option B) (r : heap -> A -> list nat) : Prop :=
  forall h h' a, shape h h' -> r h' a = r h a /\ (v h a <> None -> v h' a <> None).

Lemma shaped_prop : forall A (as_ : obj -> option A), propkind as_ -> shaped (fun h o => maybe (deref as_ h) o) (fun _ o => ptr o).
Proof.
  intros A as_ K h h' [a|] S; cbn; (split; [reflexivity|]); [|tauto]. intros D. destruct (deref as_ h a) eqn:E; [|tauto].
  pose proof (shape_prop _ as_ h h' a S K) as P. rewrite E in P. specialize (P ltac:(discriminate)). destruct (deref as_ h' a); [discriminate|tauto].
Qed.
Lemma shaped_maybe : forall A (v : heap -> nat -> option A) r, shaped v r -> shaped (fun h o => maybe (v h) o) (fun h o => flat_map (r h) (ptr o)).
Proof.
  intros A v r Sh h h' [a|] S; cbn; [|split; [reflexivity|tauto]]. destruct (Sh h h' a S) as [-> D]. split; [reflexivity|].
  destruct (v h a); [|tauto]. specialize (D ltac:(discriminate)). destruct (v h' a); [discriminate|tauto].
Qed.
Lemma shaped_list : forall A B (v : heap -> A -> option B) r, shaped v r -> shaped (fun h l => all_some (v h) l) (fun h l => flat_map (r h) l).
Proof.
  intros A B v r Sh h h' l S. induction l as [|x l IH]; cbn; [split; [reflexivity|tauto]|]. destruct (Sh h h' x S) as [-> D]. destruct IH as [-> D2]. split; [reflexivity|].
  destruct (v h x); [|tauto]. specialize (D ltac:(discriminate)). destruct (v h' x); [|tauto].
  destruct (all_some (v h) l); [|tauto]. specialize (D2 ltac:(discriminate)). destruct (all_some (v h') l); [discriminate|tauto].
Qed.
Lemma shaped_obj : forall C Q A B Y (as_ : obj -> option C) (as1 : obj -> option Q) (p : C -> option nat) (q : C -> list A)
  (v : heap -> A -> option B) r (f : C -> option Q -> list B -> Y), shaped v r -> (forall o, pkind o <> None -> as_ o = None) -> propkind as1 ->
  shaped (fun h a => match deref as_ h a with
               | Some c => match maybe (deref as1 h) (p c), all_some (v h) (q c) with Some x, Some y => Some (f c x y) | _, _ => None end
               | None => None
               end) (fun h a => a :: match deref as_ h a with Some c => ptr (p c) ++ flat_map (r h) (q c) | None => [] end).
Proof.
  intros C Q A B Y as_ as1 p q v r f Sh N K h h' a S. cbn beta. rewrite (shape_deref _ as_ h h' a S N). destruct (deref as_ h a) as [c|]; [|split; [reflexivity|tauto]].
  destruct (shaped_list _ _ v r Sh h h' (q c) S) as [-> D2]. destruct (shaped_prop _ as1 K h h' (p c) S) as [_ D1]. split; [reflexivity|].
  destruct (maybe (deref as1 h) (p c)); [|tauto]. specialize (D1 ltac:(discriminate)). destruct (maybe (deref as1 h') (p c)); [|tauto].
  destruct (all_some (v h) (q c)); [|tauto]. specialize (D2 ltac:(discriminate)). destruct (all_some (v h') (q c)); [discriminate|tauto].
Qed.
Ltac pk k := exists k; intros o; destruct o; cbn; split; intros; congruence.
Lemma k_rpr : propkind as_rpr. Proof. pk 0. Qed.
Lemma k_ppr : propkind as_ppr. Proof. pk 1. Qed.
Lemma k_tbl : propkind as_tbl. Proof. pk 2. Qed.
Lemma k_tr : propkind as_tr. Proof. pk 3. Qed.
Lemma k_tc : propkind as_tc. Proof. pk 4. Qed.
Lemma k_ext : propkind as_ext. Proof. pk 5. Qed.
Lemma k_sp : propkind as_sp. Proof. pk 6. Qed.
Ltac np := intros o H; destruct o; cbn in *; congruence.
Lemma n_inl : forall o, pkind o <> None -> as_inl o = None. Proof. np. Qed.
Lemma n_anc : forall o, pkind o <> None -> as_anc o = None. Proof. np. Qed.
Lemma n_run : forall o, pkind o <> None -> as_run o = None. Proof. np. Qed.
Lemma n_link : forall o, pkind o <> None -> as_link o = None. Proof. np. Qed.
Lemma n_para : forall o, pkind o <> None -> as_para o = None. Proof. np. Qed.
Lemma n_cell : forall o, pkind o <> None -> as_cell o = None. Proof. np. Qed.
Lemma n_row : forall o, pkind o <> None -> as_row o = None. Proof. np. Qed.
Lemma n_table : forall o, pkind o <> None -> as_table o = None. Proof. np. Qed.

Lemma shaped_inl : shaped v_inl reach_inl.
Proof.
  intros h h' a S. unfold v_inl, reach_inl. rewrite (shape_deref _ as_inl h h' a S n_inl). destruct (deref as_inl h a) as [[[x e] s]|]; [|split; [reflexivity|tauto]].
  destruct (shaped_prop _ as_ext k_ext h h' e S) as [_ D1]. destruct (shaped_prop _ as_sp k_sp h h' s S) as [_ D2]. split; [reflexivity|].
  destruct (maybe (deref as_ext h) e); [|tauto]. specialize (D1 ltac:(discriminate)). destruct (maybe (deref as_ext h') e); [|tauto].
  destruct (maybe (deref as_sp h) s); [|tauto]. specialize (D2 ltac:(discriminate)). destruct (maybe (deref as_sp h') s); [discriminate|tauto].
Qed.
Lemma shaped_anc : shaped v_anc reach_anc.
Proof.
  intros h h' a S. unfold v_anc, reach_anc. rewrite (shape_deref _ as_anc h h' a S n_anc). destruct (deref as_anc h a) as [[[x e] s]|]; [|split; [reflexivity|tauto]].
  destruct (shaped_prop _ as_ext k_ext h h' e S) as [_ D1]. destruct (shaped_prop _ as_sp k_sp h h' s S) as [_ D2]. split; [reflexivity|].
  destruct (maybe (deref as_ext h) e); [|tauto]. specialize (D1 ltac:(discriminate)). destruct (maybe (deref as_ext h') e); [|tauto].
  destruct (maybe (deref as_sp h) s); [|tauto]. specialize (D2 ltac:(discriminate)). destruct (maybe (deref as_sp h') s); [discriminate|tauto].
Qed.
Lemma shaped_rchild : shaped v_rchild reach_rchild.
Proof.
  intros h h' [t|t|t|i a] S; cbn [v_rchild reach_rchild]; try (split; [reflexivity|tauto]).
  destruct (shaped_maybe _ _ _ shaped_inl h h' i S) as [-> D1]. destruct (shaped_maybe _ _ _ shaped_anc h h' a S) as [-> D2]. split; [reflexivity|].
  destruct (maybe (v_inl h) i); [|tauto]. specialize (D1 ltac:(discriminate)). destruct (maybe (v_inl h') i); [|tauto].
  destruct (maybe (v_anc h) a); [|tauto]. specialize (D2 ltac:(discriminate)). destruct (maybe (v_anc h') a); [discriminate|tauto].
Qed.
Lemma shaped_run : shaped v_run reach_run.
Proof.
  intros h h' r S. unfold v_run, reach_run. destruct (shaped_list _ _ _ _ shaped_rchild h h' (hr_children r) S) as [-> D2].
  destruct (shaped_prop _ as_rpr k_rpr h h' (hr_rpr r) S) as [_ D1]. split; [reflexivity|].
  destruct (maybe (deref as_rpr h) (hr_rpr r)); [|tauto]. specialize (D1 ltac:(discriminate)). destruct (maybe (deref as_rpr h') (hr_rpr r)); [|tauto].
  destruct (all_some (v_rchild h) (hr_children r)); [|tauto]. specialize (D2 ltac:(discriminate)). destruct (all_some (v_rchild h') (hr_children r)); [discriminate|tauto].
Qed.
Lemma shaped_child : shaped v_child reach_child.
Proof.
  intros h h' [a|a|q] S; cbn [v_child reach_child]; [| |split; [reflexivity|tauto]].
  - rewrite (shape_deref _ as_run h h' a S n_run). destruct (deref as_run h a) as [r|]; [|split; [reflexivity|tauto]].
    destruct (shaped_run h h' r S) as [-> D]. split; [reflexivity|]. destruct (v_run h r); [|tauto]. specialize (D ltac:(discriminate)). destruct (v_run h' r); [discriminate|tauto].
  - rewrite (shape_deref _ as_link h h' a S n_link). destruct (deref as_link h a) as [[id r]|]; [|split; [reflexivity|tauto]].
    destruct (shaped_run h h' r S) as [-> D]. split; [reflexivity|]. destruct (v_run h r); [|tauto]. specialize (D ltac:(discriminate)). destruct (v_run h' r); [discriminate|tauto].
Qed.
Lemma shaped_para : shaped v_para reach_para.
Proof. exact (shaped_obj _ _ _ _ _ as_para as_ppr hp_ppr hp_children v_child reach_child (fun p q c => mk_para q c (hp_file p)) shaped_child n_para k_ppr). Qed.
Lemma shaped_cell : shaped v_cell reach_cell.
Proof. exact (shaped_obj _ _ _ _ _ as_cell as_tc hc_tc hc_paras v_para reach_para (fun p q c => mk_cell q c (hc_file p)) shaped_para n_cell k_tc). Qed.
Lemma shaped_row : shaped v_row reach_row.
Proof. exact (shaped_obj _ _ _ _ _ as_row as_tr hw_tr hw_cells v_cell reach_cell (fun p q c => mk_row q c) shaped_cell n_row k_tr). Qed.
Lemma shaped_table : shaped v_table reach_table.
Proof. exact (shaped_obj _ _ _ _ _ as_table as_tbl ht_tbl ht_rows v_row reach_row (fun p q c => mk_table q (ht_grid p) c) shaped_row n_table k_tbl). Qed.
Lemma shaped_item : shaped v_item reach_item.
Proof.
  intros h h' [a|a|s] S; cbn [v_item reach_item]; [| |split; [reflexivity|tauto]].
  - destruct (shaped_para h h' a S) as [-> D]. split; [reflexivity|]. destruct (v_para h a); [|tauto]. specialize (D ltac:(discriminate)). destruct (v_para h' a); [discriminate|tauto].
  - destruct (shaped_table h h' a S) as [-> D]. split; [reflexivity|]. destruct (v_table h a); [|tauto]. specialize (D ltac:(discriminate)). destruct (v_table h' a); [discriminate|tauto].
Qed.
Definition shaped_items := shaped_list _ _ _ _ shaped_item.
Definition shaped_bodies := shaped_list _ _ _ _ shaped_items.

(** ** What a formatting call does *)
Lemma upd_same : forall (h : heap) b o, nth_error h b = Some o -> upd h b o = h.
Proof.
  unfold upd. induction h as [|x h IH]; intros b o E; [destruct b; discriminate|]. destruct b; cbn in *; [inversion E; reflexivity|]. rewrite IH by exact E. reflexivity.
Qed.
Lemma shape_write : forall A (as_ : obj -> option A) h b x o', propkind as_ -> deref as_ h b = Some x -> as_ o' <> None -> shape h (upd h b o').
Proof.
  intros A as_ h b x o' [k K] D N. apply deref_cont in D. destruct D as (o & E & Eo). assert (pkind o = Some k) by (apply K; congruence). assert (pkind o' = Some k) by (apply K; exact N).
  apply (shape_upd h b o); congruence.
Qed.
Lemma shape_resize : forall ew eh e s h, maybe (deref as_ext h) e <> None -> maybe (deref as_sp h) s <> None -> shape h (h_resize ew eh e s h).
Proof.
  intros ew eh e s h He Hs. unfold h_resize. set (h1 := match e with Some a => upd h a (OExt (mk_xy ew eh)) | None => h end).
  assert (S1 : shape h h1).
  { unfold h1. destruct e as [a|]; [|apply shape_refl]. cbn in He. destruct (deref as_ext h a) as [x|] eqn:D; [|tauto]. eapply shape_write; [apply k_ext|exact D|discriminate]. }
  apply (shape_trans h h1); [exact S1|]. destruct s as [a|]; [|apply shape_refl]. destruct (deref as_sp h1 a) as [q|] eqn:D; [|apply shape_refl].
  eapply shape_write; [apply k_sp|exact D|discriminate].
Qed.

(** calls on a run *)
Lemma rop_shape : forall o r rv h h' r', v_run h r = Some rv -> written_rop h o r <> [] -> h_rop o r h = Ok (h', r') ->
  shape h h' /\ r' = r /\ touched h h' (written_rop h o r).
Proof.
  intros o r rv h h' r' V W E. destruct (run_inv _ _ _ V) as (Vp & Vc & _). destruct (rop_set o) as [f|] eqn:Ef.
  - rewrite (written_format o f Ef) in *. rewrite (h_rop_format o f Ef) in E. destruct (hr_rpr r) as [a|]; [|discriminate].
    destruct (deref as_rpr h a) as [q|] eqn:D; [|discriminate]. inversion E; subst. split; [|split; [reflexivity|apply touched_upd]].
    eapply shape_write; [apply k_rpr|exact D|discriminate].
  - destruct o; cbn in Ef; try discriminate; cbn in W; try tauto. cbn [h_rop] in E. cbn [written_rop].
    destruct (nth_error (hr_children r) k) as [c|] eqn:Ec; [|discriminate]. destruct (draw_ptrs h anch c) as [[e s]|] eqn:Ed; [|discriminate]. inversion E; subst.
    split; [|split; [reflexivity|apply resize_touched]]. destruct (all_some_nth _ _ _ _ _ _ _ Vc Ec) as (y & _ & Vy).
    destruct c as [t|t|t|i a]; try discriminate. cbn [v_rchild] in Vy. cbn [draw_ptrs] in Ed.
    destruct (maybe (v_inl h) i) as [iv|] eqn:Ei; [|discriminate]. destruct (maybe (v_anc h) a) as [av|] eqn:Ea; [|discriminate].
    destruct anch.
    + destruct a as [a|]; [|discriminate]. cbn in Ea. destruct (v_anc h a) as [x|] eqn:Vx; [|discriminate].
      destruct (anc_inv _ _ _ Vx) as (x0 & e0 & s0 & ev & sv & D & He & Hs & _). rewrite D in Ed. cbn in Ed. inversion Ed; subst. apply shape_resize; congruence.
    + destruct i as [i|]; [|discriminate]. cbn in Ei. destruct (v_inl h i) as [x|] eqn:Vx; [|discriminate].
      destruct (inl_inv _ _ _ Vx) as (x0 & e0 & s0 & ev & sv & D & He & Hs & _). rewrite D in Ed. cbn in Ed. inversion Ed; subst. apply shape_resize; congruence.
Qed.

Lemma deref_run_obj : forall h b r, deref as_run h b = Some r -> nth_error h b = Some (OHRun r).
Proof. intros h b r D. apply deref_cont in D. destruct D as (o & E & Eo). destruct o; cbn in Eo; try discriminate. inversion Eo; subst. exact E. Qed.
Lemma deref_link_obj : forall h b id r, deref as_link h b = Some (id, r) -> nth_error h b = Some (OHLink id r).
Proof. intros h b id r D. apply deref_cont in D. destruct D as (o & E & Eo). destruct o; cbn in Eo; try discriminate. inversion Eo; subst. exact E. Qed.

Lemma pop_shape : forall (L : GoLib) o a h w p h' w', v_para h a = Some p -> written_pop h o a <> [] -> h_pop o a (h, w) = Ok (h', w') ->
  shape h h' /\ w' = w /\ touched h h' (written_pop h o a).
Proof.
  intros L o a h w p h' w' V W E. destruct (para_inv _ _ _ V) as (hp & D & Vq & Vc & Ef). destruct (pop_set o) as [f|] eqn:Es.
  - rewrite (written_pop_format o f Es a h hp D) in *. rewrite (h_pop_format L o f Es a h w hp D) in E. destruct (hp_ppr hp) as [b|]; [|cbn in W; tauto].
    destruct (deref as_ppr h b) as [q|] eqn:Db; [|discriminate]. inversion E; subst. split; [|split; [reflexivity|apply touched_upd]].
    eapply shape_write; [apply k_ppr|exact Db|discriminate].
  - unfold written_pop in *. rewrite D in *. destruct o; cbn in Es; try discriminate; try tauto. unfold h_pop in E. rewrite D in E.
    destruct (nth_error (hp_children hp) k) as [c|] eqn:Ec; [|discriminate]. destruct (all_some_nth _ _ _ _ _ _ _ Vc Ec) as (y & _ & Vy).
    destruct c as [b|b|q]; [| |discriminate]; cbn [run_of_child v_child] in *.
    + destruct (deref as_run h b) as [r|] eqn:Db; [|discriminate]. destruct (v_run h r) as [rv|] eqn:Vr; [|discriminate].
      destruct (h_rop o r h) as [[h1 r1]|e|] eqn:E1; cbn [bind] in E; try discriminate. destruct (rop_shape _ _ _ _ _ _ Vr W E1) as (S1 & -> & T1).
      assert (D1 : deref as_run h1 b = Some r) by (rewrite (shape_deref _ as_run h h1 b S1 n_run); exact Db).
      rewrite (upd_same h1 b _ (deref_run_obj _ _ _ D1)) in E. inversion E; subst. auto.
    + destruct (deref as_link h b) as [[id r]|] eqn:Db; [|discriminate]. cbn [option_map snd] in *. destruct (v_run h r) as [rv|] eqn:Vr; [|discriminate].
      destruct (h_rop o r h) as [[h1 r1]|e|] eqn:E1; cbn [bind] in E; try discriminate. destruct (rop_shape _ _ _ _ _ _ Vr W E1) as (S1 & -> & T1).
      assert (D1 : deref as_link h1 b = Some (id, r)) by (rewrite (shape_deref _ as_link h h1 b S1 n_link); exact Db).
      rewrite (upd_same h1 b _ (deref_link_obj _ _ _ _ D1)) in E. inversion E; subst. auto.
Qed.

Lemma set_shape : forall A (as_ : obj -> option A) mk p f m m', propkind as_ -> (forall x, as_ (mk x) <> None) -> h_set as_ mk p f m = Ok m' ->
  shape (m_heap m) (m_heap m') /\ m_docs m' = m_docs m /\ m_w m' = m_w m /\ touched (m_heap m) (m_heap m') (ptr p).
Proof.
  intros A as_ mk [a|] f m m' K N E; cbn in E; [|discriminate]. destruct (deref as_ (m_heap m) a) as [q|] eqn:D; [|discriminate]. inversion E; subst. cbn [m_heap m_docs m_w].
  split; [eapply shape_write; eauto|]. split; [reflexivity|]. split; [reflexivity|apply touched_upd].
Qed.

Lemma format_shape : forall (L : GoLib) o m W m', rep m W -> written o m <> [] -> hexec o m = Ok m' ->
  shape (m_heap m) (m_heap m') /\ m_docs m' = m_docs m /\ m_w m' = m_w m /\ touched (m_heap m) (m_heap m') (written o m).
Proof.
  intros L o m W m' R Hw E. destruct o; cbn [written] in Hw; try tauto; cbn [hexec written] in *.
  - destruct (nth_error (m_docs m) d) as [l|] eqn:Nl; [|discriminate]. destruct (h_para (m_heap m) l a) as [b|] eqn:Eb; [|discriminate].
    pose proof (rep_nth m W d R) as N. destruct (nth_error W d) as [x|]; [|destruct N; congruence]. destruct N as (_ & l' & Nl' & Vl). rewrite Nl in Nl'. inversion Nl'; subst l'.
    pose proof (look_para (m_heap m) l _ Vl a) as LP. destruct (get_para (d_items x) a) as [p|]; [|congruence]. destruct LP as (b' & Eb' & Vb). rewrite Eb in Eb'. inversion Eb'; subst b'.
    destruct (h_pop o b (m_heap m, m_w m)) as [[h' w']|e|] eqn:Ep; cbn [bind] in E; try discriminate. inversion E; subst.
    destruct (pop_shape L o b _ _ p h' w' Vb Hw Ep) as (S1 & -> & T1). auto.
  - destruct (nth_error (m_docs m) d) as [l|]; [|discriminate]. destruct (nth_error l i) as [[a|a|s]|]; try discriminate. destruct (deref as_table (m_heap m) a) as [t|]; [|discriminate].
    apply (set_shape _ as_tbl OTbl _ _ _ _ k_tbl) in E; [exact E|discriminate].
  - destruct (nth_error (m_docs m) d) as [l|]; [|discriminate]. destruct (h_row (m_heap m) l i r) as [a|]; [|discriminate]. destruct (deref as_row (m_heap m) a) as [t|]; [|discriminate].
    apply (set_shape _ as_tr OTr _ _ _ _ k_tr) in E; [exact E|discriminate].
  - destruct (nth_error (m_docs m) d) as [l|]; [|discriminate]. destruct (h_cell (m_heap m) l i r c) as [a|]; [|discriminate]. destruct (deref as_cell (m_heap m) a) as [t|]; [|discriminate].
    apply (set_shape _ as_tc OTc _ _ _ _ k_tc) in E; [exact E|discriminate].
Qed.

(** ** Every call keeps the documents readable and their lists apart *)
Lemma rebuild : forall W bs, length bs = length W -> exists W', map d_items W' = bs /\ map strip W' = map strip W.
Proof.
  induction W as [|d W IH]; intros bs E; destruct bs as [|b bs]; cbn in E; try discriminate; [exists []; auto|].
  destruct (IH bs) as (W' & E1 & E2); [lia|]. exists (set_d_items b d :: W'). cbn. rewrite E1, E2. destruct d; auto.
Qed.
Lemma shape_rep : forall m W m', rep m W -> shape (m_heap m) (m_heap m') -> m_docs m' = m_docs m -> m_w m' = m_w m -> exists W', rep m' W' /\ reach_all m' = reach_all m.
Proof.
  intros m W m' [R1 R2] S Ed Ew. destruct (shaped_bodies (m_heap m) (m_heap m') (m_docs m) S) as [Er D]. unfold bodies in R1. rewrite R1 in D. specialize (D ltac:(discriminate)).
  destruct (all_some (fun l => all_some (v_item (m_heap m')) l) (m_docs m)) as [bs|] eqn:Eb; [|tauto].
  destruct (rebuild W bs) as (W' & E1 & E2); [apply all_some_len in R1; apply all_some_len in Eb; rewrite map_length in R1; lia|].
  exists W'. split; [split; [rewrite Ed; unfold bodies; rewrite Eb, E1; reflexivity|rewrite Ew, R2, E2; reflexivity]|].
  unfold reach_all. rewrite Ed. exact Er.
Qed.
Lemma hexec_any : forall (L : GoLib) o m W m', inv_on false m -> rep m W -> hexec o m = Ok m' -> (exists W', rep m' W') /\ inv_on false m' /\ framed o m m'.
Proof.
  intros L o m W m' I R E. destruct (written o m) as [|b0 ws] eqn:Ew.
  - pose proof (hexec_step false o m W I R ltac:(discriminate)) as P. rewrite Ew in P. specialize (P ltac:(intros b [])). unfold okstep in P.
    destruct (exec o W) as [W'|e|]; [|congruence|congruence]. destruct P as (m2 & E2 & R2 & I2 & F2). rewrite E in E2. inversion E2; subst m2. eauto.
  - destruct (format_shape L o m W m' R) as (S & Ed & Ewm & T); [congruence|exact E|]. destruct (shape_rep m W m' R S Ed Ewm) as (W' & R' & Er).
    split; [eauto|]. split.
    + intros b Hb. rewrite Er. rewrite (shape_cont _ _ S) in Hb. apply I. exact Hb.
    + exists (written o m). split; [exact T|]. split; [auto|]. rewrite Ed. split; [lia|auto].
Qed.
Lemma inv0 : forall al, inv_on al mem0. Proof. intros al b _. cbn. lia. Qed.
Lemma rep0 : rep mem0 []. Proof. split; reflexivity. Qed.

Lemma hist_any : forall (L : GoLib) l m W m', inv_on false m -> rep m W -> h_run_ops l m = Some m' -> (exists W', rep m' W') /\ inv_on false m'.
Proof.
  intros L. induction l as [|o l IH]; intros m W m' I R E; cbn in E.
  - inversion E; subst. eauto.
  - destruct (hexec o m) as [m1|e|] eqn:E1; [|eapply IH; eauto|discriminate]. destruct (hexec_any L o m W m1 I R E1) as ((W1 & R1) & I1 & _). eapply IH; eauto.
Qed.

(** ** Histories that share nothing they write to *)
Lemma hist_apart : forall (L : GoLib) l m W, inv_on false m -> rep m W -> apart l m -> same_history l m W.
Proof.
  intros L. unfold same_history. induction l as [|o l IH]; intros m W I R A; cbn [run_ops h_run_ops].
  - exists m. split; [reflexivity|]. apply rep_view. exact R.
  - destruct A as [A1 A2]. pose proof (hexec_step false o m W I R ltac:(discriminate) A1) as P. unfold okstep in P. destruct (exec o W) as [W1|e|].
    + destruct P as (m1 & E1 & R1 & I1 & _). rewrite E1 in *. exact (IH m1 W1 I1 R1 A2).
    + rewrite P in *. exact (IH m W I R A2).
    + rewrite P. reflexivity.
Qed.
Lemma all_once : forall m, inv_on true m -> forall b, once m b. Proof. intros m I b. apply I. auto. Qed.
Lemma formats_written : forall o m, formats o = false -> written o m = [].
Proof.
  intros o m F. destruct o; cbn in F; try discriminate; try reflexivity. cbn [written]. destruct (nth_error (m_docs m) d); [|reflexivity]. destruct (h_para (m_heap m) l a); [|reflexivity].
  unfold written_pop. destruct (deref as_para (m_heap m) n); [|reflexivity]. destruct o; cbn in F; try discriminate; try reflexivity.
  destruct (nth_error (hp_children h) k); [|reflexivity]. destruct (run_of_child (m_heap m) h0); [|reflexivity]. destruct o; cbn in F; try discriminate; reflexivity.
Qed.
Lemma apart_quiet : forall (L : GoLib) l m, forallb (fun o => negb (formats o)) l = true -> apart l m.
Proof.
  intros L. induction l as [|o l IH]; intros m F; cbn in *; [exact I|]. apply andb_true_iff in F. destruct F as [F1 F2]. apply negb_true_iff in F1. rewrite (formats_written o m F1).
  split; [intros b []|]. destruct (hexec o m); auto.
Qed.
Lemma apart_app : forall (L : GoLib) l1 l2 m W, inv_on true m -> rep m W -> forallb (fun o => negb (copies o)) l1 = true -> forallb (fun o => negb (formats o)) l2 = true -> apart (l1 ++ l2) m.
Proof.
  intros L. induction l1 as [|o l1 IH]; intros l2 m W I R F1 F2; cbn [app]; [apply apart_quiet; exact F2|]. cbn in F1. apply andb_true_iff in F1. destruct F1 as [F0 F1]. apply negb_true_iff in F0.
  cbn [apart]. split; [intros b _; apply all_once; exact I|].
  pose proof (hexec_step true o m W I R (fun _ => F0) (fun b _ => all_once m I b)) as P. unfold okstep in P. destruct (exec o W) as [W1|e|].
  - destruct P as (m1 & E1 & R1 & I1 & _). rewrite E1. eapply IH; eauto.
  - rewrite P. eapply IH; eauto.
  - rewrite P. exact Logic.I.
Qed.

(** ** What a call changes in other documents *)
Lemma two_docs : forall (r : list hitem -> list nat) ds d s l l' b, d <> s -> nth_error ds d = Some l -> nth_error ds s = Some l' -> cnt (r l) b + cnt (r l') b <= cnt (flat_map r ds) b.
Proof.
  intros r. induction ds as [|x ds IH]; intros d s l l' b N E1 E2; [destruct d; discriminate|]. cbn. rewrite cnt_app. destruct d, s; cbn in E1, E2; [tauto| | |].
  - inversion E1; subst. pose proof (in_sub _ r _ _ _ E2 b). lia.
  - inversion E2; subst. pose proof (in_sub _ r _ _ _ E1 b). lia.
  - specialize (IH d s l l' b ltac:(congruence) E1 E2). lia.
Qed.
Lemma other_body : forall (L : GoLib) o m W m' s, inv_on false m -> rep m W -> hexec o m = Ok m' -> target o <> Some s -> s < length W ->
  (forall b, In b (written o m) -> ~ In b (reach_of m s)) -> forall W', rep m' W' -> body W' s = body W s.
Proof.
  intros L o m W m' s I R E Ht Hs Hd W' R'. destruct (hexec_any L o m W m' I R E) as (_ & _ & S & T & Hc & Ln & Nn).
  destruct (rep_len m W R) as [Len _]. specialize (Nn s ltac:(lia) Ht).
  pose proof (rep_nth m W s R) as N. destruct (nth_error W s) as [x|] eqn:Ex; [|apply nth_error_None in Ex; lia]. destruct N as (_ & l & Nl & Vl).
  destruct (touched_agree _ _ _ _ law_items (m_heap m) (m_heap m') S l _ Vl T) as [V' _].
  { intros b Hb Hin. destruct (Hc b Hb) as [(Cb & d & Ed & Hin')|Hb'].
    - unfold reach_of in Hin'. destruct (nth_error (m_docs m) d) as [ld|] eqn:Nd; [|destruct Hin']. assert (Hds : d <> s) by congruence.
      pose proof (two_docs (reach_doc (m_heap m)) (m_docs m) d s ld l b Hds Nd Nl) as C. apply cnt_in in Hin'. apply cnt_in in Hin. unfold reach_doc in Hin' at 1.
      specialize (I b (or_intror Cb)). unfold reach_all in I. unfold reach_doc in *. lia.
    - apply (Hd b Hb'). eapply in_doc_of; eauto. }
  pose proof (rep_nth m' W' s R') as N'. unfold body. rewrite Ex. rewrite Nl in Nn. destruct (nth_error W' s) as [x'|].
  - destruct N' as (_ & l' & Nl' & Vl'). rewrite Nn in Nl'. inversion Nl'; subst l'. cbn beta in V'. rewrite V' in Vl'. inversion Vl' as [E2]. cbn. rewrite E2. reflexivity.
  - destruct N' as [_ Nl']. congruence.
Qed.
