(** Documents in memory: the exact effect of styling a run; what copies share. *)
From Coq Require Import String List Bool Arith Lia.
From Verif Require Import GoStr Num Lib Types Docx Api Keep Copy History RegFacts Alias SpecAlias AliasFacts AliasFacts2 AliasFacts3 AliasFacts4 AliasFacts5 AliasFacts6 AliasFacts7 AliasFacts8 AliasFacts9.
Import ListNotations.
Local Open Scope list_scope.

Definition hrun_at (m : mem) (d : nat) (a : addr) (k : nat) : option hrun :=
  match nth_error (m_docs m) d with
  | None => None
  | Some l =>
      match h_para (m_heap m) l a with
      | None => None
      | Some b =>
          match deref as_para (m_heap m) b with
          | None => None
          | Some p => match nth_error (hp_children p) k with
                      | Some c => run_of_child (m_heap m) c
                      | None => None
                      end
          end
      end
  end.
Lemma run_ptr_hrun : forall m d a k, run_ptr m d a k = match hrun_at m d a k with Some r => hr_rpr r | None => None end.
Proof.
  intros. unfold run_ptr, hrun_at. destruct (nth_error (m_docs m) d); [|reflexivity]. destruct (h_para (m_heap m) l a); [|reflexivity].
  destruct (deref as_para (m_heap m) n); [|reflexivity]. destruct (nth_error (hp_children h) k); reflexivity.
Qed.
Lemma run_look : forall m W d a k, rep m W ->
  match hrun_at m d a k with
  | Some r => exists rv, v_run (m_heap m) r = Some rv /\ run_at W d a k = Some rv
  | None => run_at W d a k = None
  end.
Proof.
  intros m W d a k R. unfold hrun_at, run_at, body. pose proof (rep_nth m W d R) as N. destruct (nth_error W d) as [x|].
  2:{ destruct N as [_ ->]. reflexivity. }
  destruct N as (_ & l & -> & Vl). cbn [option_map]. pose proof (look_para (m_heap m) l _ Vl a) as LP. destruct (get_para (d_items x) a) as [p|].
  2:{ rewrite LP. reflexivity. }
  destruct LP as (b & -> & Vb). destruct (para_inv _ _ _ Vb) as (hp & -> & _ & Vc & _). destruct (nth_error (hp_children hp) k) as [c|] eqn:Ec.
  - destruct (all_some_nth _ _ _ _ _ _ _ Vc Ec) as (y & -> & Vy). destruct c as [z|z|q]; cbn [v_child run_of_child] in *.
    + destruct (deref as_run (m_heap m) z) as [r|]; [|discriminate]. destruct (v_run (m_heap m) r) as [rv|]; [|discriminate]. inversion Vy; subst. eauto.
    + destruct (deref as_link (m_heap m) z) as [[id r]|]; [|discriminate]. cbn [option_map snd]. destruct (v_run (m_heap m) r) as [rv|] eqn:Vr; [|discriminate]. inversion Vy; subst. eauto.
    + inversion Vy; subst. reflexivity.
  - rewrite (all_some_none _ _ _ _ _ _ Vc Ec). reflexivity.
Qed.
Lemma h_para_shape : forall h h' l a, shape h h' -> h_para h' l a = h_para h l a.
Proof.
  intros h h' l [i|i r c k] S; cbn [h_para]; [reflexivity|]. unfold h_cell, h_row. destruct (nth_error l i) as [[z|z|s]|]; try reflexivity.
  rewrite (shape_deref _ as_table h h' z S n_table). destruct (deref as_table h z); [|reflexivity]. destruct (nth_error (ht_rows h0) r); [|reflexivity].
  rewrite (shape_deref _ as_row h h' n S n_row). destruct (deref as_row h n); [|reflexivity]. destruct (nth_error (hw_cells h1) c); [|reflexivity].
  rewrite (shape_deref _ as_cell h h' n0 S n_cell). reflexivity.
Qed.
Lemma run_of_child_shape : forall h h' c, shape h h' -> run_of_child h' c = run_of_child h c.
Proof.
  intros h h' [z|z|q] S; cbn; [apply (shape_deref _ as_run _ _ _ S n_run)|rewrite (shape_deref _ as_link _ _ _ S n_link); reflexivity|reflexivity].
Qed.
Lemma hrun_at_shape : forall m m' d a k, shape (m_heap m) (m_heap m') -> m_docs m' = m_docs m -> hrun_at m' d a k = hrun_at m d a k.
Proof.
  intros m m' d a k S E. unfold hrun_at. rewrite E. destruct (nth_error (m_docs m) d); [|reflexivity]. rewrite (h_para_shape _ _ _ _ S).
  destruct (h_para (m_heap m) l a); [|reflexivity]. rewrite (shape_deref _ as_para _ _ _ S n_para). destruct (deref as_para (m_heap m) n); [|reflexivity].
  destruct (nth_error (hp_children h) k); [|reflexivity]. apply run_of_child_shape. exact S.
Qed.

(** the objects of drawings are no run properties *)
Lemma kind_not_rpr : forall A (as_ : obj -> option A) h b x, deref as_ h b = Some x -> (forall o, as_ o <> None -> as_rpr o = None) -> deref as_rpr h b = None.
Proof. intros A as_ h b x D N. unfold deref in *. destruct (nth_error h b); [|reflexivity]. apply N. congruence. Qed.
Ltac nr := intros o; destruct o; cbn; congruence.
Lemma rchild_no_rpr : forall h c y, v_rchild h c = Some y -> forall b, In b (reach_rchild h c) -> deref as_rpr h b = None.
Proof.
  assert (PE : forall h e ev b, maybe (deref as_ext h) e = Some ev -> In b (ptr e) -> deref as_rpr h b = None).
  { intros h [z|] ev b E Hb; [|destruct Hb]. destruct Hb as [->|[]]. cbn in E. destruct (deref as_ext h b) eqn:D; [|discriminate]. eapply kind_not_rpr; [exact D|nr]. }
  assert (PS : forall h e ev b, maybe (deref as_sp h) e = Some ev -> In b (ptr e) -> deref as_rpr h b = None).
  { intros h [z|] ev b E Hb; [|destruct Hb]. destruct Hb as [->|[]]. cbn in E. destruct (deref as_sp h b) eqn:D; [|discriminate]. eapply kind_not_rpr; [exact D|nr]. }
  intros h [t|t|t|i a] y V b Hb; cbn in V, Hb; try tauto.
  destruct (maybe (v_inl h) i) as [iv|] eqn:Ei; [|discriminate]. destruct (maybe (v_anc h) a) as [av|] eqn:Ea; [|discriminate].
  apply in_app_or in Hb. destruct Hb as [Hb|Hb].
  - destruct i as [i|]; [|destruct Hb]. cbn in Hb, Ei. rewrite app_nil_r in Hb. destruct (v_inl h i) as [x|] eqn:Ex; [|discriminate].
    destruct (inl_inv _ _ _ Ex) as (x0 & e & s & ev & sv & D & He & Hs & _). unfold reach_inl in Hb. rewrite D in Hb. destruct Hb as [<-|Hb].
    + eapply kind_not_rpr; [exact D|nr].
    + apply in_app_or in Hb. destruct Hb; eauto.
  - destruct a as [a|]; [|destruct Hb]. cbn in Hb, Ea. rewrite app_nil_r in Hb. destruct (v_anc h a) as [x|] eqn:Ex; [|discriminate].
    destruct (anc_inv _ _ _ Ex) as (x0 & e & s & ev & sv & D & He & Hs & _). unfold reach_anc in Hb. rewrite D in Hb. destruct Hb as [<-|Hb].
    + eapply kind_not_rpr; [exact D|nr].
    + apply in_app_or in Hb. destruct Hb; eauto.
Qed.
Lemma rchildren_no_rpr : forall h l ys, all_some (v_rchild h) l = Some ys -> forall b, In b (flat_map (reach_rchild h) l) -> deref as_rpr h b = None.
Proof.
  intros h l ys V b Hb. apply in_flat_map in Hb. destruct Hb as (c & Hc & Hb). apply In_nth_error in Hc. destruct Hc as [i Hi].
  destruct (all_some_nth _ _ _ _ _ _ _ V Hi) as (y & _ & Vy). eapply rchild_no_rpr; eauto.
Qed.

Lemma styles_set : forall o, styles o = true -> exists f, rop_set o = Some f.
Proof. intros o S. destruct o; cbn in *; try discriminate; eauto. Qed.

(** styling a run writes one object *)
Lemma style_exec : forall (L : GoLib) d a k o f m W m', rep m W -> rop_set o = Some f -> hexec (OPara d a (ORun k o)) m = Ok m' ->
  exists r b q, hrun_at m d a k = Some r /\ hr_rpr r = Some b /\ deref as_rpr (m_heap m) b = Some q /\
    m_heap m' = upd (m_heap m) b (ORpr (f q)) /\ m_docs m' = m_docs m /\ m_w m' = m_w m.
Proof.
  intros L d a k o f m W m' R Ef E. cbn [hexec] in E. unfold hrun_at. destruct (nth_error (m_docs m) d) as [l|] eqn:Nl; [|discriminate].
  destruct (h_para (m_heap m) l a) as [b|] eqn:Eb; [|discriminate]. unfold h_pop in E. destruct (deref as_para (m_heap m) b) as [p|] eqn:D; [|discriminate].
  destruct (nth_error (hp_children p) k) as [[z|z|q]|] eqn:Ec; try discriminate; cbn [run_of_child].
  - destruct (deref as_run (m_heap m) z) as [r|] eqn:Dz; [|discriminate]. rewrite (h_rop_format o f Ef) in E. destruct (hr_rpr r) as [c|] eqn:Ep; [|discriminate].
    destruct (deref as_rpr (m_heap m) c) as [q|] eqn:Dc; [|discriminate]. cbn [bind] in E. exists r, c, q. repeat (split; [reflexivity || assumption|]).
    assert (S : shape (m_heap m) (upd (m_heap m) c (ORpr (f q)))) by (eapply shape_write; [apply k_rpr|exact Dc|discriminate]).
    rewrite upd_same in E; [|apply deref_run_obj; rewrite (shape_deref _ as_run _ _ _ S n_run); exact Dz]. inversion E; subst. auto.
  - destruct (deref as_link (m_heap m) z) as [[id r]|] eqn:Dz; [|discriminate]. rewrite (h_rop_format o f Ef) in E. cbn [option_map snd]. destruct (hr_rpr r) as [c|] eqn:Ep; [|discriminate].
    destruct (deref as_rpr (m_heap m) c) as [q|] eqn:Dc; [|discriminate]. cbn [bind] in E. exists r, c, q. repeat (split; [reflexivity || assumption|]).
    assert (S : shape (m_heap m) (upd (m_heap m) c (ORpr (f q)))) by (eapply shape_write; [apply k_rpr|exact Dc|discriminate]).
    rewrite upd_same in E; [|apply deref_link_obj; rewrite (shape_deref _ as_link _ _ _ S n_link); exact Dz]. inversion E; subst. auto.
Qed.

Lemma style_exact : forall (L : GoLib) d a k o m W m' W', rep m W -> styles o = true -> hexec (OPara d a (ORun k o)) m = Ok m' -> rep m' W' ->
  exists b, run_ptr m d a k = Some b /\
  forall d2 a2 k2,
    (run_ptr m d2 a2 k2 = Some b -> exists r, run_at W d2 a2 k2 = Some r /\ after o r <> None /\ run_at W' d2 a2 k2 = after o r) /\
    (run_ptr m d2 a2 k2 <> Some b -> run_at W' d2 a2 k2 = run_at W d2 a2 k2).
Proof.
  intros L d a k o m W m' W' R St E R'. destruct (styles_set o St) as [f Ef].
  destruct (style_exec L d a k o f m W m' R Ef E) as (r & b & q & Hr & Hp & Db & Eh & Ed & Ew). exists b.
  split; [rewrite run_ptr_hrun, Hr; exact Hp|]. intros d2 a2 k2.
  assert (S : shape (m_heap m) (m_heap m')) by (rewrite Eh; eapply shape_write; [apply k_rpr|exact Db|discriminate]).
  pose proof (run_look m W d2 a2 k2 R) as L1. pose proof (run_look m' W' d2 a2 k2 R') as L2. rewrite (hrun_at_shape m m' d2 a2 k2 S Ed) in L2.
  rewrite run_ptr_hrun. destruct (hrun_at m d2 a2 k2) as [r2|].
  2:{ split; [discriminate|]. rewrite L1, L2. reflexivity. }
  destruct L1 as (rv & V1 & E1). destruct L2 as (rv' & V2 & E2).
  destruct (run_inv _ _ _ V1) as (P1 & C1 & S1 & I1). destruct (run_inv _ _ _ V2) as (P2 & C2 & S2 & I2).
  assert (T : touched (m_heap m) (m_heap m') [b]) by (rewrite Eh; apply touched_upd).
  destruct (touched_agree _ _ _ _ (law_list _ _ _ _ law_rchild) (m_heap m) (m_heap m') [b] _ _ C1 T) as [C1' _].
  { intros z [<-|[]] Hin. apply (rchildren_no_rpr _ _ _ C1) in Hin. congruence. }
  cbn beta in C1'. rewrite C1' in C2. inversion C2 as [EC]. split; intros Hb.
  - exists rv. split; [exact E1|]. rewrite Hb in P1, P2. cbn [maybe] in P1, P2. rewrite Db in P1. rewrite Eh in P2. rewrite deref_upd in P2 by (eapply deref_bound; eauto). cbn [as_rpr] in P2.
    inversion P1 as [Q1]. inversion P2 as [Q2]. unfold after. rewrite (rop_format o f Ef). unfold on_rpr. rewrite <- Q1. split; [discriminate|].
    rewrite E2. apply f_equal. destruct rv as [? ? ? ?], rv' as [? ? ? ?]; unfold set_runR_rpr; cbn in *. congruence.
  - assert (P1' : maybe (deref as_rpr (m_heap m')) (hr_rpr r2) = Some (runR_rpr rv)).
    { rewrite <- P1. destruct (hr_rpr r2) as [z|]; [|reflexivity]. cbn [maybe]. rewrite Eh, deref_upd_other by congruence. reflexivity. }
    rewrite P1' in P2. inversion P2 as [Q]. rewrite E1, E2. f_equal. destruct rv as [? ? ? ?], rv' as [? ? ? ?]; cbn in *. congruence.
Qed.

(** ** Copies have the properties of the source *)
Definition kept_child (h : heap) (x : hchild) (h' : heap) (y : hchild) : Prop :=
  forall r, run_of_child h x = Some r -> exists r', run_of_child h' y = Some r' /\ hr_rpr r' = hr_rpr r.
Lemma run_of_child_keeps : forall h h' c r, keeps h h' -> run_of_child h c = Some r -> run_of_child h' c = Some r.
Proof.
  intros h h' [z|z|q] r K E; cbn in *; [eapply keeps_deref; eauto| |discriminate]. destruct (deref as_link h z) as [[id r0]|] eqn:D; [|discriminate].
  rewrite (keeps_deref _ as_link h h' z _ K D). exact E.
Qed.
Lemma kept_child_keeps : forall h0 h x h' h'' y, keeps h0 h -> keeps h' h'' -> kept_child h x h' y -> kept_child h0 x h'' y.
Proof. intros h0 h x h' h'' y K0 K H r E. destruct (H r (run_of_child_keeps _ _ _ _ K0 E)) as (r' & E' & Ep). exists r'. split; [eapply run_of_child_keeps; eauto|exact Ep]. Qed.

Lemma copy_run_rpr : forall to r s s' r', h_copy_run to r s = Ok (s', r') -> hr_rpr r' = hr_rpr r.
Proof. intros to r s s' r' E. unfold h_copy_run in E. destruct (st_list (h_copy_rchild to) (hr_children r) s) as [[s1 c]|e|]; cbn in E; try discriminate. inversion E; subst. reflexivity. Qed.
Lemma copy_child_kept : forall to f c h w h' w' y, h_copy_child to f c (h, w) = Ok ((h', w'), Some y) -> kept_child h c h' y.
Proof.
  intros to f [z|z|q] h w h' w' y E r Hr; cbn [run_of_child] in Hr; cbn [h_copy_child fst snd] in E.
  - rewrite Hr in E. destruct (h_copy_run to r (h, w)) as [[[h1 w1] r1]|e|] eqn:E1; cbn [bind] in E; try discriminate. unfold alloc in E. inversion E; subst.
    cbn [run_of_child]. rewrite deref_new. cbn. exists r1. split; [reflexivity|]. eapply copy_run_rpr; eauto.
  - destruct (deref as_link h z) as [[id r0]|]; [|discriminate]. cbn in Hr. inversion Hr; subst r0.
    destruct (file_reg w f) as [src|e|]; cbn [bind] in E; try discriminate. destruct (refer_target src id) as [tgt|e|]; try discriminate.
    destruct (on_file w (Some to) (add_link_relation tgt)) as [[rid w2]|e|]; cbn [bind] in E; try discriminate.
    destruct (h_copy_run to r (h, w2)) as [[[h1 w1] r1]|e|] eqn:E1; cbn [bind] in E; try discriminate. unfold alloc in E. inversion E; subst.
    cbn [run_of_child]. rewrite deref_new. cbn. exists r1. split; [reflexivity|]. eapply copy_run_rpr; eauto.
  - discriminate.
Qed.
(** with the value model, a copy of children keeps the memory *)
Lemma copy_children_kept : forall to f l ys h W h' w' c, all_some (v_child h) l = Some ys -> st_list (h_copy_child to f) l (h, map strip W) = Ok ((h', w'), c) ->
  keeps h h' /\ length c = length l /\ forall k x y, nth_error l k = Some x -> nth_error c k = Some (Some y) -> kept_child h x h' y.
Proof.
  intros to f. induction l as [|x l IH]; intros ys h W h' w' c V E; cbn in V, E.
  - inversion E; subst. split; [apply keeps_refl|]. split; [reflexivity|]. intros k; destruct k; discriminate.
  - destruct (v_child h x) as [y0|] eqn:Ex; [|discriminate]. destruct (all_some (v_child h) l) as [zs|] eqn:El; [|discriminate].
    pose proof (cspec_child to f h W x y0 Ex) as P. destruct (copy_pchild to f y0 W) as [[W1 y1]|e|]; [|rewrite P in E; discriminate|rewrite P in E; discriminate].
    destruct P as (h1 & c1 & E1 & K1 & V1 & _ & _). rewrite E1 in E. cbn [bind] in E.
    destruct (st_list (h_copy_child to f) l (h1, map strip W1)) as [[[h2 w2] c2]|e|] eqn:E2; cbn [bind] in E; try discriminate. inversion E; subst.
    destruct (law_keeps _ _ _ _ (law_list _ _ _ _ law_child) h h1 l zs K1 El) as [El1 _].
    destruct (IH zs h1 W1 h' w' c2 El1 E2) as (K2 & Ln & H). split; [eapply keeps_trans; eauto|]. split; [cbn; congruence|].
    intros [|k] x' y Hx Hy; cbn in Hx, Hy.
    + inversion Hx; inversion Hy; subst. apply (kept_child_keeps h h _ h1); [apply keeps_refl|exact K2|]. eapply copy_child_kept; eauto.
    + apply (kept_child_keeps h h1 _ h'); [exact K1|apply keeps_refl|]. eapply H; eauto.
Qed.
Lemma somes_len : forall A (l : list (option A)), length (somes l) <= length l.
Proof. induction l as [|[x|] l IH]; cbn; lia. Qed.
Lemma somes_full : forall A (l : list (option A)), length (somes l) = length l -> forall k, nth_error l k = option_map Some (nth_error (somes l) k).
Proof.
  induction l as [|[x|] l IH]; intros E k; cbn in *.
  - destruct k; reflexivity.
  - destruct k; cbn; [reflexivity|]. apply IH. lia.
  - pose proof (somes_len _ l). lia.
Qed.

(** [b] in [h'] is a copy of the paragraph [a] in [h] *)
Definition copy_of (h : heap) (a : nat) (h' : heap) (b : nat) : Prop :=
  exists p q, deref as_para h a = Some p /\ deref as_para h' b = Some q /\ hp_ppr q = hp_ppr p /\
    (length (hp_children q) = length (hp_children p) -> forall k x, nth_error (hp_children p) k = Some x ->
       exists y, nth_error (hp_children q) k = Some y /\ kept_child h x h' y).
Lemma copy_of_keeps : forall h0 h a h' h'' b, keeps h0 h -> deref as_para h0 a <> None -> keeps h' h'' -> copy_of h a h' b -> copy_of h0 a h'' b.
Proof.
  intros h0 h a h' h'' b K0 N K (p & q & D1 & D2 & Ep & H). exists p, q. destruct (deref as_para h0 a) as [p0|] eqn:D0; [|tauto].
  rewrite (keeps_deref _ as_para h0 h a p0 K0 D0) in D1. inversion D1; subst p0. split; [reflexivity|]. split; [eapply keeps_deref; eauto|]. split; [exact Ep|].
  intros Ln k x Hx. destruct (H Ln k x Hx) as (y & Hy & Hk). exists y. split; [exact Hy|]. eapply kept_child_keeps; eauto.
Qed.
Lemma copy_para_of : forall to a p h W h' w' b, v_para h a = Some p -> h_copy_para to a (h, map strip W) = Ok ((h', w'), b) -> copy_of h a h' b.
Proof.
  intros to a p h W h' w' b V E. destruct (para_inv _ _ _ V) as (hp & D & _ & Vc & _). unfold h_copy_para in E. cbn [fst] in E. rewrite D in E.
  destruct (st_list (h_copy_child to (hp_file hp)) (hp_children hp) (h, map strip W)) as [[[h1 w1] c]|e|] eqn:E1; cbn [bind] in E; try discriminate. unfold alloc in E. inversion E; subst.
  destruct (copy_children_kept _ _ _ _ _ _ _ _ _ Vc E1) as (K & Ln & H). exists hp, (mk_hpara (hp_ppr hp) (somes c) (Some to)). split; [exact D|].
  split; [rewrite deref_new; reflexivity|]. split; [reflexivity|]. cbn [hp_children]. intros Lc k x Hx. pose proof (somes_full _ c ltac:(congruence) k) as Hs.
  destruct (nth_error (somes c) k) as [y|] eqn:Ey.
  - exists y. split; [reflexivity|]. eapply kept_child_keeps; [apply keeps_refl|apply keeps_alloc|]. eapply H; eauto.
  - exfalso. apply nth_error_None in Ey. assert (nth_error (hp_children hp) k <> None) by congruence. apply nth_error_Some in H0. lia.
Qed.
Lemma append_of : forall to l ys m W m' l0, inv_on false m -> rep m W -> all_some (v_item (m_heap m)) l = Some ys -> h_append_items to l m = Ok m' -> nth_error (m_docs m) to = Some l0 ->
  exists l', nth_error (m_docs m') to = Some (l0 ++ l') /\ length l' = length l /\
    forall i a, nth_error l i = Some (HIPara a) -> exists b, nth_error l' i = Some (HIPara b) /\ copy_of (m_heap m) a (m_heap m') b.
Proof.
  intros to. induction l as [|x l IH]; intros ys m W m' l0 I R V E N; cbn in V.
  - cbn in E. inversion E; subst. exists []. rewrite app_nil_r. split; [exact N|]. split; [reflexivity|]. intros i; destruct i; discriminate.
  - destruct (v_item (m_heap m) x) as [y|] eqn:Ex; [|discriminate]. destruct (all_some (v_item (m_heap m)) l) as [zs|] eqn:El; [|discriminate]. inversion V; subst ys.
    cbn [h_append_items] in E. pose proof (push_step to x y m W I R Ex) as P. destruct (copy_push to y W) as [W1|e|]; [|rewrite P in E; discriminate|rewrite P in E; discriminate].
    destruct P as (m1 & E1 & R1 & I1 & K1 & L1 & N1). rewrite E1 in E. cbn [bind] in E.
    unfold h_copy_push in E1. rewrite (proj2 R) in E1.
    match type of E1 with bind ?t _ = _ => destruct t as [[[h w] y']|e|] eqn:Ec end; cbn [bind] in E1; try discriminate. rewrite N in E1. inversion E1 as [Em1].
    destruct (law_keeps _ _ _ _ law_items (m_heap m) (m_heap m1) l _ K1 El) as [V1 _].
    assert (N2 : nth_error (m_docs m1) to = Some (l0 ++ [y'])).
    { rewrite <- Em1. cbn [m_docs]. apply set_nth_same. apply nth_error_Some. congruence. }
    destruct (IH zs m1 W1 m' (l0 ++ [y']) I1 R1 V1 E N2) as (l' & Nl' & Ln & H). exists (y' :: l'). rewrite <- app_assoc in Nl'. split; [exact Nl'|]. split; [cbn; congruence|].
    assert (K2 : keeps (m_heap m1) (m_heap m')).
    { pose proof (append_step to l zs m1 W1 I1 R1 V1) as P. destruct (append_items to zs W1) as [W2|e|]; [|congruence|congruence]. destruct P as (m2 & E2 & _ & _ & K2 & _). rewrite E in E2. inversion E2; subst. exact K2. }
    assert (Hh : m_heap m1 = h) by (rewrite <- Em1; reflexivity).
    intros [|i] a Ha; cbn in Ha.
    + inversion Ha; subst x. cbn [h_copy_item v_item] in Ec, Ex. destruct (v_para (m_heap m) a) as [p|] eqn:Vp; [|discriminate].
      match type of Ec with bind ?t _ = _ => destruct t as [[[h2 w2] b]|e|] eqn:Ep end; cbn [bind] in Ec; try discriminate. inversion Ec; subst h2 w2 y'. exists b. split; [reflexivity|].
      apply (copy_of_keeps (m_heap m) (m_heap m) a h); [apply keeps_refl| |rewrite <- Hh; exact K2|eapply copy_para_of; eauto].
      destruct (para_inv _ _ _ Vp) as (hp & -> & _). discriminate.
    + destruct (H i a Ha) as (b & Hb & Hc). exists b. split; [exact Hb|]. apply (copy_of_keeps (m_heap m) (m_heap m1) a (m_heap m')); [exact K1| |apply keeps_refl|exact Hc].
      destruct (all_some_nth _ _ _ _ _ _ _ El Ha) as (yy & _ & Vy). cbn in Vy. destruct (v_para (m_heap m) a) as [p|] eqn:Vp; [|discriminate]. destruct (para_inv _ _ _ Vp) as (hp & -> & _). discriminate.
Qed.

Lemma append_shares : forall (L : GoLib) d from m W m' W' l0, inv_on false m -> rep m W -> hexec (OAppend d from) m = Ok m' -> rep m' W' -> body W d = Some l0 ->
  forall i p p', para_at W from (ABody i) = Some p -> para_at W' d (ABody (length l0 + i)) = Some p' -> length (para_children p') = length (para_children p) ->
  forall k, run_at W from (ABody i) k <> None -> run_ptr m' d (ABody (length l0 + i)) k = run_ptr m from (ABody i) k.
Proof.
  intros L d from m W m' W' l0 I R E R' B i p p' Hp Hp' Ln k Hk. cbn [hexec] in E. unfold body in B. pose proof (rep_nth m W d R) as N. destruct (nth_error W d) as [x|] eqn:Ex; [|discriminate]. cbn in B. inversion B; subst l0.
  destruct N as (_ & l & Nl & Vl). rewrite Nl in E. unfold h_append_file in E.
  unfold para_at, body in Hp. pose proof (rep_nth m W from R) as Nf. destruct (nth_error W from) as [xf|] eqn:Exf; [|discriminate]. destruct Nf as (_ & lf & Nlf & Vlf). cbn [option_map] in Hp.
  rewrite Nlf in E. destruct (append_of d lf _ m W m' l I R Vlf E Nl) as (l' & Nl' & Ll' & H).
  assert (Len : length (d_items x) = length l) by (apply all_some_len in Vl; congruence).
  pose proof (look_para (m_heap m) lf _ Vlf (ABody i)) as LP. rewrite Hp in LP. destruct LP as (a & Ea & Va).
  assert (Hi : nth_error lf i = Some (HIPara a)) by (cbn in Ea; destruct (nth_error lf i) as [[z|z|z]|]; try discriminate; congruence).
  destruct (H i a Hi) as (b & Hb & hp & hq & D1 & D2 & _ & Hc).
  unfold para_at, body in Hp'. pose proof (rep_nth m' W' d R') as N'. destruct (nth_error W' d) as [x'|] eqn:Ex'; [|discriminate]. destruct N' as (_ & l2 & Nl2 & Vl2). cbn [option_map] in Hp'.
  rewrite Nl' in Nl2. inversion Nl2; subst l2.
  assert (Eb : h_para (m_heap m') (l ++ l') (ABody (length (d_items x) + i)) = Some b).
  { cbn [h_para]. rewrite Len, nth_error_app2 by lia. replace (length l + i - length l) with i by lia. rewrite Hb. reflexivity. }
  pose proof (look_para (m_heap m') (l ++ l') _ Vl2 (ABody (length (d_items x) + i))) as LP'. rewrite Hp' in LP'. destruct LP' as (b' & Eb' & Vb). rewrite Eb in Eb'. inversion Eb'; subst b'.
  destruct (para_inv _ _ _ Va) as (hp1 & D1' & _ & Vc1 & _). rewrite D1 in D1'. inversion D1'; subst hp1.
  destruct (para_inv _ _ _ Vb) as (hq1 & D2' & _ & Vc2 & _). rewrite D2 in D2'. inversion D2'; subst hq1.
  assert (Lc : length (hp_children hq) = length (hp_children hp)) by (apply all_some_len in Vc1; apply all_some_len in Vc2; congruence).
  rewrite !run_ptr_hrun. pose proof (run_look m W from (ABody i) k R) as RL.
  unfold hrun_at in *. rewrite Nlf, Ea, D1 in *. rewrite Nl', Eb, D2.
  destruct (nth_error (hp_children hp) k) as [c|] eqn:Ek; [|congruence]. destruct (Hc Lc k c Ek) as (y & Hy & Hkc). rewrite Hy.
  destruct (run_of_child (m_heap m) c) as [r|] eqn:Er; [|congruence]. destruct (Hkc r Er) as (r' & Er' & Ep). rewrite Er'. exact Ep.
Qed.

Lemma append_shares_now : forall (L : GoLib) d from m W m' W' l0, inv_on false m -> rep m W -> hexec (OAppend d from) m = Ok m' -> rep m' W' -> body W d = Some l0 ->
  forall i p p', para_at W from (ABody i) = Some p -> para_at W' d (ABody (length l0 + i)) = Some p' -> length (para_children p') = length (para_children p) ->
  forall k r, run_at W from (ABody i) k = Some r -> run_ptr m' d (ABody (length l0 + i)) k = run_ptr m' from (ABody i) k /\ run_at W' from (ABody i) k = Some r.
Proof.
  intros L d from m W m' W' l0 I R E R' B i p p' Hp Hp' Ln k r Hk.
  rewrite (append_shares L d from m W m' W' l0 I R E R' B i p p' Hp Hp' Ln k ltac:(congruence)).
  pose proof E as E0. cbn [hexec] in E. unfold body in B. pose proof (rep_nth m W d R) as N. destruct (nth_error W d) as [x|] eqn:Ex; [|discriminate].
  destruct N as (_ & l & Nl & Vl). rewrite Nl in E. unfold h_append_file in E. cbn in B. inversion B; subst l0.
  unfold para_at, body in Hp. pose proof (rep_nth m W from R) as Nf. destruct (nth_error W from) as [xf|] eqn:Exf; [|discriminate]. destruct Nf as (_ & lf & Nlf & Vlf). cbn [option_map] in Hp.
  rewrite Nlf in E. destruct (append_of d lf _ m W m' l I R Vlf E Nl) as (l' & Nl' & _ & _).
  pose proof (append_step d lf _ m W I R Vlf) as P. destruct (append_items d (d_items xf) W) as [W2|e|]; [|congruence|congruence]. destruct P as (m2 & E2 & _ & _ & K & _ & Oth). rewrite E in E2. inversion E2; subst m2.
  assert (HR : hrun_at m' from (ABody i) k = hrun_at m from (ABody i) k).
  { pose proof (look_para (m_heap m) lf _ Vlf (ABody i)) as LP. rewrite Hp in LP. destruct LP as (a & Ea & Va). destruct (para_inv _ _ _ Va) as (hp & D & _ & Vc & _).
    assert (HP : exists lm, nth_error (m_docs m') from = Some lm /\ h_para (m_heap m') lm (ABody i) = Some a).
    { destruct (Nat.eq_dec from d) as [->|Ne].
      - exists (l ++ l'). split; [exact Nl'|]. rewrite Nl in Nlf. inversion Nlf; subst lf. cbn [h_para] in *. rewrite nth_error_app1; [exact Ea|]. apply nth_error_Some. destruct (nth_error l i); [discriminate|discriminate].
      - exists lf. rewrite (Oth from Ne). split; [exact Nlf|exact Ea]. }
    destruct HP as (lm & Nlm & Ea'). unfold hrun_at. rewrite Nlm, Ea', Nlf, Ea, D, (keeps_deref _ as_para _ _ _ _ K D). destruct (nth_error (hp_children hp) k) as [c|] eqn:Ec; [|reflexivity].
    destruct (run_of_child (m_heap m) c) as [r0|] eqn:Er; [apply (run_of_child_keeps _ _ _ _ K Er)|].
    pose proof (run_look m W from (ABody i) k R) as RL. unfold hrun_at in RL. rewrite Nlf, Ea, D, Ec, Er in RL. congruence. }
  rewrite !run_ptr_hrun, HR. split; [reflexivity|].
  pose proof (run_look m W from (ABody i) k R) as RL. pose proof (run_look m' W' from (ABody i) k R') as RL'. rewrite HR in RL'. destruct (hrun_at m from (ABody i) k) as [hr|]; [|congruence].
  destruct RL as (rv & V1 & E1). destruct RL' as (rv' & V2 & E3). rewrite Hk in E1. inversion E1; subst rv. rewrite E3.
  destruct (law_keeps _ _ _ _ law_run (m_heap m) (m_heap m') hr r K V1) as [V1' _]. congruence.
Qed.

Lemma reach_rep : forall (L : GoLib) l m W, h_run_ops l mem0 = Some m -> view m = Some W -> inv_on false m /\ rep m W.
Proof.
  intros L l m W E V. destruct (hist_any L l mem0 [] m (inv0 false) rep0 E) as [(W1 & R) I]. split; [exact I|]. rewrite (rep_view _ _ R) in V. inversion V; subst. exact R.
Qed.
Lemma step_rep : forall (L : GoLib) o m W m' W', inv_on false m -> rep m W -> hexec o m = Ok m' -> view m' = Some W' -> inv_on false m' /\ rep m' W'.
Proof.
  intros L o m W m' W' I R E V. assert (E1 : h_run_ops [o] m = Some m') by (cbn; rewrite E; reflexivity).
  destruct (hist_any L [o] m W m' I R E1) as [(W1 & R1) I1]. split; [exact I1|]. rewrite (rep_view _ _ R1) in V. inversion V; subst. exact R1.
Qed.

(** the theorems *)
Lemma own_spec : forall (L : GoLib) l, apart l mem0 -> same_history l mem0 [].
Proof. intros L l H. apply hist_apart; [apply inv0|apply rep0|exact H]. Qed.
Lemma before_copy_spec : forall (L : GoLib) l1 l2, (forall o, In o l1 -> copies o = false) -> (forall o, In o l2 -> formats o = false) -> same_history (l1 ++ l2) mem0 [].
Proof.
  intros L l1 l2 H1 H2. apply hist_apart; [apply inv0|apply rep0|]. eapply apart_app; [apply inv0|apply rep0| |]; apply forallb_forall; intros o Ho; apply negb_true_iff; auto.
Qed.
Lemma other_spec : forall (L : GoLib) l m W o m' W' s, h_run_ops l mem0 = Some m -> view m = Some W -> hexec o m = Ok m' -> view m' = Some W' ->
  target o <> Some s -> s < length W -> (forall b, In b (written o m) -> ~ In b (reach_of m s)) -> body W' s = body W s.
Proof.
  intros L l m W o m' W' s E V E1 V1 T Ls D. destruct (reach_rep L l m W E V) as [I R]. destruct (step_rep L o m W m' W' I R E1 V1) as [_ R1].
  eapply other_body; eauto.
Qed.
Lemma style_spec : forall (L : GoLib) l m W d a k o m' W', h_run_ops l mem0 = Some m -> view m = Some W -> styles o = true ->
  hexec (OPara d a (ORun k o)) m = Ok m' -> view m' = Some W' ->
  exists b, run_ptr m d a k = Some b /\
  forall d2 a2 k2,
    (run_ptr m d2 a2 k2 = Some b -> exists r, run_at W d2 a2 k2 = Some r /\ after o r <> None /\ run_at W' d2 a2 k2 = after o r) /\
    (run_ptr m d2 a2 k2 <> Some b -> run_at W' d2 a2 k2 = run_at W d2 a2 k2).
Proof.
  intros L l m W d a k o m' W' E V St E1 V1. destruct (reach_rep L l m W E V) as [I R]. destruct (step_rep L _ m W m' W' I R E1 V1) as [_ R1].
  eapply style_exact; eauto.
Qed.
Lemma shared_spec : forall (L : GoLib) l m W d from m1 W1 l0 i p p1 k r o m2 W2, h_run_ops l mem0 = Some m -> view m = Some W ->
  hexec (OAppend d from) m = Ok m1 -> view m1 = Some W1 -> body W d = Some l0 ->
  para_at W from (ABody i) = Some p -> para_at W1 d (ABody (length l0 + i)) = Some p1 -> length (para_children p1) = length (para_children p) ->
  run_at W from (ABody i) k = Some r -> styles o = true ->
  hexec (OPara d (ABody (length l0 + i)) (ORun k o)) m1 = Ok m2 -> view m2 = Some W2 ->
  run_at W2 from (ABody i) k = after o r.
Proof.
  intros L l m W d from m1 W1 l0 i p p1 k r o m2 W2 E V E1 V1 B Hp Hp1 Ln Hr St E2 V2. destruct (reach_rep L l m W E V) as [I R]. destruct (step_rep L _ m W m1 W1 I R E1 V1) as [I1 R1].
  destruct (step_rep L _ m1 W1 m2 W2 I1 R1 E2 V2) as [_ R2].
  destruct (append_shares_now L d from m W m1 W1 l0 I R E1 R1 B i p p1 Hp Hp1 Ln k r Hr) as [EP ER].
  destruct (style_exact L d (ABody (length l0 + i)) k o m1 W1 m2 W2 R1 St E2 R2) as (b & Hb & H). destruct (H from (ABody i) k) as [H1 _]. rewrite <- EP in H1.
  destruct (H1 Hb) as (r' & Hr' & _ & ->). congruence.
Qed.
Lemma content_spec : forall (L : GoLib) l m W o m' W' s, h_run_ops l mem0 = Some m -> view m = Some W -> hexec o m = Ok m' -> view m' = Some W' ->
  target o <> Some s -> s < length W -> formats o = false -> body W' s = body W s.
Proof. intros L l m W o m' W' s E V E1 V1 T Ls F. eapply other_spec; eauto. rewrite (formats_written o m F). intros b []. Qed.
