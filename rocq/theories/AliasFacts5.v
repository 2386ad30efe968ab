(** Documents in memory: a call on a paragraph does what the model on values says. *)
From Coq Require Import String List Bool Arith Lia.
From Verif Require Import GoStr Num Lib Types Docx Api Keep Copy History RegFacts Alias SpecAlias AliasFacts AliasFacts2 AliasFacts3 AliasFacts4.
Import ListNotations.
Local Open Scope list_scope.

Lemma para_write : forall h a hp q c, deref as_para h a <> None ->
  maybe (deref as_ppr h) (hp_ppr hp) = Some q -> all_some (v_child h) (hp_children hp) = Some c ->
  ~ In a (flat_map (reach_child h) (hp_children hp)) ->
  let h' := upd h a (OHPara hp) in
  v_para h' a = Some (mk_para q c (hp_file hp)) /\ reach_para h' a = a :: ptr (hp_ppr hp) ++ flat_map (reach_child h) (hp_children hp) /\
  kinds h h' /\ touched h h' [a].
Proof.
  intros h a hp q c D Vq Vc Ha h'. destruct (deref as_para h a) as [p|] eqn:Dp; [|tauto]. clear D.
  assert (T : touched h h' [a]) by apply touched_upd.
  destruct (touched_agree _ _ _ _ (law_prop _ as_ppr) h h' [a] (hp_ppr hp) q Vq T) as [Vq' _].
  { intros b [<-|[]] Hin. destruct (hp_ppr hp) as [z|]; [|destruct Hin]. destruct Hin as [->|[]]. cbn in Vq.
    destruct (deref as_ppr h a) as [y|] eqn:E; [|discriminate]. pose proof (c_ppr _ _ _ E). pose proof (c_para _ _ _ Dp). congruence. }
  destruct (touched_agree _ _ _ _ law_children h h' [a] _ c Vc T) as [Vc' Rc']; [intros b [<-|[]]; exact Ha|].
  assert (D' : deref as_para h' a = Some hp) by (unfold h'; rewrite deref_upd by (eapply deref_bound; eauto); reflexivity).
  split; [|split; [|split; [|exact T]]].
  - unfold v_para. rewrite D', Vq', Vc'. reflexivity.
  - unfold reach_para. rewrite D'. rewrite Rc'. reflexivity.
  - apply kinds_upd. rewrite (c_para _ _ _ Dp). reflexivity.
Qed.

Definition pop_spec `{GoLib} (o : pop) (a : nat) (h : heap) (w : world) (x : res (world * para)) : Prop :=
  match x with
  | Ok (w', p') => exists h' S, h_pop o a (h, map strip w) = Ok (h', map strip w') /\ touched h h' S /\ incl S (reach_para h a) /\
      (forall b, In b S -> cont h b = true \/ In b (written_pop h o a)) /\
      v_para h' a = Some p' /\ grows h (reach_para h a) (reach_para h' a) /\ kinds h h'
  | Err e => h_pop o a (h, map strip w) = Err e
  | Panic => h_pop o a (h, map strip w) = Panic
  end.

Lemma grows_le : forall A B (v : heap -> A -> option B) r, lawful v r -> forall h x y L', v h x = Some y ->
  (forall b, cnt L' b <= cnt (r h x) b) -> grows h (r h x) L'.
Proof.
  intros A B v r L h x y L' V H b. split; [intros _; apply H|]. intros Hb. specialize (H b).
  assert (E : cnt (r h x) b = 0); [|lia]. apply cnt_notin. intros Hin. apply (l_bound _ _ L h x y V) in Hin. lia.
Qed.

Lemma pop_content : forall (L : GoLib) o, is_content o = true -> forall a h w p, v_para h a = Some p -> owned h (reach_para h a) ->
  pop_spec o a h w (exec_pop o w p).
Proof.
  intros L o Ho a h w p V O. rewrite (content_pop L o Ho). destruct (para_inv _ _ _ V) as (hp & D & Vq & Vc & Ef).
  assert (EH : h_pop o a (h, map strip w) = bind (exec_pop o (map strip w) (mk_para None [] (hp_file hp))) (fun '(w', q) =>
          let '(h1, c) := al_list al_child (para_children q) h in
          Ok (upd h1 a (OHPara (mk_hpara (hp_ppr hp) (hp_children hp ++ c)%list (hp_file hp))), w'))).
  { unfold h_pop. rewrite D. destruct o; cbn in Ho; try discriminate; reflexivity. }
  rewrite pop_strip, Ef in EH. unfold pop_spec.
  destruct (exec_pop o w (mk_para None [] (para_file p))) as [[w' q]|e|]; cbn [bind sres] in *; try exact EH.
  destruct (al_list al_child (para_children q) h) as [h1 c] eqn:Ea.
  destruct (makes_children _ _ _ _ Ea) as (K & V1 & N1 & G1). pose proof (keeps_len _ _ K) as Kl.
  pose proof (deref_bound _ _ _ _ _ D) as Hlt.
  assert (Hna : ~ In a (ptr (hp_ppr hp) ++ flat_map (reach_child h) (hp_children hp))).
  { intros Hin. specialize (O a (c_para _ _ _ D)). unfold reach_para in O. rewrite D in O. apply cnt_in in Hin. cbn [count_occ] in O.
    destruct (Nat.eq_dec a a); [lia|tauto]. }
  destruct (law_keeps _ _ _ _ (law_prop _ as_ppr) h h1 _ _ K Vq) as [Vq1 _].
  destruct (law_keeps _ _ _ _ law_children h h1 _ _ K Vc) as [Vc1 Rc1].
  assert (Hfm : flat_map (reach_child h1) (hp_children hp ++ c) = flat_map (reach_child h) (hp_children hp) ++ flat_map (reach_child h1) c).
  { rewrite flat_map_app. rewrite Rc1. reflexivity. }
  destruct (para_write h1 a (mk_hpara (hp_ppr hp) (hp_children hp ++ c) (hp_file hp)) (para_ppr p) (para_children p ++ para_children q)) as (W1 & W2 & W3 & W4).
  { rewrite (keeps_deref _ as_para h h1 a hp K D). discriminate. }
  { exact Vq1. }
  { cbn [hp_children]. apply all_some_app; assumption. }
  { cbn [hp_children]. rewrite Hfm. intros Hin. apply in_app_or in Hin. destruct Hin as [Hin|Hin].
    - apply Hna. apply in_or_app. auto.
    - apply G1 in Hin. lia. }
  exists (upd h1 a (OHPara (mk_hpara (hp_ppr hp) (hp_children hp ++ c) (hp_file hp)))), [a].
  split; [rewrite Ef; exact EH|]. split; [apply (touched_trans h h1 _ [] [a]); [apply touched_keeps; exact K|exact W4]|].
  split; [intros b [<-|[]]; unfold reach_para; simpl; auto|]. split; [intros b [<-|[]]; left; eapply c_para; eauto|].
  split; [rewrite W1; cbn [hp_file]; rewrite Ef; reflexivity|]. split.
  - rewrite W2. cbn [hp_children hp_ppr]. rewrite Hfm. intros b. unfold reach_para. rewrite D. cbn [count_occ]. rewrite !cnt_app. split.
    + intros Hc. assert (Z : cnt (flat_map (reach_child h1) c) b = 0).
      { apply cnt_notin. intros Hin. apply G1 in Hin. lia. }
      destruct (Nat.eq_dec a b); lia.
    + intros Hb. destruct (Nat.eq_dec a b); [lia|].
      assert (Z1 : cnt (ptr (hp_ppr hp)) b = 0).
      { apply cnt_notin. intros Hin. apply (l_bound _ _ (law_prop _ as_ppr) h _ _ Vq) in Hin. lia. }
      assert (Z2 : cnt (flat_map (reach_child h) (hp_children hp)) b = 0).
      { apply cnt_notin. intros Hin. apply (l_bound _ _ law_children h _ _ Vc) in Hin. lia. }
      pose proof (cnt_nodup _ b N1). lia.
  - apply (kinds_trans _ h1); [exact Kl|apply kinds_keeps; exact K|exact W3].
Qed.

Lemma pop_format : forall (L : GoLib) o f, pop_set o = Some f -> forall w p,
  exec_pop o w p = Ok (w, set_para_ppr (Some (f (the_ppr p))) p).
Proof. intros L o f E w p. destruct o; cbn in E; inversion E; subst; reflexivity. Qed.
Lemma h_pop_format : forall (L : GoLib) o f, pop_set o = Some f -> forall a h w p, deref as_para h a = Some p ->
  h_pop o a (h, w) = match hp_ppr p with
              | None =>
                  let '(h1, b) := alloc (OPpr (f ppr0)) h in
                  Ok (upd h1 a (OHPara (mk_hpara (Some b) (hp_children p) (hp_file p))), w)
              | Some b =>
                  match deref as_ppr h b with
                  | None => Panic
                  | Some q => Ok (upd h b (OPpr (f q)), w)
                  end
              end.
Proof. intros L o f E a h w p D. unfold h_pop. rewrite D. destruct o; cbn in E; inversion E; subst; reflexivity. Qed.
Lemma written_pop_format : forall o f, pop_set o = Some f -> forall a h p, deref as_para h a = Some p -> written_pop h o a = ptr (hp_ppr p).
Proof. intros o f E a h p D. unfold written_pop. rewrite D. destruct o; cbn in E; inversion E; subst; reflexivity. Qed.

Lemma pop_fmt : forall (L : GoLib) o f, pop_set o = Some f -> forall a h w p, v_para h a = Some p -> owned h (reach_para h a) ->
  (forall b, In b (written_pop h o a) -> cnt (reach_para h a) b <= 1) -> pop_spec o a h w (exec_pop o w p).
Proof.
  intros L o f E a h w p V O C. rewrite (pop_format L o f E). destruct (para_inv _ _ _ V) as (hp & D & Vq & Vc & Ef).
  pose proof (h_pop_format L o f E a h (map strip w) hp D) as EH. rewrite (written_pop_format o f E a h hp D) in C.
  pose proof (deref_bound _ _ _ _ _ D) as Hlt.
  assert (Hna : ~ In a (ptr (hp_ppr hp) ++ flat_map (reach_child h) (hp_children hp))).
  { intros Hin. specialize (O a (c_para _ _ _ D)). unfold reach_para in O. rewrite D in O. apply cnt_in in Hin. cbn [count_occ] in O.
    destruct (Nat.eq_dec a a); [lia|tauto]. }
  unfold pop_spec. rewrite (written_pop_format o f E a h hp D). unfold the_ppr.
  destruct (hp_ppr hp) as [b|] eqn:Eb.
  - cbn in Vq. destruct (deref as_ppr h b) as [q|] eqn:Dq; [|discriminate]. inversion Vq as [Hq].
    exists (upd h b (OPpr (f q))), [b]. split; [exact EH|]. split; [apply touched_upd|].
    split; [intros x [<-|[]]; unfold reach_para; rewrite D, Eb; simpl; auto|]. split; [intros x [<-|[]]; right; simpl; auto|].
    assert (Nab : b <> a) by (intros ->; apply Hna; simpl; auto).
    assert (D' : deref as_para (upd h b (OPpr (f q))) a = Some hp).
    { rewrite <- D. apply deref_agree. apply set_nth_other. exact Nab. }
    destruct (touched_agree _ _ _ _ law_children h (upd h b (OPpr (f q))) [b] _ _ Vc (touched_upd h b _)) as [Vc' Rc'].
    { intros x [<-|[]] Hin. specialize (C b (or_introl eq_refl)). unfold reach_para in C. rewrite D, Eb in C. cbn [ptr app count_occ] in C.
      apply cnt_in in Hin. destruct (Nat.eq_dec a b); destruct (Nat.eq_dec b b); try tauto; lia. }
    split; [|split].
    + unfold v_para. rewrite D', Eb. cbn [maybe]. rewrite deref_upd by (eapply deref_bound; eauto). cbn [as_ppr]. rewrite Vc'.
      destruct p as [[q0 c0 f0]]. cbn in *. rewrite Ef. reflexivity.
    + assert (R' : reach_para (upd h b (OPpr (f q))) a = reach_para h a) by (unfold reach_para; rewrite D', D, Rc'; reflexivity).
      rewrite R'. apply (grows_le _ _ _ _ law_para h a p _ V). intros x. lia.
    + apply kinds_upd. rewrite (c_ppr _ _ _ Dq). reflexivity.
  - cbn in Vq. inversion Vq as [Hq]. cbn in EH. set (h1 := h ++ [OPpr (f ppr0)]) in *.
    assert (K : keeps h h1) by apply keeps_alloc.
    destruct (law_keeps _ _ _ _ law_children h h1 _ _ K Vc) as [Vc1 Rc1].
    destruct (para_write h1 a (mk_hpara (Some (length h)) (hp_children hp) (hp_file hp)) (Some (f ppr0)) (para_children p)) as (W1 & W2 & W3 & W4).
    { rewrite (keeps_deref _ as_para h h1 a hp K D). discriminate. }
    { cbn. unfold h1. rewrite deref_new. reflexivity. }
    { exact Vc1. }
    { cbn [hp_children]. rewrite Rc1. intros Hin. apply Hna. exact Hin. }
    eexists; exists [a]. split; [exact EH|]. split; [apply (touched_trans h h1 _ [] [a]); [apply touched_keeps; exact K|exact W4]|].
    split; [intros x [<-|[]]; unfold reach_para; simpl; auto|]. split; [intros x [<-|[]]; left; eapply c_para; eauto|].
    split; [rewrite W1; cbn [hp_file]; destruct p as [[q0 c0 f0]]; cbn in *; subst; reflexivity|]. split.
    + rewrite W2. cbn [hp_children hp_ppr ptr app]. rewrite Rc1. intros x. unfold reach_para. rewrite D, Eb. cbn [ptr app count_occ]. split.
      * intros Hc. destruct (Nat.eq_dec (length h) x); [lia|]. lia.
      * intros Hx. assert (Z2 : cnt (flat_map (reach_child h) (hp_children hp)) x = 0).
        { apply cnt_notin. intros Hin. apply (l_bound _ _ law_children h _ _ Vc) in Hin. lia. }
        destruct (Nat.eq_dec a x); [lia|]. destruct (Nat.eq_dec (length h) x); lia.
    + apply (kinds_trans _ h1); [apply keeps_len; exact K|apply kinds_keeps; exact K|exact W3].
Qed.

Lemma pchild_type_view : forall h x y, v_child h x = Some y -> pchild_type y = hchild_type x.
Proof.
  intros h [a|a|q] y E; cbn in E; [| |inversion E; reflexivity].
  - destruct (deref as_run h a); [|discriminate]. destruct (v_run h h0); [|discriminate]. inversion E; reflexivity.
  - destruct (deref as_link h a) as [[id r]|]; [|discriminate]. destruct (v_run h r); [|discriminate]. inversion E; reflexivity.
Qed.

(** a call on a run that is the object (or inside the object) at [b] *)
Lemma child_rop : forall o h c cv r rv mko as_,
  forall b, (forall h2 r2 rv2, deref as_ h2 b = Some r2 -> v_run h2 r2 = Some rv2 -> v_child h2 c = Some (cv rv2)) ->
  (forall h2 r2, deref as_ h2 b = Some r2 -> reach_child h2 c = b :: reach_run h2 r2) ->
  (forall r2, as_ (mko r2) = Some r2 /\ is_cont (mko r2) = true) ->
  deref as_ h b = Some r -> cont h b = true -> v_run h r = Some rv ->
  owned h (reach_child h c) -> (forall x, In x (written_rop h o r) -> cnt (reach_child h c) x <= 1) ->
  match exec_rop o rv with
  | Ok rv' => exists h1 r1, h_rop o r h = Ok (h1, r1) /\
      touched h (upd h1 b (mko r1)) (written_rop h o r ++ [b]) /\ incl (written_rop h o r ++ [b]) (reach_child h c) /\
      v_child (upd h1 b (mko r1)) c = Some (cv rv') /\
      (forall x, cnt (reach_child (upd h1 b (mko r1)) c) x <= cnt (reach_child h c) x) /\ kinds h (upd h1 b (mko r1)) /\ length (upd h1 b (mko r1)) = length h
  | Err e => h_rop o r h = Err e
  | Panic => h_rop o r h = Panic
  end.
Proof.
  intros o h c cv r rv mko as_ b HV HR HM D Hb V O C.
  assert (C' : forall x, In x (written_rop h o r) -> cnt (reach_run h r) x <= 1).
  { intros x Hx. specialize (C x Hx). rewrite (HR h r D) in C. cbn [count_occ] in C. destruct (Nat.eq_dec b x); lia. }
  pose proof (rop_step o r rv h V C') as ST. unfold rop_spec in ST. destruct (exec_rop o rv) as [rv'|e|]; [|exact ST|exact ST].
  destruct ST as (h1 & r1 & E1 & T1 & L1 & K1 & V1 & N1 & I1 & NC1). exists h1, r1. split; [exact E1|].
  assert (Hbr : ~ In b (reach_run h r)).
  { intros Hin. specialize (O b Hb). rewrite (HR h r D) in O. apply cnt_in in Hin. cbn [count_occ] in O. destruct (Nat.eq_dec b b); [lia|tauto]. }
  assert (Hbr1 : ~ In b (reach_run h1 r1)).
  { intros Hin. apply cnt_in in Hin. specialize (N1 b). apply cnt_notin in Hbr. lia. }
  assert (Hlt : b < length h1) by (rewrite L1; apply cont_bound; exact Hb).
  destruct (touched_agree _ _ _ _ law_run h1 (upd h1 b (mko r1)) [b] r1 rv' V1 (touched_upd h1 b _)) as [V2 R2].
  { intros x [<-|[]]. exact Hbr1. }
  assert (D2 : deref as_ (upd h1 b (mko r1)) b = Some r1) by (rewrite deref_upd by exact Hlt; apply HM).
  split; [eapply touched_trans; [exact T1|apply touched_upd]|]. split.
  { rewrite (HR h r D). intros x Hx. apply in_app_or in Hx. destruct Hx as [Hx|[<-|[]]]; simpl; auto. }
  split; [apply (HV _ r1); assumption|]. split; [|split].
  - intros x. rewrite (HR _ r1 D2), (HR h r D), R2. cbn [count_occ]. specialize (N1 x). destruct (Nat.eq_dec b x); lia.
  - apply (kinds_trans _ h1); [lia|exact K1|]. apply kinds_upd. rewrite (K1 b) by (apply cont_bound; exact Hb). rewrite Hb. symmetry. apply HM.
  - rewrite upd_len. exact L1.
Qed.

Lemma pop_run : forall (L : GoLib) k ro a h w p, v_para h a = Some p -> owned h (reach_para h a) ->
  (forall b, In b (written_pop h (ORun k ro) a) -> cnt (reach_para h a) b <= 1) -> pop_spec (ORun k ro) a h w (exec_pop (ORun k ro) w p).
Proof.
  intros L k ro a h w p V O C. destruct (para_inv _ _ _ V) as (hp & D & Vq & Vc & Ef).
  unfold pop_spec. cbn [exec_pop]. unfold h_pop, written_pop in *. rewrite D in *.
  destruct (nth_error (hp_children hp) k) as [c|] eqn:Ek.
  2:{ rewrite (all_some_none _ _ _ _ _ _ Vc Ek). reflexivity. }
  destruct (all_some_nth _ _ _ _ _ _ _ Vc Ek) as (cv & Ek' & Ec). rewrite Ek'.
  assert (Hle : forall b, cnt (reach_child h c) b <= cnt (reach_para h a) b).
  { intros b. unfold reach_para. rewrite D. cbn [count_occ]. rewrite cnt_app. pose proof (in_sub _ (reach_child h) _ _ _ Ek b). destruct (Nat.eq_dec a b); lia. }
  assert (Oc : owned h (reach_child h c)) by (intros b Hb; specialize (O b Hb); specialize (Hle b); lia).
  destruct c as [b|b|q]; cbn [v_child run_of_child] in Ec, C |- *.
  - destruct (deref as_run h b) as [r|] eqn:Db; [|discriminate]. destruct (v_run h r) as [rv|] eqn:Vr; [|discriminate]. inversion Ec; subst cv.
    assert (CR := child_rop ro h (HRun b) (fun rv => PRun rv) r rv OHRun as_run b).
    specialize (CR ltac:(intros h2 r2 rv2 E1 E2; cbn; rewrite E1, E2; reflexivity) ltac:(intros h2 r2 E1; cbn; rewrite E1; reflexivity)
      (fun r2 => conj eq_refl eq_refl) Db (c_run _ _ _ Db) Vr Oc).
    assert (Hc : forall x, In x (written_rop h ro r) -> cnt (reach_child h (HRun b)) x <= 1).
    { intros x Hx. specialize (C x Hx). specialize (Hle x). lia. }
    specialize (CR Hc). destruct (exec_rop ro rv) as [rv'|e|]; cbn [bind]; [|rewrite CR; reflexivity|rewrite CR; reflexivity].
    destruct CR as (h1 & r1 & E1 & T1 & I1 & V1 & N1 & K1 & L1). rewrite E1. cbn [bind].
    assert (Hone : forall x, In x (written_rop h ro r ++ [b]) -> cnt (reach_para h a) x <= 1).
    { intros x Hx. apply in_app_or in Hx. destruct Hx as [Hx|[<-|[]]]; [auto|]. apply O. eapply c_run; eauto. }
    destruct (para_focus h _ _ a hp k p (HRun b) _ V D Ek I1 Hone T1 V1) as (pv & ys & Ep & Ey & Et & Hs' & V2 & C2).
    rewrite Vc in Ey. inversion Ey; subst ys. exists (upd h1 b (OHRun r1)), (written_rop h ro r ++ [b]).
    split; [reflexivity|]. split; [exact T1|]. split; [exact Hs'|]. split.
    { intros x Hx. apply in_app_or in Hx. destruct Hx as [Hx|[<-|[]]]; [auto|]. left. eapply c_run; eauto. }
    split; [unfold v_para; rewrite V2; rewrite Et; destruct p as [[q0 c0 f0]]; reflexivity|]. split; [|exact K1].
    apply (grows_le _ _ _ _ law_para h a p _ V). intros x. specialize (C2 x). specialize (N1 x). unfold reach_para. lia.
  - destruct (deref as_link h b) as [[id r]|] eqn:Db; [|discriminate]. destruct (v_run h r) as [rv|] eqn:Vr; [|discriminate]. inversion Ec; subst cv.
    assert (Gi : forall h2 r2, deref (fun o => match o with OHLink id' r' => if String.eqb id' id then Some r' else None | _ => None end) h2 b = Some r2 -> deref as_link h2 b = Some (id, r2)).
    { intros h2 r2 E. unfold deref in *. destruct (nth_error h2 b) as [[]|]; try discriminate. destruct (String.eqb_spec id0 id); [|discriminate]. inversion E; subst. reflexivity. }
    assert (CR := child_rop ro h (HLink b) (fun rv => PLink id rv) r rv (OHLink id)
        (fun o => match o with OHLink id' r' => if String.eqb id' id then Some r' else None | _ => None end) b).
    specialize (CR ltac:(intros h2 r2 rv2 E1 E2; cbn; rewrite (Gi h2 r2 E1), E2; reflexivity) ltac:(intros h2 r2 E1; cbn; rewrite (Gi h2 r2 E1); reflexivity)
      ltac:(intros r2; cbn beta iota; rewrite String.eqb_refl; split; reflexivity)).
    assert (Db' : deref (fun o => match o with OHLink id' r' => if String.eqb id' id then Some r' else None | _ => None end) h b = Some r).
    { unfold deref in *. destruct (nth_error h b) as [[]|]; try discriminate. inversion Db; subst. rewrite String.eqb_refl. reflexivity. }
    specialize (CR Db' (c_link _ _ _ Db) Vr Oc). cbn [option_map snd] in C.
    assert (Hc : forall x, In x (written_rop h ro r) -> cnt (reach_child h (HLink b)) x <= 1).
    { intros x Hx. specialize (C x Hx). specialize (Hle x). lia. }
    specialize (CR Hc). destruct (exec_rop ro rv) as [rv'|e|]; cbn [bind]; [|rewrite CR; reflexivity|rewrite CR; reflexivity].
    destruct CR as (h1 & r1 & E1 & T1 & I1 & V1 & N1 & K1 & L1). rewrite E1. cbn [bind option_map snd].
    assert (Hone : forall x, In x (written_rop h ro r ++ [b]) -> cnt (reach_para h a) x <= 1).
    { intros x Hx. apply in_app_or in Hx. destruct Hx as [Hx|[<-|[]]]; [auto|]. apply O. eapply c_link; eauto. }
    destruct (para_focus h _ _ a hp k p (HLink b) _ V D Ek I1 Hone T1 V1) as (pv & ys & Ep & Ey & Et & Hs' & V2 & C2).
    rewrite Vc in Ey. inversion Ey; subst ys. exists (upd h1 b (OHLink id r1)), (written_rop h ro r ++ [b]).
    split; [reflexivity|]. split; [exact T1|]. split; [exact Hs'|]. split.
    { intros x Hx. apply in_app_or in Hx. destruct Hx as [Hx|[<-|[]]]; [auto|]. left. eapply c_link; eauto. }
    split; [unfold v_para; rewrite V2; rewrite Et; destruct p as [[q0 c0 f0]]; reflexivity|]. split; [|exact K1].
    apply (grows_le _ _ _ _ law_para h a p _ V). intros x. specialize (C2 x). specialize (N1 x). unfold reach_para. lia.
  - inversion Ec; subst. reflexivity.
Qed.

Lemma pop_step : forall (L : GoLib) o a h w p, v_para h a = Some p -> owned h (reach_para h a) ->
  (forall b, In b (written_pop h o a) -> cnt (reach_para h a) b <= 1) -> pop_spec o a h w (exec_pop o w p).
Proof.
  intros L o a h w p V O C.
  destruct (is_content o) eqn:E1; [apply pop_content; assumption|].
  destruct (pop_set o) as [f|] eqn:E2; [eapply pop_fmt; eauto|].
  destruct o; cbn in E1, E2; try discriminate.
  - (* KeepElements *)
    destruct (para_inv _ _ _ V) as (hp & D & Vq & Vc & Ef). unfold pop_spec. cbn [exec_pop]. unfold h_pop. rewrite D.
    assert (Hle : forall b, cnt (flat_map (reach_child h) (keep_named hchild_type names (hp_children hp))) b <= cnt (flat_map (reach_child h) (hp_children hp)) b).
    { intros b. apply keep_named_cnt. }
    destruct (para_write h a (mk_hpara (hp_ppr hp) (keep_named hchild_type names (hp_children hp)) (hp_file hp)) (para_ppr p) (keep_named pchild_type names (para_children p))) as (W1 & W2 & W3 & W4).
    { congruence. }
    { exact Vq. }
    { cbn [hp_children]. apply (keep_named_view _ _ hchild_type pchild_type _ names (pchild_type_view h) _ _ Vc). }
    { cbn [hp_children]. intros Hin. apply cnt_in in Hin. specialize (O a (c_para _ _ _ D)). unfold reach_para in O. rewrite D in O. cbn [count_occ] in O.
      rewrite cnt_app in O. specialize (Hle a). destruct (Nat.eq_dec a a); [lia|tauto]. }
    eexists; exists [a]. split; [reflexivity|]. split; [exact W4|]. split; [intros x [<-|[]]; unfold reach_para; simpl; auto|].
    split; [intros x [<-|[]]; left; eapply c_para; eauto|]. split; [rewrite W1; cbn [hp_file]; rewrite Ef; reflexivity|]. split; [|exact W3].
    rewrite W2. apply (grows_le _ _ _ _ law_para h a p _ V). intros x. cbn [hp_ppr hp_children]. unfold reach_para. rewrite D. cbn [count_occ]. rewrite !cnt_app. specialize (Hle x).
    destruct (Nat.eq_dec a x); lia.
  - (* Drop *)
    destruct (para_inv _ _ _ V) as (hp & D & Vq & Vc & Ef). unfold pop_spec. cbn [exec_pop]. unfold h_pop. rewrite D.
    destruct (inplace_drop_para name h a p V O) as (S & T & I & Cc & V' & N & K & Ln).
    exists (h_drop_para name a h), S. split; [reflexivity|]. split; [exact T|]. split; [exact I|]. split; [auto|]. split; [exact V'|]. split; [|exact K].
    apply (grows_le _ _ _ _ law_para h a p _ V). exact N.
  - apply pop_run; assumption.
Qed.
