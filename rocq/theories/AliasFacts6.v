(** Documents in memory: copying makes what the model on values says, and new
    objects for everything that holds a list. *)
From Coq Require Import String List Bool Arith Lia.
From Verif Require Import GoStr Num Lib Types Docx Api Keep Copy History RegFacts Alias SpecAlias AliasFacts AliasFacts2 AliasFacts3 AliasFacts4 AliasFacts5.
Import ListNotations.
Local Open Scope list_scope.

(** lists reached from the copy are new, each once *)
Definition fresh (h h' : heap) (L : list nat) : Prop :=
  forall b, (cont h b = true -> cnt L b = 0) /\ (length h <= b -> cont h' b = true -> cnt L b <= 1).

Lemma fresh_nil : forall h h', fresh h h' []. Proof. intros h h' b. cbn. split; intros; lia. Qed.
Lemma fresh_app : forall h h1 h2 L1 L2, keeps h h1 -> keeps h1 h2 -> fresh h h1 L1 -> fresh h1 h2 L2 -> (forall b, In b L1 -> b < length h1) -> fresh h h2 (L1 ++ L2).
Proof.
  intros h h1 h2 L1 L2 K1 K2 F1 F2 B b. rewrite cnt_app. destruct (F1 b) as [A1 A2]. destruct (F2 b) as [B1 B2]. split.
  - intros Hc. rewrite A1 by exact Hc. rewrite B1; [reflexivity|]. rewrite (kinds_keeps h h1 K1 b); [exact Hc|]. apply cont_bound. exact Hc.
  - intros Hb Hc. destruct (Nat.lt_ge_cases b (length h1)) as [Hlt|Hge].
    + assert (Hc1 : cont h1 b = true) by (rewrite <- (kinds_keeps h1 h2 K2 b Hlt); exact Hc). rewrite (B1 Hc1). specialize (A2 Hb Hc1). lia.
    + assert (Z : cnt L1 b = 0) by (apply cnt_notin; intros Hin; apply B in Hin; lia). specialize (B2 Hge Hc). lia.
Qed.

Definition cspec {A A' B B'} (hf : A -> st -> res (st * A')) (vf : B -> world -> res (world * B'))
  (v : heap -> A -> option B) (v' : heap -> A' -> option B') (r' : heap -> A' -> list nat) : Prop :=
  forall h w x y, v h x = Some y ->
  match vf y w with
  | Ok (w', y') => exists h' x', hf x (h, map strip w) = Ok ((h', map strip w'), x') /\ keeps h h' /\ v' h' x' = Some y' /\
      fresh h h' (r' h' x') /\ map d_items w' = map d_items w
  | Err e => hf x (h, map strip w) = Err e
  | Panic => hf x (h, map strip w) = Panic
  end.

Lemma cspec_list : forall A A' B B' (hf : A -> st -> res (st * A')) (vf : B -> world -> res (world * B')) v r v' r',
  lawful v r -> lawful v' r' -> cspec hf vf v v' r' ->
  cspec (st_list hf) (copy_list vf) (fun h l => all_some (v h) l) (fun h l => all_some (v' h) l) (fun h l => flat_map (r' h) l).
Proof.
  intros A A' B B' hf vf v r v' r' L L' C h w l. revert h w. induction l as [|x l IH]; intros h w ys V; cbn in V.
  - inversion V; subst. cbn. exists h, []. repeat split; auto; try apply keeps_refl; cbn; lia.
  - destruct (v h x) as [y|] eqn:Ex; [|discriminate]. destruct (all_some (v h) l) as [zs|] eqn:El; [|discriminate]. inversion V; subst ys.
    cbn [copy_list st_list]. pose proof (C h w x y Ex) as C1. destruct (vf y w) as [[w1 y1]|e|]; cbn [bind]; [|rewrite C1; reflexivity|rewrite C1; reflexivity].
    destruct C1 as (h1 & x1 & E1 & K1 & V1 & F1 & I1). rewrite E1. cbn [bind].
    destruct (law_keeps _ _ _ _ (law_list _ _ _ _ L) h h1 l zs K1 El) as [El1 _].
    pose proof (IH h1 w1 zs El1) as C2. destruct (copy_list vf zs w1) as [[w2 ys2]|e|]; cbn [bind]; [|rewrite C2; reflexivity|rewrite C2; reflexivity].
    destruct C2 as (h2 & l2 & E2 & K2 & V2 & F2 & I2). rewrite E2. cbn [bind].
    destruct (law_keeps _ _ _ _ L' h1 h2 x1 y1 K2 V1) as [V1' R1].
    exists h2, (x1 :: l2). split; [reflexivity|]. split; [eapply keeps_trans; eauto|]. split; [cbn; rewrite V1', V2; reflexivity|]. split; [|congruence].
    cbn [flat_map]. rewrite R1. apply (fresh_app h h1 h2); auto. intros b Hb. exact (l_bound _ _ L' h1 x1 y1 V1 b Hb).
Qed.

(** an object with properties and a list; the properties are shared *)
Lemma cspec_obj : forall C Q A A1 A' B B1 B' Y (as_ : obj -> option C) (as1 : obj -> option Q) (p : C -> option nat) (q : C -> list A) (q' : C -> list A')
  (hf : C -> A -> st -> res (st * A1)) (vf : Y -> B -> world -> res (world * B1)) v r v1 r1 (v' : heap -> A' -> option B') r' (f f' : C -> option Q -> list B -> Y)
  (f2 : C -> option Q -> list B' -> Y) (els : Y -> list B)
  (post : list A1 -> list A') (postv : list B1 -> list B') (mk : C -> list A' -> C) (mko : C -> obj) (g : Y -> list B' -> Y),
  lawful v r -> lawful v1 r1 -> lawful v' r' ->
  (forall c, as_ (mko c) = Some c) -> (forall c, is_cont (mko c) = true) -> (forall c l, p (mk c l) = p c) -> (forall c l, q' (mk c l) = l) ->
  (forall h a c, deref as1 h a = Some c -> cont h a = false) ->
  (forall c x ys, els (f c x ys) = ys) -> (forall c x ys, cspec (hf c) (vf (f c x ys)) v v1 r1) ->
  (forall h l ys, all_some (v1 h) l = Some ys -> all_some (v' h) (post l) = Some (postv ys)) ->
  (forall h l, flat_map (r' h) (post l) = flat_map (r1 h) l) ->
  (forall c x ys l ys', g (f c x ys) ys' = f2 (mk c l) x ys') ->
  cspec (fun a s => match deref as_ (fst s) a with None => Panic | Some c =>
           bind (st_list (hf c) (q c) s) (fun '((h, w), l) => let '(h', b) := alloc (mko (mk c (post l))) h in Ok ((h', w), b)) end)
        (fun y w => bind (copy_list (vf y) (els y) w) (fun '(w', c) => Ok (w', g y (postv c))))
        (fun h a => match deref as_ h a with
               | Some c => match maybe (deref as1 h) (p c), all_some (v h) (q c) with Some x, Some y => Some (f c x y) | _, _ => None end
               | None => None
               end)
        (fun h a => match deref as_ h a with
               | Some c => match maybe (deref as1 h) (p c), all_some (v' h) (q' c) with Some x, Some y => Some (f2 c x y) | _, _ => None end
               | None => None
               end)
        (fun h a => a :: match deref as_ h a with Some c => ptr (p c) ++ flat_map (r' h) (q' c) | None => [] end).
Proof.
  intros C Q A A1 A' B B1 B' Y as_ as1 p q q' hf vf v r v1 r1 v' r' f f' f2 els post postv mk mko g L L1 L' Ha Hk Hp Hq Hn Hels Hc Hpost Hr Hg h w a y V.
  cbn [fst]. destruct (deref as_ h a) as [c|] eqn:D; [|discriminate]. destruct (maybe (deref as1 h) (p c)) as [pv|] eqn:Ep; [|discriminate].
  destruct (all_some (v h) (q c)) as [ys|] eqn:Eq; [|discriminate]. inversion V; subst y. rewrite Hels.
  pose proof (cspec_list _ _ _ _ (hf c) (vf (f c pv ys)) v r v1 r1 L L1 (Hc c pv ys) h w (q c) ys Eq) as C1.
  destruct (copy_list (vf (f c pv ys)) ys w) as [[w1 ys1]|e|]; cbn [bind]; [|rewrite C1; reflexivity|rewrite C1; reflexivity].
  destruct C1 as (h1 & l1 & E1 & K1 & V1 & F1 & I1). rewrite E1. cbn [bind]. unfold alloc.
  set (o := mko (mk c (post l1))). exists (h1 ++ [o]), (length h1). split; [reflexivity|].
  assert (K2 : keeps h1 (h1 ++ [o])) by apply keeps_alloc. split; [eapply keeps_trans; eauto|].
  assert (Ao : as_ o = Some (mk c (post l1))) by apply Ha.
  rewrite !deref_new, !Ao, !Hp, !Hq.
  destruct (law_keeps _ _ _ _ (law_prop _ as1) h (h1 ++ [o]) (p c) pv (keeps_trans _ _ _ K1 K2) Ep) as [Ep' _].
  destruct (law_keeps _ _ _ _ (law_list _ _ _ _ L1) h1 (h1 ++ [o]) l1 ys1 K2 V1) as [V1' R1'].
  rewrite Ep', (Hpost _ _ _ V1'). split; [rewrite <- (Hg c pv ys); reflexivity|]. split; [|exact I1].
  rewrite Hr, R1'. pose proof (l_bound _ _ (law_list _ _ _ _ L1) h1 l1 ys1 V1) as B1'. cbn in B1'. pose proof (keeps_len _ _ K1) as Kl.
  assert (Pz : forall b, cont (h1 ++ [o]) b = true -> cnt (ptr (p c)) b = 0).
  { intros b Hb. apply cnt_notin. intros Hin. destruct (p c) as [z|]; [|destruct Hin]. destruct Hin as [->|[]]. cbn in Ep'.
    destruct (deref as1 (h1 ++ [o]) b) as [u|] eqn:U; [|discriminate]. apply Hn in U. congruence. }
  intros b. cbn [count_occ]. rewrite cnt_app. destruct (F1 b) as [G1 G2]. split.
  - intros Hb. pose proof (cont_bound _ _ Hb) as Hlt. rewrite G1 by exact Hb. rewrite (Pz b).
    + destruct (Nat.eq_dec (length h1) b); [lia|reflexivity].
    + rewrite (kinds_keeps h (h1 ++ [o]) (keeps_trans _ _ _ K1 K2) b Hlt). exact Hb.
  - intros Hge Hb. rewrite (Pz b Hb). destruct (Nat.eq_dec (length h1) b) as [<-|N].
    + assert (Z : cnt (flat_map (r1 h1) l1) (length h1) = 0) by (apply cnt_notin; intros Hin; apply B1' in Hin; lia). lia.
    + pose proof (cont_bound _ _ Hb) as Hlt. rewrite app_length in Hlt. cbn in Hlt.
      specialize (G2 Hge). rewrite (kinds_keeps h1 (h1 ++ [o]) K2 b) in Hb by lia. specialize (G2 Hb). lia.
Qed.

Section ToDoc.
Variable to : nat.

Lemma copy_graphic_strip : forall f og w, copy_graphic to f og (map strip w) = sres (copy_graphic to f og w).
Proof.
  intros f og w. unfold copy_graphic. destruct og as [g|]; [|reflexivity]. destruct (graphicR_data g) as [d|]; [|reflexivity].
  destruct (gdataR_pic d) as [p|].
  - destruct (pic_blip p) as [b|]; [|reflexivity]. rewrite file_reg_strip. destruct (file_reg w f) as [src|e|]; cbn [bind]; try reflexivity.
    destruct (refer_target src _) as [tgt|e|]; try reflexivity. rewrite on_file_strip.
    destruct (on_file w (Some to) inc_docid) as [[idn w1]|e|]; cbn [bind]; try reflexivity. rewrite on_file_strip.
    destruct (on_file w1 (Some to) (increase_id TUPIAN)) as [[idu w2]|e|]; cbn [bind]; try reflexivity.
    destruct (drop 6 tgt) as [name|]; [|reflexivity]. rewrite file_reg_strip. destruct (file_reg w2 f) as [src2|e|]; cbn [bind]; try reflexivity.
    destruct (media_of src2 name) as [[[mn data]|]|e|]; cbn [bind]; try reflexivity. rewrite on_file_strip.
    destruct (on_file w2 (Some to) _) as [[rid w3]|e|]; cbn [bind]; try reflexivity. destruct (pic_nvpic p); reflexivity.
  - destruct (gdataR_shape d); [reflexivity|]. destruct (gdataR_canvas d); reflexivity.
Qed.
Lemma copy_graphic_items : forall f og w w' r, copy_graphic to f og w = Ok (w', r) ->
  map d_items w' = map d_items w /\ (forall dp g, r = CNew dp g -> graphic_sp (Some g) = graphic_sp og).
Proof.
  intros f og w w' r E. unfold copy_graphic in E. destruct og as [g|]; [|discriminate]. destruct (graphicR_data g) as [d|] eqn:Eg; [|discriminate].
  destruct (gdataR_pic d) as [p|] eqn:Ed.
  - destruct (pic_blip p) as [b|]; [|inversion E; subst; split; [reflexivity|discriminate]]. destruct (file_reg w f) as [src|e|]; cbn [bind] in E; try discriminate.
    destruct (refer_target src _) as [tgt|e|]; try discriminate; [|inversion E; subst; split; [reflexivity|discriminate]].
    destruct (on_file w (Some to) inc_docid) as [[idn w1]|e|] eqn:O1; cbn [bind] in E; try discriminate.
    destruct (on_file w1 (Some to) (increase_id TUPIAN)) as [[idu w2]|e|] eqn:O2; cbn [bind] in E; try discriminate.
    destruct (drop 6 tgt) as [name|]; [|discriminate]. destruct (file_reg w2 f) as [src2|e|]; cbn [bind] in E; try discriminate.
    apply on_file_items in O1. apply on_file_items in O2.
    destruct (media_of src2 name) as [[[mn data]|]|e|]; cbn [bind] in E; try discriminate.
    2:{ inversion E; subst. split; [congruence|discriminate]. }
    destruct (on_file w2 (Some to) _) as [[rid w3]|e|] eqn:O3; cbn [bind] in E; try discriminate. apply on_file_items in O3.
    destruct (pic_nvpic p) as [n|]; [|discriminate]. inversion E; subst. split; [congruence|]. intros dp g' Eq. inversion Eq; subst.
    unfold graphic_sp. rewrite Eg, Ed. cbn. reflexivity.
  - destruct (gdataR_shape d); [inversion E; subst; split; [reflexivity|discriminate]|].
    destruct (gdataR_canvas d); inversion E; subst; split; try reflexivity; discriminate.
Qed.

(** drawings hold no lists *)
Lemma reach_inl_nc : forall h a x, v_inl h a = Some x -> forall b, In b (reach_inl h a) -> cont h b = false.
Proof.
  intros h a x V b Hb. destruct (inl_inv _ _ _ V) as (x0 & e & s & ev & sv & D & He & Hs & _). unfold reach_inl in Hb. rewrite D in Hb.
  destruct Hb as [<-|Hb].
  - apply deref_cont in D. destruct D as (o & D1 & D2). unfold cont. rewrite D1. destruct o; cbn in D2; try discriminate; reflexivity.
  - apply in_app_or in Hb. destruct Hb as [Hb|Hb].
    + destruct e as [z|]; [|destruct Hb]. destruct Hb as [->|[]]. cbn in He. destruct (deref as_ext h b) eqn:Z; [|discriminate]. eapply c_ext; eauto.
    + destruct s as [z|]; [|destruct Hb]. destruct Hb as [->|[]]. cbn in Hs. destruct (deref as_sp h b) eqn:Z; [|discriminate]. eapply c_sp; eauto.
Qed.
Lemma reach_anc_nc : forall h a x, v_anc h a = Some x -> forall b, In b (reach_anc h a) -> cont h b = false.
Proof.
  intros h a x V b Hb. destruct (anc_inv _ _ _ V) as (x0 & e & s & ev & sv & D & He & Hs & _). unfold reach_anc in Hb. rewrite D in Hb.
  destruct Hb as [<-|Hb].
  - apply deref_cont in D. destruct D as (o & D1 & D2). unfold cont. rewrite D1. destruct o; cbn in D2; try discriminate; reflexivity.
  - apply in_app_or in Hb. destruct Hb as [Hb|Hb].
    + destruct e as [z|]; [|destruct Hb]. destruct Hb as [->|[]]. cbn in He. destruct (deref as_ext h b) eqn:Z; [|discriminate]. eapply c_ext; eauto.
    + destruct s as [z|]; [|destruct Hb]. destruct Hb as [->|[]]. cbn in Hs. destruct (deref as_sp h b) eqn:Z; [|discriminate]. eapply c_sp; eauto.
Qed.
Lemma rchild_nc : forall h c y, v_rchild h c = Some y -> forall b, In b (reach_rchild h c) -> cont h b = false.
Proof.
  intros h [t|t|t|i a] y V b Hb; cbn in V, Hb; try tauto.
  destruct (maybe (v_inl h) i) as [iv|] eqn:Ei; [|discriminate]. destruct (maybe (v_anc h) a) as [av|] eqn:Ea; [|discriminate].
  apply in_app_or in Hb. destruct Hb as [Hb|Hb].
  - destruct i as [i|]; [|destruct Hb]. cbn in Hb, Ei. rewrite app_nil_r in Hb. destruct (v_inl h i) eqn:E; [|discriminate]. eapply reach_inl_nc; eauto.
  - destruct a as [a|]; [|destruct Hb]. cbn in Hb, Ea. rewrite app_nil_r in Hb. destruct (v_anc h a) eqn:E; [|discriminate]. eapply reach_anc_nc; eauto.
Qed.
Lemma nc_fresh : forall h h' L, keeps h h' -> (forall b, In b L -> cont h' b = false) -> fresh h h' L.
Proof.
  intros h h' L K N b. split; intros Hb; [|intros Hc]; (assert (Z : cnt L b = 0); [apply cnt_notin; intros Hin; apply N in Hin|lia]); [|congruence].
  pose proof (kinds_keeps h h' K b (cont_bound _ _ Hb)). congruence.
Qed.

Lemma cspec_inl : forall h w a x, v_inl h a = Some x ->
  match copy_graphic to (inlineR_file x) (inlineR_graphic x) w with
  | Ok (w', r) => exists h' b, h_copy_inl to a (h, map strip w) = Ok ((h', map strip w'), b) /\ keeps h h' /\ map d_items w' = map d_items w /\
      maybe (v_inl h') b = Some match r with CNil => None | CSame => Some x
                    | CNew dp g => Some (set_inlineR_docPr (Some dp) (set_inlineR_graphic (Some g) (set_inlineR_file (Some to) x))) end
  | Err e => h_copy_inl to a (h, map strip w) = Err e
  | Panic => h_copy_inl to a (h, map strip w) = Panic
  end.
Proof.
  intros h w a x V. unfold h_copy_inl. rewrite V. destruct (inl_inv _ _ _ V) as (x0 & e & s & ev & sv & D & He & Hs & Ex). rewrite D.
  rewrite copy_graphic_strip. destruct (copy_graphic to (inlineR_file x) (inlineR_graphic x) w) as [[w' r]|er|] eqn:E; cbn [sres bind]; try reflexivity.
  destruct (copy_graphic_items _ _ _ _ _ E) as [I Hsp]. destruct r as [| |dp g].
  - exists h, None. split; [reflexivity|]. split; [apply keeps_refl|]. split; [exact I|]. reflexivity.
  - exists h, (Some a). split; [reflexivity|]. split; [apply keeps_refl|]. split; [exact I|]. cbn. rewrite V. reflexivity.
  - unfold alloc. set (x' := set_inlineR_docPr (Some dp) (set_inlineR_graphic (Some g) (set_inlineR_file (Some to) x))).
    exists (h ++ [OInl x' e s]), (Some (length h)). split; [reflexivity|]. split; [apply keeps_alloc|]. split; [exact I|].
    cbn [maybe]. unfold v_inl. rewrite deref_new. cbn [as_inl].
    destruct (law_keeps _ _ _ _ (law_prop _ as_ext) h _ e ev (keeps_alloc h (OInl x' e s)) He) as [-> _].
    destruct (law_keeps _ _ _ _ (law_prop _ as_sp) h _ s sv (keeps_alloc h (OInl x' e s)) Hs) as [-> _].
    assert (E1 : ev = inlineR_extent x') by (subst x x'; destruct x0; reflexivity).
    assert (E2 : put_inl ev sv x' = put_inl ev (graphic_sp (inlineR_graphic x')) x').
    { specialize (Hsp dp g eq_refl). destruct (graphicR_data g) as [d|] eqn:Dg.
      - destruct (gdataR_pic d) as [pc|] eqn:Dp.
        + assert (E3 : sv = graphic_sp (inlineR_graphic x')); [|rewrite <- E3; reflexivity].
          assert (E4 : graphic_sp (inlineR_graphic x) = sv \/ graphic_sp (inlineR_graphic x) = None /\ forall d0 p0 g0, inlineR_graphic x = Some g0 -> graphicR_data g0 = Some d0 -> gdataR_pic d0 = Some p0 -> False).
          { subst x. destruct x0 as [t b l r e0 ee dp0 fr g0 f0]. cbn. destruct g0 as [g0|]; cbn; [|right; split; [reflexivity|discriminate]].
            unfold put_sp. destruct (graphicR_data g0) as [d0|] eqn:G0; [|cbn; rewrite G0; right; split; [reflexivity|intros d1 p1 g1 [= <-]; congruence]].
            destruct (gdataR_pic d0) as [p0|] eqn:P0; cbn; [left; reflexivity|]. rewrite G0, P0. right. split; [reflexivity|]. intros d1 p1 g1 [= <-]. congruence. }
          destruct E4 as [E4|[E4 E5]].
          * change (inlineR_graphic x') with (Some g). congruence.
          * exfalso. unfold copy_graphic in E. destruct (inlineR_graphic x) as [gx|] eqn:Gx; [|discriminate]. destruct (graphicR_data gx) as [dx|] eqn:Gd; [|discriminate].
            destruct (gdataR_pic dx) as [px|] eqn:Gp; [exact (E5 dx px gx eq_refl Gd Gp)|]. destruct (gdataR_shape dx); [discriminate|]. destruct (gdataR_canvas dx); discriminate.
        + unfold put_inl. change (inlineR_graphic x') with (Some g). cbn [option_map]. unfold put_sp. rewrite Dg, Dp. reflexivity.
      - unfold put_inl. change (inlineR_graphic x') with (Some g). cbn [option_map]. unfold put_sp. rewrite Dg. reflexivity. }
    rewrite E2, E1, put_inl_same. reflexivity.
Qed.
Lemma cspec_anc : forall h w a x, v_anc h a = Some x ->
  match copy_graphic to (anchorR_file x) (anchorR_graphic x) w with
  | Ok (w', r) => exists h' b, h_copy_anc to a (h, map strip w) = Ok ((h', map strip w'), b) /\ keeps h h' /\ map d_items w' = map d_items w /\
      maybe (v_anc h') b = Some match r with CNil => None | CSame => Some x
                    | CNew dp g => Some (set_anchorR_docPr (Some dp) (set_anchorR_graphic (Some g) (set_anchorR_file (Some to) x))) end
  | Err e => h_copy_anc to a (h, map strip w) = Err e
  | Panic => h_copy_anc to a (h, map strip w) = Panic
  end.
Proof.
  intros h w a x V. unfold h_copy_anc. rewrite V. destruct (anc_inv _ _ _ V) as (x0 & e & s & ev & sv & D & He & Hs & Ex). rewrite D.
  rewrite copy_graphic_strip. destruct (copy_graphic to (anchorR_file x) (anchorR_graphic x) w) as [[w' r]|er|] eqn:E; cbn [sres bind]; try reflexivity.
  destruct (copy_graphic_items _ _ _ _ _ E) as [I Hsp]. destruct r as [| |dp g].
  - exists h, None. split; [reflexivity|]. split; [apply keeps_refl|]. split; [exact I|]. reflexivity.
  - exists h, (Some a). split; [reflexivity|]. split; [apply keeps_refl|]. split; [exact I|]. cbn. rewrite V. reflexivity.
  - unfold alloc. set (x' := set_anchorR_docPr (Some dp) (set_anchorR_graphic (Some g) (set_anchorR_file (Some to) x))).
    exists (h ++ [OAnc x' e s]), (Some (length h)). split; [reflexivity|]. split; [apply keeps_alloc|]. split; [exact I|].
    cbn [maybe]. unfold v_anc. rewrite deref_new. cbn [as_anc].
    destruct (law_keeps _ _ _ _ (law_prop _ as_ext) h _ e ev (keeps_alloc h (OAnc x' e s)) He) as [-> _].
    destruct (law_keeps _ _ _ _ (law_prop _ as_sp) h _ s sv (keeps_alloc h (OAnc x' e s)) Hs) as [-> _].
    assert (E1 : ev = anchorR_extent x') by (subst x x'; destruct x0; reflexivity).
    assert (E2 : put_anc ev sv x' = put_anc ev (graphic_sp (anchorR_graphic x')) x').
    { specialize (Hsp dp g eq_refl). destruct (graphicR_data g) as [d|] eqn:Dg.
      - destruct (gdataR_pic d) as [pc|] eqn:Dp.
        + assert (E3 : sv = graphic_sp (anchorR_graphic x')); [|rewrite <- E3; reflexivity].
          assert (E4 : graphic_sp (anchorR_graphic x) = sv \/ graphic_sp (anchorR_graphic x) = None /\ forall d0 p0 g0, anchorR_graphic x = Some g0 -> graphicR_data g0 = Some d0 -> gdataR_pic d0 = Some p0 -> False).
          { subst x. destruct x0 as [? ? ? ? ? ? ? ? ? ? ? ? ? ? ? ? ? ? ? g0 ?]. cbn. destruct g0 as [g0|]; cbn; [|right; split; [reflexivity|discriminate]].
            unfold put_sp. destruct (graphicR_data g0) as [d0|] eqn:G0; [|cbn; rewrite G0; right; split; [reflexivity|intros d1 p1 g1 [= <-]; congruence]].
            destruct (gdataR_pic d0) as [p0|] eqn:P0; cbn; [left; reflexivity|]. rewrite G0, P0. right. split; [reflexivity|]. intros d1 p1 g1 [= <-]. congruence. }
          destruct E4 as [E4|[E4 E5]].
          * change (anchorR_graphic x') with (Some g). congruence.
          * exfalso. unfold copy_graphic in E. destruct (anchorR_graphic x) as [gx|] eqn:Gx; [|discriminate]. destruct (graphicR_data gx) as [dx|] eqn:Gd; [|discriminate].
            destruct (gdataR_pic dx) as [px|] eqn:Gp; [exact (E5 dx px gx eq_refl Gd Gp)|]. destruct (gdataR_shape dx); [discriminate|]. destruct (gdataR_canvas dx); discriminate.
        + unfold put_anc. change (anchorR_graphic x') with (Some g). cbn [option_map]. unfold put_sp. rewrite Dg, Dp. reflexivity.
      - unfold put_anc. change (anchorR_graphic x') with (Some g). cbn [option_map]. unfold put_sp. rewrite Dg. reflexivity. }
    rewrite E2, E1, put_anc_same. reflexivity.
Qed.

Lemma cspec_rchild : cspec (h_copy_rchild to) (copy_rchild to) v_rchild v_rchild reach_rchild.
Proof.
  intros h w c y V.
  assert (NC : forall h' w' c' y', h_copy_rchild to c (h, map strip w) = Ok (h', map strip w', c') -> keeps h h' -> v_rchild h' c' = Some y' -> map d_items w' = map d_items w ->
    exists h' c', h_copy_rchild to c (h, map strip w) = Ok (h', map strip w', c') /\ keeps h h' /\ v_rchild h' c' = Some y' /\ fresh h h' (reach_rchild h' c') /\ map d_items w' = map d_items w).
  { intros h' w' c' y' E K V' I. exists h', c'. repeat (split; [assumption|]). split; [|exact I]. apply nc_fresh; [exact K|]. eapply rchild_nc; eauto. }
  destruct c as [t|t|t|i a]; cbn [v_rchild] in V.
  1-3: inversion V; subst y; cbn [copy_rchild]; eapply NC; try reflexivity; apply keeps_refl.
  destruct (maybe (v_inl h) i) as [iv|] eqn:Ei; [|discriminate]. destruct (maybe (v_anc h) a) as [av|] eqn:Ea; [|discriminate]. inversion V; subst y.
  destruct i as [i|].
  - cbn in Ei. destruct (v_inl h i) as [x|] eqn:Ex; [|discriminate]. inversion Ei; subst iv.
    change (copy_rchild to (RDraw (Some x) av) w) with (bind (copy_graphic to (inlineR_file x) (inlineR_graphic x) w) (fun '(w', r) =>
      Ok (w', RDraw match r with CNil => None | CSame => Some x
                    | CNew dp g => Some (set_inlineR_docPr (Some dp) (set_inlineR_graphic (Some g) (set_inlineR_file (Some to) x))) end None))).
    pose proof (cspec_inl h w i x Ex) as C. revert C. destruct (copy_graphic to (inlineR_file x) (inlineR_graphic x) w) as [[w' r]|e|]; intros C; cbn [bind]; [|cbn [h_copy_rchild]; rewrite C; reflexivity|cbn [h_copy_rchild]; rewrite C; reflexivity].
    destruct C as (h' & b & E & K & I & V'). eapply (NC h' w' (HDraw b None)); auto.
    + cbn [h_copy_rchild]. rewrite E. reflexivity.
    + cbn [v_rchild]. rewrite V'. reflexivity.
  - cbn in Ei. inversion Ei; subst iv. destruct a as [a|].
    + cbn in Ea. destruct (v_anc h a) as [x|] eqn:Ex; [|discriminate]. inversion Ea; subst av.
      change (copy_rchild to (RDraw None (Some x)) w) with (bind (copy_graphic to (anchorR_file x) (anchorR_graphic x) w) (fun '(w', r) =>
      Ok (w', RDraw None match r with CNil => None | CSame => Some x
                    | CNew dp g => Some (set_anchorR_docPr (Some dp) (set_anchorR_graphic (Some g) (set_anchorR_file (Some to) x))) end))).
      pose proof (cspec_anc h w a x Ex) as C. revert C. destruct (copy_graphic to (anchorR_file x) (anchorR_graphic x) w) as [[w' r]|e|]; intros C; cbn [bind]; [|cbn [h_copy_rchild]; rewrite C; reflexivity|cbn [h_copy_rchild]; rewrite C; reflexivity].
      destruct C as (h' & b & E & K & I & V'). eapply (NC h' w' (HDraw None b)); auto.
      * cbn [h_copy_rchild]. rewrite E. reflexivity.
      * cbn [v_rchild]. cbn [maybe]. rewrite V'. reflexivity.
    + cbn in Ea. inversion Ea; subst av. cbn [copy_rchild]. eapply NC; try reflexivity; apply keeps_refl.
Qed.
Definition cspec_rchildren := cspec_list _ _ _ _ _ _ _ _ _ _ law_rchild law_rchild cspec_rchild.
Lemma cspec_run : cspec (h_copy_run to) (copy_run to) v_run v_run reach_run.
Proof.
  intros h w r rv V. destruct (run_inv _ _ _ V) as (Vp & Vc & Es & Ei). unfold copy_run, h_copy_run.
  pose proof (cspec_rchildren h w _ _ Vc) as C. destruct (copy_list (copy_rchild to) (runR_children rv) w) as [[w' c]|e|]; cbn [bind]; [|rewrite C; reflexivity|rewrite C; reflexivity].
  destruct C as (h' & c' & E & K & V' & F & I). rewrite E. cbn [bind]. eexists; eexists. split; [reflexivity|]. split; [exact K|].
  destruct (law_keeps _ _ _ _ (law_prop _ as_rpr) h h' _ _ K Vp) as [Vp' _]. unfold v_run, reach_run. cbn [hr_rpr hr_children hr_space hr_instr].
  rewrite Vp', V'. split; [rewrite Es, Ei; destruct rv; reflexivity|]. split; [|exact I].
  intros b. rewrite cnt_app. destruct (F b) as [F1 F2].
  assert (Pz : cont h' b = true -> cnt (ptr (hr_rpr r)) b = 0).
  { intros Hb. apply cnt_notin. intros Hin. destruct (hr_rpr r) as [z|]; [|destruct Hin]. destruct Hin as [->|[]]. cbn in Vp'.
    destruct (deref as_rpr h' b) as [u|] eqn:U; [|discriminate]. apply c_rpr in U. congruence. }
  split.
  - intros Hb. rewrite F1 by exact Hb. rewrite Pz; [reflexivity|]. rewrite (kinds_keeps h h' K b (cont_bound _ _ Hb)). exact Hb.
  - intros Hge Hb. rewrite (Pz Hb). specialize (F2 Hge Hb). lia.
Qed.

Definition v_ochild (h : heap) (o : option hchild) : option (option pchild) :=
  match o with None => Some None | Some c => option_map Some (v_child h c) end.
Definition r_ochild (h : heap) (o : option hchild) : list nat := match o with None => [] | Some c => reach_child h c end.
Lemma law_ochild : lawful v_ochild r_ochild.
Proof.
  split.
  - intros h h' [c|] H; cbn [v_ochild r_ochild] in *; [|auto]. destruct (l_frame _ _ law_child h h' c H) as [-> ->]. auto.
  - intros h [c|] y V b Hb; cbn [v_ochild r_ochild] in *; [|destruct Hb]. destruct (v_child h c) eqn:E; [|discriminate]. exact (l_bound _ _ law_child h c _ E b Hb).
Qed.
Lemma fresh_cons : forall h h1 o L, keeps h h1 -> fresh h h1 L -> (forall b, In b L -> b < length h1) -> fresh h (h1 ++ [o]) (length h1 :: L).
Proof.
  intros h h1 o L K F B b. pose proof (keeps_len _ _ K). destruct (F b) as [F1 F2]. cbn [count_occ]. split.
  - intros Hb. rewrite F1 by exact Hb. apply cont_bound in Hb. destruct (Nat.eq_dec (length h1) b); lia.
  - intros Hge Hb. destruct (Nat.eq_dec (length h1) b) as [<-|N].
    + assert (Z : cnt L (length h1) = 0) by (apply cnt_notin; intros Hin; apply B in Hin; lia). lia.
    + apply F2; [exact Hge|]. pose proof (cont_bound _ _ Hb) as Hlt. rewrite app_length in Hlt. cbn in Hlt.
      rewrite (kinds_keeps h1 (h1 ++ [o]) (keeps_alloc _ _) b) in Hb by lia. exact Hb.
Qed.
Lemma cspec_child : forall f, cspec (h_copy_child to f) (copy_pchild to f) v_child v_ochild r_ochild.
Proof.
  intros f h w c y V. destruct c as [a|a|q]; cbn [v_child] in V; cbn [h_copy_child fst snd].
  - destruct (deref as_run h a) as [r|] eqn:D; [|discriminate]. destruct (v_run h r) as [rv|] eqn:Vr; [|discriminate]. inversion V; subst y. cbn [copy_pchild].
    pose proof (cspec_run h w r rv Vr) as C. destruct (copy_run to rv w) as [[w' rv']|e|]; cbn [bind]; [|rewrite C; reflexivity|rewrite C; reflexivity].
    destruct C as (h1 & r1 & E & K & V' & F & I). rewrite E. cbn [bind]. unfold alloc. eexists; eexists. split; [reflexivity|].
    split; [eapply keeps_trans; [exact K|apply keeps_alloc]|].
    destruct (law_keeps _ _ _ _ law_run h1 _ r1 rv' (keeps_alloc h1 (OHRun r1)) V') as [V2 R2].
    cbn [v_ochild r_ochild v_child reach_child]. rewrite deref_new. cbn [as_run]. rewrite V2, R2. split; [reflexivity|]. split; [|exact I].
    apply fresh_cons; auto. intros b Hb. exact (l_bound _ _ law_run h1 r1 _ V' b Hb).
  - destruct (deref as_link h a) as [[id r]|] eqn:D; [|discriminate]. destruct (v_run h r) as [rv|] eqn:Vr; [|discriminate]. inversion V; subst y. cbn [copy_pchild].
    rewrite file_reg_strip. destruct (file_reg w f) as [src|e|]; cbn [bind]; try reflexivity.
    destruct (refer_target src id) as [tgt|e|]; try reflexivity.
    2:{ exists h, None. split; [reflexivity|]. split; [apply keeps_refl|]. split; [reflexivity|]. split; [apply fresh_nil|reflexivity]. }
    rewrite on_file_strip. destruct (on_file w (Some to) (add_link_relation tgt)) as [[rid w1]|e|] eqn:O1; cbn [bind]; try reflexivity. apply on_file_items in O1.
    pose proof (cspec_run h w1 r rv Vr) as C. change (@pair heap (list docx) h (map strip w1)) with (@pair heap world h (map strip w1)) in C. destruct (copy_run to rv w1) as [[w' rv']|e|]; cbn [bind]; [|rewrite C; reflexivity|rewrite C; reflexivity].
    destruct C as (h1 & r1 & E & K & V' & F & I). rewrite E. cbn [bind]. unfold alloc. eexists; eexists. split; [reflexivity|].
    split; [eapply keeps_trans; [exact K|apply keeps_alloc]|].
    destruct (law_keeps _ _ _ _ law_run h1 _ r1 rv' (keeps_alloc h1 (OHLink rid r1)) V') as [V2 R2].
    cbn [v_ochild r_ochild v_child reach_child]. rewrite deref_new. cbn [as_link]. rewrite V2, R2. split; [reflexivity|]. split; [|congruence].
    apply fresh_cons; auto. intros b Hb. exact (l_bound _ _ law_run h1 r1 _ V' b Hb).
  - inversion V; subst. cbn [copy_pchild]. exists h, (Some (HRPr q)). split; [reflexivity|]. split; [apply keeps_refl|]. split; [reflexivity|]. split; [apply fresh_nil|reflexivity].
Qed.
Lemma somes_view : forall h l ys, all_some (v_ochild h) l = Some ys -> all_some (v_child h) (somes l) = Some (somes ys).
Proof.
  intros h. induction l as [|[c|] l IH]; intros ys E; cbn in E.
  - inversion E; reflexivity.
  - destruct (v_child h c) as [y|] eqn:Ec; [|discriminate]. cbn in E. destruct (all_some (v_ochild h) l) as [zs|]; [|discriminate]. inversion E; subst.
    cbn. rewrite Ec, (IH zs eq_refl). reflexivity.
  - destruct (all_some (v_ochild h) l) as [zs|]; [|discriminate]. inversion E; subst. cbn. apply IH. reflexivity.
Qed.
Lemma somes_reach : forall h l, flat_map (reach_child h) (somes l) = flat_map (r_ochild h) l.
Proof. intros h. induction l as [|[c|] l IH]; cbn; [reflexivity| |exact IH]. rewrite IH. reflexivity. Qed.

Lemma cspec_para : cspec (h_copy_para to) (copy_para to) v_para v_para reach_para.
Proof.
  refine (cspec_obj _ _ _ _ _ _ _ _ _ as_para as_ppr hp_ppr hp_children hp_children (fun p => h_copy_child to (hp_file p)) (fun p => copy_pchild to (para_file p))
    v_child reach_child v_ochild r_ochild v_child reach_child (fun p q c => mk_para q c (hp_file p)) (fun p q c => mk_para q c (hp_file p)) (fun p q c => mk_para q c (hp_file p)) para_children somes somes
    (fun p l => mk_hpara (hp_ppr p) l (Some to)) OHPara (fun p c => mk_para (para_ppr p) c (Some to))
    law_child law_ochild law_child (fun _ => eq_refl) (fun _ => eq_refl) (fun _ _ => eq_refl) (fun _ _ => eq_refl) c_ppr (fun _ _ _ => eq_refl)
    (fun c x ys => cspec_child (hp_file c)) somes_view somes_reach (fun _ _ _ _ _ => eq_refl)).
Qed.
Lemma cspec_cell : cspec (h_copy_cell to) (copy_cell to) v_cell v_cell reach_cell.
Proof.
  refine (cspec_obj _ _ _ _ _ _ _ _ _ as_cell as_tc hc_tc hc_paras hc_paras (fun _ => h_copy_para to) (fun _ => copy_para to)
    v_para reach_para v_para reach_para v_para reach_para (fun p q c => mk_cell q c (hc_file p)) (fun p q c => mk_cell q c (hc_file p)) (fun p q c => mk_cell q c (hc_file p)) cell_paras (fun l => l) (fun l => l)
    (fun p l => mk_hcell (hc_tc p) l (Some to)) OHCell (fun p c => mk_cell (cell_props p) c (Some to))
    law_para law_para law_para (fun _ => eq_refl) (fun _ => eq_refl) (fun _ _ => eq_refl) (fun _ _ => eq_refl) c_tc (fun _ _ _ => eq_refl)
    (fun c x ys => cspec_para) (fun _ _ _ E => E) (fun _ _ => eq_refl) (fun _ _ _ _ _ => eq_refl)).
Qed.
Lemma cspec_row : cspec (h_copy_row to) (copy_row to) v_row v_row reach_row.
Proof.
  refine (cspec_obj _ _ _ _ _ _ _ _ _ as_row as_tr hw_tr hw_cells hw_cells (fun _ => h_copy_cell to) (fun _ => copy_cell to)
    v_cell reach_cell v_cell reach_cell v_cell reach_cell (fun p q c => mk_row q c) (fun p q c => mk_row q c) (fun p q c => mk_row q c) row_cells (fun l => l) (fun l => l)
    (fun p l => mk_hrow (hw_tr p) l) OHRow (fun p c => mk_row (row_props p) c)
    law_cell law_cell law_cell (fun _ => eq_refl) (fun _ => eq_refl) (fun _ _ => eq_refl) (fun _ _ => eq_refl) c_tr (fun _ _ _ => eq_refl)
    (fun c x ys => cspec_cell) (fun _ _ _ E => E) (fun _ _ => eq_refl) (fun _ _ _ _ _ => eq_refl)).
Qed.
Lemma cspec_table : cspec (h_copy_table to) (copy_table to) v_table v_table reach_table.
Proof.
  refine (cspec_obj _ _ _ _ _ _ _ _ _ as_table as_tbl ht_tbl ht_rows ht_rows (fun _ => h_copy_row to) (fun _ => copy_row to)
    v_row reach_row v_row reach_row v_row reach_row (fun p q c => mk_table q (ht_grid p) c) (fun p q c => mk_table q (ht_grid p) c) (fun p q c => mk_table q (ht_grid p) c) table_rows (fun l => l) (fun l => l)
    (fun p l => mk_htable (ht_tbl p) (ht_grid p) l) OHTable (fun p c => mk_table (table_props p) (table_grid p) c)
    law_row law_row law_row (fun _ => eq_refl) (fun _ => eq_refl) (fun _ _ => eq_refl) (fun _ _ => eq_refl) c_tbl (fun _ _ _ => eq_refl)
    (fun c x ys => cspec_row) (fun _ _ _ E => E) (fun _ _ => eq_refl) (fun _ _ _ _ _ => eq_refl)).
Qed.
Lemma cspec_item : cspec (h_copy_item to) (copy_item to) v_item v_item reach_item.
Proof.
  intros h w [a|a|s] y V; cbn [v_item h_copy_item] in *.
  - destruct (v_para h a) as [p|] eqn:E; [|discriminate]. inversion V; subst. cbn [copy_item]. pose proof (cspec_para h w a p E) as C.
    destruct (copy_para to p w) as [[w' p']|e|]; cbn [bind]; [|rewrite C; reflexivity|rewrite C; reflexivity].
    destruct C as (h1 & b & E1 & K & V' & F & I). rewrite E1. cbn [bind]. exists h1, (HIPara b). cbn [v_item reach_item]. rewrite V'. auto.
  - destruct (v_table h a) as [p|] eqn:E; [|discriminate]. inversion V; subst. cbn [copy_item]. pose proof (cspec_table h w a p E) as C.
    destruct (copy_table to p w) as [[w' p']|e|]; cbn [bind]; [|rewrite C; reflexivity|rewrite C; reflexivity].
    destruct C as (h1 & b & E1 & K & V' & F & I). rewrite E1. cbn [bind]. exists h1, (HITable b). cbn [v_item reach_item]. rewrite V'. auto.
  - inversion V; subst. cbn [copy_item]. exists h, (HISect s). split; [reflexivity|]. split; [apply keeps_refl|]. split; [reflexivity|]. split; [apply fresh_nil|reflexivity].
Qed.
End ToDoc.
