(** Documents in memory: a call does what the model on values says. *)
From Coq Require Import String List Bool Arith Lia.
From Verif Require Import GoStr Num Lib Types Docx Api Keep Copy History RegFacts Alias SpecAlias AliasFacts AliasFacts2 AliasFacts3 AliasFacts4 AliasFacts5 AliasFacts6.
Import ListNotations.
Local Open Scope list_scope.

Definition law_bodies := law_list _ _ _ _ law_items.
Definition bodies (h : heap) (ds : list (list hitem)) : option (list (list item)) := all_some (fun l => all_some (v_item h) l) ds.

(** the memory [m] holds the documents [W] *)
Definition rep (m : mem) (W : world) : Prop := bodies (m_heap m) (m_docs m) = Some (map d_items W) /\ m_w m = map strip W.

Lemma rep_view : forall m W, rep m W -> view m = Some W.
Proof.
  intros [h ds w] W. unfold rep, view, bodies. cbn [m_heap m_docs m_w]. revert w W. induction ds as [|l ds IH]; intros w W; cbn; intros [E1 E2].
  - destruct W; [|discriminate]. cbn in E2. subst. reflexivity.
  - destruct (all_some (v_item h) l) as [items|]; [|discriminate].
    destruct (all_some (fun l => all_some (v_item h) l) ds) as [bs|] eqn:Eb; [|discriminate]. destruct W as [|d W]; [discriminate|].
    cbn in E1, E2. inversion E1; subst. rewrite (IH (map strip W) W); [|auto]. destruct d; reflexivity.
Qed.

(** objects that may be reached only once: all of them, or those that hold lists *)
Definition inv_on (al : bool) (m : mem) : Prop := forall b, al = true \/ cont (m_heap m) b = true -> cnt (reach_all m) b <= 1.

Lemma inv_owned : forall al m, inv_on al m -> owned (m_heap m) (reach_all m).
Proof. intros al m I b Hb. apply I. auto. Qed.

Lemma rep_nth : forall m W d, rep m W ->
  match nth_error W d with
  | Some x => nth_error (m_w m) d = Some (strip x) /\ exists l, nth_error (m_docs m) d = Some l /\ all_some (v_item (m_heap m)) l = Some (d_items x)
  | None => nth_error (m_w m) d = None /\ nth_error (m_docs m) d = None
  end.
Proof.
  intros m W d [E1 E2]. rewrite E2, nth_strip. unfold bodies in E1.
  destruct (nth_error (m_docs m) d) as [l|] eqn:El.
  - destruct (all_some_nth _ _ _ _ _ _ _ E1 El) as (y & Ey & Vy). rewrite nth_error_map in Ey. destruct (nth_error W d) as [x|]; [|discriminate].
    inversion Ey; subst. split; [reflexivity|]. eauto.
  - pose proof (all_some_none _ _ _ _ _ _ E1 El) as En. rewrite nth_error_map in En. destruct (nth_error W d); [discriminate|]. auto.
Qed.
Lemma rep_len : forall m W, rep m W -> length (m_docs m) = length W /\ length (m_w m) = length W.
Proof.
  intros m W [E1 E2]. apply all_some_len in E1. rewrite map_length in E1. rewrite E2, map_length. auto.
Qed.
Lemma doc_sub : forall m d l, nth_error (m_docs m) d = Some l -> forall b, cnt (reach_doc (m_heap m) l) b <= cnt (reach_all m) b.
Proof. intros m d l E b. exact (in_sub _ (reach_doc (m_heap m)) _ _ _ E b). Qed.
Lemma all_bound : forall m W, rep m W -> forall b, In b (reach_all m) -> b < length (m_heap m).
Proof. intros m W [E _] b Hb. exact (l_bound _ _ law_bodies (m_heap m) (m_docs m) _ E b Hb). Qed.

Lemma moved_grows : forall A B (v : heap -> A -> option B) r, lawful v r -> forall h x y L' old new, v h x = Some y ->
  moved (r h x) L' old new -> grows h old new -> grows h (r h x) L'.
Proof.
  intros A B v r Lw h x y L' old new V M G b. specialize (M b). destruct (G b) as [G1 G2]. split; intros Hb.
  - specialize (G1 Hb). lia.
  - specialize (G2 Hb). assert (Z : cnt (r h x) b = 0) by (apply cnt_notin; intros Hin; apply (l_bound _ _ Lw h x y V) in Hin; lia). lia.
Qed.
Lemma grows_of_le : forall A B (v : heap -> A -> option B) r, lawful v r -> forall h x y L', v h x = Some y ->
  (forall b, cnt L' b <= cnt (r h x) b) -> grows h (r h x) L'.
Proof. exact grows_le. Qed.

(** a change inside one document *)
Lemma step_in_doc : forall al m W d l x h' S items' W', inv_on al m -> rep m W -> nth_error (m_docs m) d = Some l -> nth_error W d = Some x ->
  all_some (v_item h') l = Some items' -> touched (m_heap m) h' S -> incl S (reach_doc (m_heap m) l) ->
  (forall b, In b S -> once m b) ->
  grows (m_heap m) (reach_doc (m_heap m) l) (reach_doc h' l) -> kinds (m_heap m) h' ->
  map d_items W' = set_nth (map d_items W) d items' ->
  rep (mk_mem h' (m_docs m) (map strip W')) W' /\ inv_on al (mk_mem h' (m_docs m) (map strip W')).
Proof.
  intros al m W d l x h' S items' W' I R El Ex V' T Hs Ho G K EW.
  destruct (list_focus _ _ _ _ law_items (m_heap m) h' S (m_docs m) d (map d_items W) l items' (proj1 R) El Hs Ho T V') as [V2 C2].
  split; [split; [cbn [m_heap m_docs]; rewrite EW; exact V2|reflexivity]|].
  intros b Hb. cbn [m_heap] in Hb. specialize (C2 b). destruct (G b) as [G1 G2].
  change (reach_all (mk_mem h' (m_docs m) (map strip W'))) with (flat_map (fun l => flat_map (reach_item h') l) (m_docs m)).
  change (reach_doc h' l) with (flat_map (reach_item h') l) in *. change (reach_doc (m_heap m) l) with (flat_map (reach_item (m_heap m)) l) in *.
  destruct (Nat.lt_ge_cases b (length (m_heap m))) as [Hlt|Hge].
  - specialize (G1 Hlt). rewrite (K b Hlt) in Hb. specialize (I b Hb). unfold reach_all, reach_doc in I. lia.
  - specialize (G2 Hge). assert (Z : cnt (reach_all m) b = 0) by (apply cnt_notin; intros Hin; apply (all_bound _ _ R) in Hin; lia).
    unfold reach_all, reach_doc in Z. lia.
Qed.

(** replacing the list of a document *)
Lemma all_some_set : forall A B (f : A -> option B) l ys i y z, all_some f l = Some ys -> f y = Some z -> all_some f (set_nth l i y) = Some (set_nth ys i z).
Proof.
  induction l as [|x l IH]; intros ys i y z E Ey; cbn in E; [inversion E; reflexivity|].
  destruct (f x) eqn:Ex; [|discriminate]. destruct (all_some f l) eqn:El; [|discriminate]. inversion E; subst.
  destruct i; cbn; [rewrite Ey, El; reflexivity|]. rewrite Ex, (IH _ i y z eq_refl Ey). reflexivity.
Qed.
Lemma cnt_set : forall A (r : A -> list nat) l i x y b, nth_error l i = Some x ->
  cnt (flat_map r (set_nth l i y)) b + cnt (r x) b = cnt (flat_map r l) b + cnt (r y) b.
Proof.
  induction l as [|z l IH]; intros i x y b E; [destruct i; discriminate|]. destruct i; cbn in E |- *; rewrite !cnt_app.
  - inversion E; subst. lia.
  - specialize (IH i x y b E). lia.
Qed.

(** what a call leaves alone *)
Definition framed (o : op) (m m' : mem) : Prop :=
  exists S, touched (m_heap m) (m_heap m') S /\
    (forall b, In b S -> (cont (m_heap m) b = true /\ exists d, target o = Some d /\ In b (reach_of m d)) \/ In b (written o m)) /\
    length (m_docs m) <= length (m_docs m') /\
    (forall s, s < length (m_docs m) -> target o <> Some s -> nth_error (m_docs m') s = nth_error (m_docs m) s).

Definition is_copy (o : op) : bool := match o with OAppend _ _ | OSplit _ _ => true | _ => false end.
Definition okstep `{GoLib} (al : bool) (o : op) (m : mem) (x : res world) : Prop :=
  match x with
  | Ok W' => exists m', hexec o m = Ok m' /\ rep m' W' /\ inv_on al m' /\ framed o m m'
  | Err e => hexec o m = Err e
  | Panic => hexec o m = Panic
  end.

Lemma in_doc_of : forall m d l b, nth_error (m_docs m) d = Some l -> In b (reach_doc (m_heap m) l) -> In b (reach_of m d).
Proof. intros m d l b E Hb. unfold reach_of. rewrite E. exact Hb. Qed.

(** *** new documents *)
Lemma new_step : forall al m W x, inv_on al m -> rep m W ->
  rep (h_new x m) (W ++ [x]) /\ inv_on al (h_new x m) /\ keeps (m_heap m) (m_heap (h_new x m)) /\ exists l, m_docs (h_new x m) = m_docs m ++ [l].
Proof.
  intros al m W x I R. unfold h_new. destruct (al_list al_item (d_items x) (m_heap m)) as [h l] eqn:E.
  destruct (makes_items _ _ _ _ E) as (K & V & N & G). cbn [m_heap m_docs m_w].
  destruct (law_keeps _ _ _ _ law_bodies (m_heap m) h (m_docs m) _ K (proj1 R)) as [VB RB].
  split; [|split; [|split; [exact K|eauto]]].
  - split; cbn [m_heap m_docs m_w].
    + rewrite map_app. apply all_some_app; [exact VB|]. cbn. rewrite V. reflexivity.
    + rewrite map_app, (proj2 R). reflexivity.
  - intros b Hb. cbn [m_heap] in Hb. unfold reach_all. cbn [m_heap m_docs]. rewrite flat_map_app. cbn [flat_map]. rewrite app_nil_r, cnt_app.
    unfold reach_doc at 1. rewrite RB. unfold reach_doc. pose proof (cnt_nodup _ b N) as C1.
    destruct (Nat.lt_ge_cases b (length (m_heap m))) as [Hlt|Hge].
    + assert (Z : cnt (flat_map (reach_item h) l) b = 0) by (apply cnt_notin; intros Hin; apply G in Hin; lia).
      rewrite (kinds_keeps _ _ K b Hlt) in Hb. specialize (I b Hb). unfold reach_all, reach_doc in I. lia.
    + assert (Z : cnt (reach_all m) b = 0) by (apply cnt_notin; intros Hin; apply (all_bound _ _ R) in Hin; lia). unfold reach_all, reach_doc in Z. lia.
Qed.

Lemma framed_keeps : forall o m m', keeps (m_heap m) (m_heap m') -> length (m_docs m) <= length (m_docs m') ->
  (forall s, s < length (m_docs m) -> target o <> Some s -> nth_error (m_docs m') s = nth_error (m_docs m) s) -> framed o m m'.
Proof. intros o m m' K L D. exists []. split; [apply touched_keeps; exact K|]. split; [intros b []|]. auto. Qed.

Lemma ok_new : forall (L : GoLib) al o m W x, inv_on al m -> rep m W -> hexec o m = Ok (h_new x m) -> exec o W = Ok (W ++ [x]) -> target o = None -> okstep al o m (exec o W).
Proof.
  intros L al o m W x I R E1 E2 Et. rewrite E2. destruct (new_step al m W x I R) as (R' & I' & K & l & El). exists (h_new x m). split; [exact E1|]. split; [exact R'|]. split; [exact I'|].
  apply framed_keeps; [exact K| |]; rewrite El; [rewrite app_length; lia|]. intros s Hs _. apply nth_error_app1. exact Hs.
Qed.

(** *** additions to the body *)
Lemma grow_step : forall (L : GoLib) al o m W d k, inv_on al m -> rep m W -> target o = Some d -> hexec o m = h_grow d k m -> exec o W = on_doc W d k ->
  (forall x, k x = bind (k (strip x)) (fun y => Ok (set_d_items (d_items x ++ d_items y) y))) -> okstep al o m (exec o W).
Proof.
  intros L al o m W d k I R Et E1 E2 Hk. rewrite E2. unfold on_doc. pose proof (rep_nth m W d R) as N. destruct (nth_error W d) as [x|] eqn:Ex.
  - destruct N as (Nw & l & Nl & Vl). rewrite (Hk x). unfold okstep. rewrite E1. unfold h_grow. rewrite Nl, Nw. destruct (k (strip x)) as [y|e|]; cbn [bind]; [|reflexivity|reflexivity].
    destruct (al_list al_item (d_items y) (m_heap m)) as [h l'] eqn:E. destruct (makes_items _ _ _ _ E) as (K & V & N & G).
    eexists. split; [reflexivity|].
    destruct (law_keeps _ _ _ _ law_bodies (m_heap m) h (m_docs m) _ K (proj1 R)) as [VB RB].
    destruct (law_keeps _ _ _ _ law_items (m_heap m) h l _ K Vl) as [VL RL].
    split; [|split].
    + split; cbn [m_heap m_docs m_w].
      * rewrite set_nth_map. cbn [d_items set_d_items]. apply (all_some_set _ _ (fun l => all_some (v_item h) l)); [exact VB|]. apply all_some_app; assumption.
      * rewrite (proj2 R), set_nth_map. reflexivity.
    + intros b Hb. cbn [m_heap] in Hb. unfold reach_all. cbn [m_heap m_docs].
      pose proof (cnt_set _ (reach_doc h) (m_docs m) d l (l ++ l') b Nl) as C. unfold reach_doc in C at 2 4. rewrite flat_map_app, cnt_app in C.
      change (flat_map (reach_doc h) (m_docs m)) with (flat_map (fun l => flat_map (reach_item h) l) (m_docs m)) in C. rewrite RB in C.
      pose proof (cnt_nodup _ b N) as C1.
      destruct (Nat.lt_ge_cases b (length (m_heap m))) as [Hlt|Hge].
      * assert (Z : cnt (flat_map (reach_item h) l') b = 0) by (apply cnt_notin; intros Hin; apply G in Hin; lia).
        rewrite (kinds_keeps _ _ K b Hlt) in Hb. specialize (I b Hb). unfold reach_all, reach_doc in I. unfold reach_doc in C |- *. lia.
      * assert (Z : cnt (reach_all m) b = 0) by (apply cnt_notin; intros Hin; apply (all_bound _ _ R) in Hin; lia). unfold reach_all, reach_doc in Z. unfold reach_doc in C |- *. lia.
    + apply framed_keeps; cbn [m_heap m_docs]; [exact K|rewrite set_nth_length; lia|]. intros s Hs Ht. apply set_nth_other. intros ->. apply Ht. exact Et.
  - destruct N as [Nw Nl]. unfold okstep. rewrite E1. unfold h_grow. rewrite Nl. reflexivity.
Qed.

(** *** writing a property object *)
Lemma deref_upd_other : forall A (as_ : obj -> option A) h a b o, a <> b -> deref as_ (upd h a o) b = deref as_ h b.
Proof. intros. apply deref_agree. unfold upd. apply set_nth_other. exact H. Qed.

Lemma prop_write : forall C Q A B Y (as_ : obj -> option C) (as1 : obj -> option Q) (p : C -> option nat) (q : C -> list A)
  (v : heap -> A -> option B) r (f : C -> option Q -> list B -> Y) (mk1 : Q -> obj), lawful v r ->
  (forall x, as1 (mk1 x) = Some x) -> (forall x, is_cont (mk1 x) = false) ->
  (forall h a c, deref as_ h a = Some c -> cont h a = true) -> (forall h a c, deref as1 h a = Some c -> cont h a = false) ->
  let V h a := match deref as_ h a with
               | Some c => match maybe (deref as1 h) (p c), all_some (v h) (q c) with Some x, Some y => Some (f c x y) | _, _ => None end
               | None => None
               end in
  let R h a := a :: match deref as_ h a with Some c => ptr (p c) ++ flat_map (r h) (q c) | None => [] end in
  forall h a c y b x x', deref as_ h a = Some c -> V h a = Some y -> p c = Some b -> deref as1 h b = Some x -> cnt (R h a) b <= 1 ->
  exists ys, y = f c (Some x) ys /\ V (upd h b (mk1 x')) a = Some (f c (Some x') ys) /\ R (upd h b (mk1 x')) a = R h a /\ In b (R h a) /\
    kinds h (upd h b (mk1 x')) /\ touched h (upd h b (mk1 x')) [b].
Proof.
  intros C Q A B Y as_ as1 p q v r f mk1 Lw M1 M2 K1 K2 V R h a c y b x x' D Vy Ep D1 Ob. unfold V, R in *. rewrite D, Ep in *. cbn [maybe ptr] in *. rewrite D1 in Vy.
  destruct (all_some (v h) (q c)) as [ys|] eqn:Ey; [|discriminate]. inversion Vy; subst y. exists ys. split; [reflexivity|].
  assert (Hab : a <> b) by (intros ->; apply K1 in D; apply K2 in D1; congruence).
  assert (Hb : b < length h) by (eapply deref_bound; eauto).
  rewrite !deref_upd_other by auto. rewrite D, Ep. cbn [maybe ptr]. rewrite (deref_upd _ as1 h b (mk1 x') Hb), M1.
  cbn [count_occ app] in Ob. destruct (Nat.eq_dec b b) as [_|]; [|tauto].
  assert (Nb : ~ In b (flat_map (r h) (q c))) by (intros Hin; apply cnt_in in Hin; destruct (Nat.eq_dec a b); lia).
  destruct (touched_agree _ _ _ _ (law_list _ _ _ _ Lw) h (upd h b (mk1 x')) [b] (q c) ys Ey (touched_upd _ _ _)) as [Vy' Ry'].
  { intros z [<-|[]]. exact Nb. }
  cbn beta in Vy', Ry'. rewrite Vy', Ry'. split; [reflexivity|]. split; [reflexivity|]. split; [right; left; reflexivity|]. split; [|apply touched_upd].
  apply kinds_upd. rewrite (K2 _ _ _ D1), M2. reflexivity.
Qed.
