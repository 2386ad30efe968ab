(** Documents in memory: replacing what is reached at one place. *)
From Coq Require Import String List Bool Arith Lia.
From Verif Require Import GoStr Num Lib Types Docx Api Keep Copy History RegFacts Alias SpecAlias AliasFacts.
Import ListNotations.
Local Open Scope list_scope.

Notation cnt := (count_occ Nat.eq_dec).

Lemma cnt_app : forall l l' b, cnt (l ++ l') b = cnt l b + cnt l' b.
Proof. intros. apply count_occ_app. Qed.
Lemma cnt_in : forall l b, In b l -> 1 <= cnt l b.
Proof. intros l b H. apply (count_occ_In Nat.eq_dec) in H. lia. Qed.
Lemma cnt_notin : forall l b, ~ In b l -> cnt l b = 0.
Proof. intros l b H. apply count_occ_not_In. exact H. Qed.
Lemma cnt_nodup : forall l b, NoDup l -> cnt l b <= 1.
Proof. intros l b H. apply (proj1 (NoDup_count_occ Nat.eq_dec l)). exact H. Qed.
Lemma cnt_le_in : forall l b n, cnt l b = n -> n = 0 -> ~ In b l.
Proof. intros l b n E Z Hin. apply cnt_in in Hin. lia. Qed.

(** [h'] differs from [h] only in [S], and may be longer *)
Definition touched (h h' : heap) (S : list nat) : Prop :=
  length h <= length h' /\ forall b, b < length h -> ~ In b S -> nth_error h' b = nth_error h b.

Lemma touched_agree : forall A B (v : heap -> A -> option B) r, lawful v r -> forall h h' S a y,
  v h a = Some y -> touched h h' S -> (forall b, In b S -> ~ In b (r h a)) -> v h' a = Some y /\ r h' a = r h a.
Proof.
  intros A B v r L h h' S a y V [_ T] D. destruct (l_frame _ _ L h h' a) as [-> ->]; [|auto].
  intros b Hb. apply T; [exact (l_bound _ _ L h a y V b Hb)|]. intros Hs. exact (D b Hs Hb).
Qed.

Lemma list_focus : forall A B (v : heap -> A -> option B) r, lawful v r -> forall h h' S L i ys x y',
  all_some (v h) L = Some ys -> nth_error L i = Some x -> incl S (r h x) ->
  (forall b, In b S -> cnt (flat_map (r h) L) b <= 1) -> touched h h' S -> v h' x = Some y' ->
  all_some (v h') L = Some (set_nth ys i y') /\
  (forall b, cnt (flat_map (r h') L) b + cnt (r h x) b = cnt (flat_map (r h) L) b + cnt (r h' x) b).
Proof.
  intros A B v r Lw h h' S L. induction L as [|z L IH]; intros i ys x y' V Hi Hs Hc T V'; [destruct i; discriminate|].
  cbn in V. destruct (v h z) as [yz|] eqn:Ez; [|discriminate]. destruct (all_some (v h) L) as [yl|] eqn:El; [|discriminate].
  inversion V; subst ys. destruct i as [|i]; cbn in Hi.
  - inversion Hi; subst z. cbn [all_some flat_map set_nth]. rewrite V'.
    destruct (touched_agree _ _ _ _ (law_list _ _ _ _ Lw) h h' S L yl El T) as [E1 E2].
    { intros b Hb Hin. specialize (Hc b Hb). cbn in Hc. rewrite cnt_app in Hc. apply cnt_in in Hin. apply Hs in Hb. apply cnt_in in Hb. lia. }
    cbn in E1, E2. rewrite E1, E2. split; [reflexivity|]. intros b. rewrite !cnt_app. lia.
  - cbn [all_some flat_map set_nth].
    destruct (touched_agree _ _ _ _ Lw h h' S z yz Ez T) as [E1 E2].
    { intros b Hb Hin. specialize (Hc b Hb). cbn in Hc. rewrite cnt_app in Hc. apply cnt_in in Hin. apply Hs in Hb.
      assert (Hf : In b (flat_map (r h) L)) by (apply in_flat_map; exists x; split; [eapply nth_error_In; eauto|exact Hb]).
      apply cnt_in in Hf. lia. }
    rewrite E1, E2. destruct (IH i yl x y' eq_refl Hi Hs) as [V2 C2]; auto.
    { intros b Hb. specialize (Hc b Hb). cbn in Hc. rewrite cnt_app in Hc. lia. }
    rewrite V2. split; [reflexivity|]. intros b. rewrite !cnt_app. specialize (C2 b). lia.
Qed.

(** the same for an object with properties and a list of elements *)
Lemma obj_focus : forall C Q A B Y (as_ : obj -> option C) (as1 : obj -> option Q) (p : C -> option nat) (q : C -> list A)
  (v : heap -> A -> option B) r (f : C -> option Q -> list B -> Y), lawful v r ->
  let V h a := match deref as_ h a with
               | Some c => match maybe (deref as1 h) (p c), all_some (v h) (q c) with Some x, Some y => Some (f c x y) | _, _ => None end
               | None => None
               end in
  let R h a := a :: match deref as_ h a with Some c => ptr (p c) ++ flat_map (r h) (q c) | None => [] end in
  forall h h' S a c i y x y', V h a = Some y -> deref as_ h a = Some c -> nth_error (q c) i = Some x ->
  incl S (r h x) -> (forall b, In b S -> cnt (R h a) b <= 1) -> touched h h' S -> v h' x = Some y' ->
  exists pv ys, maybe (deref as1 h) (p c) = Some pv /\ all_some (v h) (q c) = Some ys /\ y = f c pv ys /\
    incl S (R h a) /\ V h' a = Some (f c pv (set_nth ys i y')) /\
    (forall b, cnt (R h' a) b + cnt (r h x) b = cnt (R h a) b + cnt (r h' x) b).
Proof.
  intros C Q A B Y as_ as1 p q v r f Lw V R h h' S a c i y x y' E D Hi Hs Hc T V'.
  unfold V in E. rewrite D in E. destruct (maybe (deref as1 h) (p c)) as [pv|] eqn:Ep; [|discriminate].
  destruct (all_some (v h) (q c)) as [ys|] eqn:Eq; [|discriminate]. inversion E; subst y.
  assert (Hf : forall b, In b S -> In b (flat_map (r h) (q c))).
  { intros b Hb. apply in_flat_map. exists x. split; [eapply nth_error_In; eauto|]. apply Hs. exact Hb. }
  assert (HR : R h a = (a :: ptr (p c)) ++ flat_map (r h) (q c)) by (unfold R; rewrite D; reflexivity).
  assert (Hpre : forall b, In b S -> ~ In b (a :: ptr (p c))).
  { intros b Hb Hin. specialize (Hc b Hb). rewrite HR, cnt_app in Hc. apply cnt_in in Hin. specialize (Hf b Hb). apply cnt_in in Hf. lia. }
  destruct (list_focus _ _ v r Lw h h' S (q c) i ys x y') as [V2 C2]; auto.
  { intros b Hb. specialize (Hc b Hb). rewrite HR, cnt_app in Hc. lia. }
  assert (D' : deref as_ h' a = Some c).
  { rewrite <- D. apply deref_agree. apply T; [eapply deref_bound; eauto|]. intros Hb. apply (Hpre a Hb). simpl. auto. }
  destruct (touched_agree _ _ _ _ (law_prop _ as1) h h' S (p c) pv Ep T) as [P' _].
  { intros b Hb Hin. apply (Hpre b Hb). simpl. auto. }
  exists pv, ys. repeat split; auto.
  - intros b Hb. rewrite HR. apply in_or_app. auto.
  - unfold V. rewrite D', P', V2. reflexivity.
  - intros b. unfold R. rewrite D, D'. cbn [count_occ]. rewrite !cnt_app. specialize (C2 b).
    destruct (Nat.eq_dec a b); lia.
Qed.
Definition para_focus := obj_focus _ _ _ _ _ as_para as_ppr hp_ppr hp_children v_child reach_child (fun p q c => mk_para q c (hp_file p)) law_child.
Definition cell_focus := obj_focus _ _ _ _ _ as_cell as_tc hc_tc hc_paras v_para reach_para (fun p q c => mk_cell q c (hc_file p)) law_para.
Definition row_focus := obj_focus _ _ _ _ _ as_row as_tr hw_tr hw_cells v_cell reach_cell (fun p q c => mk_row q c) law_cell.
Definition table_focus := obj_focus _ _ _ _ _ as_table as_tbl ht_tbl ht_rows v_row reach_row (fun p q c => mk_table q (ht_grid p) c) law_row.

Lemma all_some_nth : forall A B (f : A -> option B) l ys i x, all_some f l = Some ys -> nth_error l i = Some x ->
  exists y, nth_error ys i = Some y /\ f x = Some y.
Proof.
  induction l as [|z l IH]; intros ys i x E Hi; [destruct i; discriminate|]. cbn in E.
  destruct (f z) eqn:Ez; [|discriminate]. destruct (all_some f l) eqn:El; [|discriminate]. inversion E; subst.
  destruct i; cbn in *; [inversion Hi; subst; eauto|eauto].
Qed.
Lemma all_some_len : forall A B (f : A -> option B) l ys, all_some f l = Some ys -> length ys = length l.
Proof.
  induction l as [|z l IH]; intros ys E; cbn in E; [inversion E; reflexivity|].
  destruct (f z); [|discriminate]. destruct (all_some f l) eqn:El; [|discriminate]. inversion E; cbn. f_equal. auto.
Qed.
Lemma all_some_none : forall A B (f : A -> option B) l ys i, all_some f l = Some ys -> nth_error l i = None -> nth_error ys i = None.
Proof. intros A B f l ys i E Hi. apply nth_error_None. apply nth_error_None in Hi. rewrite (all_some_len _ _ _ _ _ E). exact Hi. Qed.

(** ** Looking up rows, cells and paragraphs *)
Definition get_row (l : list item) (i r : nat) : option row :=
  match nth_error l i with Some (ITable t) => nth_error (table_rows t) r | _ => None end.

Lemma table_inv : forall h a t, v_table h a = Some t -> exists ht, deref as_table h a = Some ht /\
  maybe (deref as_tbl h) (ht_tbl ht) = Some (table_props t) /\ all_some (v_row h) (ht_rows ht) = Some (table_rows t) /\ ht_grid ht = table_grid t.
Proof.
  intros h a t E. unfold v_table in E. destruct (deref as_table h a) as [ht|]; [|discriminate]. exists ht.
  destruct (maybe (deref as_tbl h) (ht_tbl ht)); [|discriminate]. destruct (all_some (v_row h) (ht_rows ht)); [|discriminate].
  inversion E; subst. auto.
Qed.
Lemma row_inv : forall h a t, v_row h a = Some t -> exists hw, deref as_row h a = Some hw /\
  maybe (deref as_tr h) (hw_tr hw) = Some (row_props t) /\ all_some (v_cell h) (hw_cells hw) = Some (row_cells t).
Proof.
  intros h a t E. unfold v_row in E. destruct (deref as_row h a) as [ht|]; [|discriminate]. exists ht.
  destruct (maybe (deref as_tr h) (hw_tr ht)); [|discriminate]. destruct (all_some (v_cell h) (hw_cells ht)); [|discriminate].
  inversion E; subst. auto.
Qed.
Lemma cell_inv : forall h a t, v_cell h a = Some t -> exists hc, deref as_cell h a = Some hc /\
  maybe (deref as_tc h) (hc_tc hc) = Some (cell_props t) /\ all_some (v_para h) (hc_paras hc) = Some (cell_paras t) /\ hc_file hc = cell_file t.
Proof.
  intros h a t E. unfold v_cell in E. destruct (deref as_cell h a) as [ht|]; [|discriminate]. exists ht.
  destruct (maybe (deref as_tc h) (hc_tc ht)); [|discriminate]. destruct (all_some (v_para h) (hc_paras ht)); [|discriminate].
  inversion E; subst. auto.
Qed.
Lemma para_inv : forall h a p, v_para h a = Some p -> exists hp, deref as_para h a = Some hp /\
  maybe (deref as_ppr h) (hp_ppr hp) = Some (para_ppr p) /\ all_some (v_child h) (hp_children hp) = Some (para_children p) /\ hp_file hp = para_file p.
Proof.
  intros h a t E. unfold v_para in E. destruct (deref as_para h a) as [ht|]; [|discriminate]. exists ht.
  destruct (maybe (deref as_ppr h) (hp_ppr ht)); [|discriminate]. destruct (all_some (v_child h) (hp_children ht)); [|discriminate].
  inversion E; subst. auto.
Qed.

Section Lookup.
Variable h : heap.
Variable l : list hitem.
Variable items : list item.
Hypothesis V : all_some (v_item h) l = Some items.

Lemma look_item : forall i,
  match nth_error items i with
  | Some (IPara p) => exists a, nth_error l i = Some (HIPara a) /\ v_para h a = Some p
  | Some (ITable t) => exists a, nth_error l i = Some (HITable a) /\ v_table h a = Some t
  | Some (ISect s) => nth_error l i = Some (HISect s)
  | None => nth_error l i = None
  end.
Proof.
  intros i. destruct (nth_error l i) as [x|] eqn:E.
  - destruct (all_some_nth _ _ _ _ _ _ _ V E) as (y & -> & Ey). destruct x as [a|a|s]; cbn in Ey.
    + destruct (v_para h a) eqn:Ea; [|discriminate]. inversion Ey; subst. eauto.
    + destruct (v_table h a) eqn:Ea; [|discriminate]. inversion Ey; subst. eauto.
    + inversion Ey; subst. reflexivity.
  - rewrite (all_some_none _ _ _ _ _ _ V E). reflexivity.
Qed.
Lemma look_row : forall i r,
  match get_row items i r with
  | Some y => exists a, h_row h l i r = Some a /\ v_row h a = Some y
  | None => h_row h l i r = None
  end.
Proof.
  intros i r. unfold get_row, h_row. pose proof (look_item i) as H. destruct (nth_error items i) as [[p|t|s]|].
  - destruct H as (a & -> & _). reflexivity.
  - destruct H as (a & -> & Ha). destruct (table_inv _ _ _ Ha) as (ht & -> & _ & Hr & _).
    destruct (nth_error (ht_rows ht) r) as [b|] eqn:Eb.
    + destruct (all_some_nth _ _ _ _ _ _ _ Hr Eb) as (y & -> & Ey). eauto.
    + rewrite (all_some_none _ _ _ _ _ _ Hr Eb). reflexivity.
  - rewrite H. reflexivity.
  - rewrite H. reflexivity.
Qed.
Lemma get_cell_row : forall i r c, get_cell items i r c = match get_row items i r with Some x => nth_error (row_cells x) c | None => None end.
Proof. intros. unfold get_cell, get_row. destruct (nth_error items i) as [[p|t|s]|]; reflexivity. Qed.
Lemma look_cell : forall i r c,
  match get_cell items i r c with
  | Some y => exists a, h_cell h l i r c = Some a /\ v_cell h a = Some y
  | None => h_cell h l i r c = None
  end.
Proof.
  intros i r c. rewrite get_cell_row. unfold h_cell. pose proof (look_row i r) as H. destruct (get_row items i r) as [x|].
  - destruct H as (a & -> & Ha). destruct (row_inv _ _ _ Ha) as (hw & -> & _ & Hc).
    destruct (nth_error (hw_cells hw) c) as [b|] eqn:Eb.
    + destruct (all_some_nth _ _ _ _ _ _ _ Hc Eb) as (y & -> & Ey). eauto.
    + rewrite (all_some_none _ _ _ _ _ _ Hc Eb). reflexivity.
  - rewrite H. reflexivity.
Qed.
Lemma look_para : forall p,
  match get_para items p with
  | Some y => exists a, h_para h l p = Some a /\ v_para h a = Some y
  | None => h_para h l p = None
  end.
Proof.
  intros [i|i r c k]; cbn.
  - pose proof (look_item i) as H. destruct (nth_error items i) as [[p|t|s]|].
    + destruct H as (a & -> & Ha). eauto.
    + destruct H as (a & -> & _). reflexivity.
    + rewrite H. reflexivity.
    + rewrite H. reflexivity.
  - pose proof (look_cell i r c) as H. destruct (get_cell items i r c) as [x|].
    + destruct H as (a & -> & Ha). destruct (cell_inv _ _ _ Ha) as (hc & -> & _ & Hp & _).
      destruct (nth_error (hc_paras hc) k) as [b|] eqn:Eb.
      * destruct (all_some_nth _ _ _ _ _ _ _ Hp Eb) as (y & -> & Ey). eauto.
      * rewrite (all_some_none _ _ _ _ _ _ Hp Eb). reflexivity.
    + rewrite H. reflexivity.
Qed.

(** ** Replacing one of them *)
Variable h' : heap.
Variable S : list nat.
Hypothesis T : touched h h' S.
Hypothesis Once : forall b, In b S -> cnt (reach_doc h l) b <= 1.

(** the counts when the reached objects [old] become [new] *)
Definition moved (L L' old new : list nat) : Prop := forall b, cnt L' b + cnt old b = cnt L b + cnt new b.

Lemma sub_item : forall i x, nth_error l i = Some x -> forall b, In b S -> cnt (reach_item h x) b <= 1.
Proof.
  intros i x E b Hb. specialize (Once b Hb). revert Once. unfold reach_doc. clear V T. revert i E.
  induction l as [|z l0 IH]; intros i E C; [destruct i; discriminate|]. cbn in C. rewrite cnt_app in C.
  destruct i; cbn in E; [inversion E; subst; lia|]. apply (IH i E). lia.
Qed.
Lemma focus_item : forall i x y', nth_error l i = Some x -> incl S (reach_item h x) -> v_item h' x = Some y' ->
  all_some (v_item h') l = Some (set_nth items i y') /\ moved (reach_doc h l) (reach_doc h' l) (reach_item h x) (reach_item h' x).
Proof. intros i x y' E Hs V'. exact (list_focus _ _ _ _ law_item h h' S l i items x y' V E Hs Once T V'). Qed.

Lemma in_sub : forall A (r : A -> list nat) (L : list A) i x, nth_error L i = Some x -> forall b, cnt (r x) b <= cnt (flat_map r L) b.
Proof.
  induction L as [|z L IH]; intros i x E b; [destruct i; discriminate|]. cbn. rewrite cnt_app.
  destruct i; cbn in E; [inversion E; subst; lia|]. specialize (IH i x E b). lia.
Qed.

Lemma focus_row : forall i r a y', h_row h l i r = Some a -> incl S (reach_row h a) -> v_row h' a = Some y' ->
  exists t, nth_error items i = Some (ITable t) /\
  all_some (v_item h') l = Some (set_nth items i (ITable (set_table_rows (set_nth (table_rows t) r y') t))) /\
  moved (reach_doc h l) (reach_doc h' l) (reach_row h a) (reach_row h' a).
Proof.
  intros i r a y' E Hs V'. unfold h_row in E. pose proof (look_item i) as H.
  destruct (nth_error l i) as [[b|b|s]|] eqn:El; try discriminate.
  destruct (nth_error items i) as [[p|t|s]|]; try (destruct H as (? & [=] & _); fail); try discriminate.
  destruct H as (b' & [= <-] & Hb). destruct (table_inv _ _ _ Hb) as (ht & D & P & Hr & Hg). rewrite D in E.
  assert (Hone : forall c, In c S -> cnt (reach_table h b) c <= 1) by (intros c; exact (sub_item i _ El c)).
  destruct (table_focus h h' S b ht r t a y' Hb D E Hs Hone T V') as (pv & ys & Ep & Ey & Et & Hs' & V2 & C2).
  exists t. split; [reflexivity|].
  rewrite Hr in Ey. inversion Ey; subst ys.
  destruct (focus_item i (HITable b) (ITable (mk_table pv (ht_grid ht) (set_nth (table_rows t) r y'))) El Hs') as [V3 C3].
  { cbn [v_item]. change (v_table h' b) with (v_table h' b). unfold v_table. rewrite V2. reflexivity. }
  split.
  - rewrite V3. do 3 f_equal. rewrite Et. destruct t; cbn. reflexivity.
  - intros c. specialize (C2 c). specialize (C3 c). cbn [reach_item] in C3. unfold reach_table in C3. lia.
Qed.
Lemma focus_cell : forall i r c a y', h_cell h l i r c = Some a -> incl S (reach_cell h a) -> v_cell h' a = Some y' ->
  all_some (v_item h') l = Some (put_cell items i r c y') /\
  moved (reach_doc h l) (reach_doc h' l) (reach_cell h a) (reach_cell h' a).
Proof.
  intros i r c a y' E Hs V'. unfold h_cell in E. destruct (h_row h l i r) as [b|] eqn:Er; [|discriminate].
  pose proof (look_row i r) as H. destruct (get_row items i r) as [x|] eqn:Ex; [|congruence].
  destruct H as (b' & Er' & Hb). rewrite Er in Er'. inversion Er'; subst b'.
  destruct (row_inv _ _ _ Hb) as (hw & D & P & Hc). rewrite D in E.
  assert (Hone : forall d, In d S -> cnt (reach_row h b) d <= 1).
  { unfold h_row in Er. destruct (nth_error l i) as [[?|q|?]|] eqn:El; try discriminate.
    destruct (deref as_table h q) as [ht|] eqn:Dq; [|discriminate]. intros d Hd.
    pose proof (sub_item i _ El d Hd) as C. cbn [reach_item] in C. unfold reach_table in C. rewrite Dq in C. cbn [count_occ] in C.
    rewrite cnt_app in C. pose proof (in_sub _ (reach_row h) _ _ _ Er d). destruct (Nat.eq_dec q d); lia. }
  destruct (row_focus h h' S b hw c x a y' Hb D E Hs Hone T V') as (pv & ys & Ep & Ey & Et & Hs' & V2 & C2).
  rewrite Hc in Ey. inversion Ey; subst ys.
  destruct (focus_row i r b (mk_row pv (set_nth (row_cells x) c y')) Er Hs' V2) as (t & Ei & V3 & C3).
  unfold get_row in Ex. rewrite Ei in Ex. split.
  - rewrite V3. unfold put_cell. rewrite Ei, Ex. do 6 f_equal. rewrite Et. destruct x; reflexivity.
  - intros d. specialize (C2 d). specialize (C3 d). unfold reach_row in C3. lia.
Qed.
Lemma focus_para : forall p a y', h_para h l p = Some a -> incl S (reach_para h a) -> v_para h' a = Some y' ->
  all_some (v_item h') l = Some (put_para items p y') /\
  moved (reach_doc h l) (reach_doc h' l) (reach_para h a) (reach_para h' a).
Proof.
  intros [i|i r c k] a y' E Hs V'; cbn [h_para] in E.
  - destruct (nth_error l i) as [[b|b|s]|] eqn:El; try discriminate. inversion E; subst b.
    destruct (focus_item i (HIPara a) (IPara y') El Hs) as [V3 C3]; [cbn; rewrite V'; reflexivity|]. auto.
  - destruct (h_cell h l i r c) as [b|] eqn:Ec; [|discriminate].
    pose proof (look_cell i r c) as H. destruct (get_cell items i r c) as [x|] eqn:Ex; [|congruence].
    destruct H as (b' & Ec' & Hb). rewrite Ec in Ec'. inversion Ec'; subst b'.
    destruct (cell_inv _ _ _ Hb) as (hc & D & P & Hp & Hf). rewrite D in E.
    assert (Hone : forall d, In d S -> cnt (reach_cell h b) d <= 1).
    { unfold h_cell in Ec. destruct (h_row h l i r) as [q|] eqn:Er; [|discriminate].
      destruct (deref as_row h q) as [hw|] eqn:Dw; [|discriminate].
      unfold h_row in Er. destruct (nth_error l i) as [[?|u|?]|] eqn:El; try discriminate.
      destruct (deref as_table h u) as [ht|] eqn:Du; [|discriminate]. intros d Hd.
      pose proof (sub_item i _ El d Hd) as C. cbn [reach_item] in C. unfold reach_table in C. rewrite Du in C. cbn [count_occ] in C.
      rewrite cnt_app in C. pose proof (in_sub _ (reach_row h) _ _ _ Er d) as C1.
      assert (C2 : cnt (reach_cell h b) d <= cnt (reach_row h q) d).
      { unfold reach_row. rewrite Dw. cbn [count_occ]. rewrite cnt_app. pose proof (in_sub _ (reach_cell h) _ _ _ Ec d).
        destruct (Nat.eq_dec q d); lia. }
      destruct (Nat.eq_dec u d); lia. }
    destruct (cell_focus h h' S b hc k x a y' Hb D E Hs Hone T V') as (pv & ys & Ep & Ey & Et & Hs' & V2 & C2).
    rewrite Hp in Ey. inversion Ey; subst ys.
    destruct (focus_cell i r c b (mk_cell pv (set_nth (cell_paras x) k y') (hc_file hc)) Ec Hs' V2) as [V3 C3]. split.
    + rewrite V3. cbn. rewrite Ex. do 2 f_equal. rewrite Et. destruct x; reflexivity.
    + intros d. specialize (C2 d). specialize (C3 d). unfold reach_cell in C3. lia.
Qed.
End Lookup.
