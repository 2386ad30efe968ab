(** The loop of MergeText. *)
From Coq Require Import String Ascii List Bool Arith NArith ZArith Lia.
From Verif Require Import GoStr Num Lib Types Docx Text Merge SpecApi SpecMerge MergeFacts MergeFacts2.
Import ListNotations.
Local Open Scope list_scope.
Local Open Scope string_scope.

Definition good (l : list mitem) (h : heap) : Prop :=
  NoDup (icells l) /\ forall a, In a (icells l) -> a < length h /\ hget h a <> "".

Lemma nodup_app : forall (a b : list nat), NoDup a -> NoDup b -> (forall x, In x a -> ~ In x b) -> NoDup (a ++ b)%list.
Proof.
  induction a as [|x a IH]; intros b A B D; [exact B|].
  inversion A; subst. cbn. constructor.
  - intros I. apply in_app_or in I as [I|I]; [contradiction|]. apply (D x); [now left|exact I].
  - apply IH; auto. intros y I. apply D. now right.
Qed.
Lemma nodup_l : forall (a b : list nat), NoDup (a ++ b)%list -> NoDup a.
Proof. induction a; intros b H; [constructor|]. inversion H; subst. constructor; [|eauto]. intros I. apply H2. apply in_or_app. now left. Qed.
Lemma nodup_r : forall (a b : list nat), NoDup (a ++ b)%list -> NoDup b.
Proof. induction a; intros b H; [exact H|]. inversion H; subst. eauto. Qed.
Lemma nodup_d : forall (a b : list nat) x, NoDup (a ++ b)%list -> In x a -> ~ In x b.
Proof.
  induction a; intros b x H I J; [destruct I|]. inversion H; subst. destruct I as [<-|I]; [|now apply (IHa b x)].
  apply H2. apply in_or_app. now right.
Qed.
Lemma look_ext : forall h h' l, (forall a, In a (icells l) -> hget h' a = hget h a) -> map (look_item h') l = map (look_item h) l.
Proof.
  intros h h' l. induction l as [|i l IH]; intros E; [reflexivity|]. cbn. rewrite IH.
  - f_equal. destruct i as [r|c]; [|reflexivity]. cbn. f_equal. unfold look_run. f_equal.
    assert (R : forall a, In a (mcells (runR_children r)) -> hget h' a = hget h a).
    { intros a I. apply E. cbn. apply in_or_app. now left. }
    clear - R. induction (runR_children r) as [|c l IH]; [reflexivity|]. cbn. rewrite IH.
    + f_equal. destruct c as [a|c]; [|reflexivity]. cbn. rewrite R; [reflexivity|now left].
    + intros a I. apply R. cbn. apply in_or_app. now right.
  - intros a I. apply E. cbn. apply in_or_app. now right.
Qed.

Lemma collect_run : forall o h0 h t ch, collect o (h0 ++ [""])%list (length h0) [] = (h, t, ch) ->
  mpieces h ch = flat_map child_pieces o /\ NoDup (mcells ch) /\
  (forall a, In a (mcells ch) -> length h0 <= a < length h /\ hget h a <> "") /\
  length h0 < length h /\ length h0 <= t < length h /\
  (forall a, a < length h0 -> hget h a = hget h0 a).
Proof.
  intros o h0 h t ch C.
  apply collect_spec in C.
  - destruct C as (P & N & F & L & Lt & Et & K). rewrite app_length in *. cbn [length] in *.
    rewrite halloc_get, hget_over in P by lia.
    split; [exact P|]. split; [exact N|]. split.
    { intros a I. destruct (F a I) as (? & ? & [[]|[->|?]]); split; auto; lia. }
    split; [lia|]. split; [lia|].
    intros a La. rewrite K by lia. apply halloc_get.
  - rewrite app_length. cbn. lia.
  - intros [].
  - constructor.
  - intros a [].
Qed.

Lemma items_snoc : forall l r, icells (l ++ [MRun r])%list = (icells l ++ mcells (runR_children r))%list.
Proof. intros. rewrite icells_app. cbn. now rewrite app_nil_r. Qed.

(** a run that is not merged *)
Lemma push_good : forall o s h t ch r, good (ms_items s) (ms_heap s) ->
  collect (runR_children o) (ms_heap s ++ [""])%list (length (ms_heap s)) [] = (h, t, ch) -> runR_children r = ch ->
  good (ms_items s ++ [MRun r])%list h /\
  map (look_item h) (ms_items s) = map (look_item (ms_heap s)) (ms_items s) /\
  run_pieces (look_run h r) = run_pieces o /\
  ipieces h (ms_items s ++ [MRun r])%list = (ipieces (ms_heap s) (ms_items s) ++ run_pieces o)%list.
Proof.
  intros o s h t ch r [ND G] C R. destruct (collect_run _ _ _ _ _ C) as (P & N & F & L & Lt & K).
  assert (RP : run_pieces (look_run h r) = run_pieces o).
  { change (run_pieces (look_run h r)) with (pchild_pieces (look_item h (MRun r))). rewrite ipieces_run, R. exact P. }
  split.
  { split.
    - rewrite items_snoc. apply nodup_app; [exact ND|now rewrite R|].
      intros x I J. rewrite R in J. destruct (G x I). destruct (F x J). lia.
    - intros a I. rewrite items_snoc in I. apply in_app_or in I as [I|I].
      + destruct (G a I). split; [lia|]. now rewrite K.
      + rewrite R in I. destruct (F a I). split; [lia|assumption]. }
  split.
  { apply look_ext. intros a I. destruct (G a I). now apply K. }
  split; [exact RP|].
  rewrite ipieces_app. f_equal.
  - apply ipieces_ext. intros a I. destruct (G a I). now apply K.
  - unfold ipieces. cbn [flat_map]. rewrite app_nil_r, ipieces_run, R. exact P.
Qed.

(** the previous run ends with a text *)
Definition ends_cell (l : list mchild) : Prop := exists l0 a, l = (l0 ++ [MCell a])%list.
Lemma ends_cell_dec : forall l, ends_cell l \/ last (map Some l) None = None \/ exists c, last (map Some l) None = Some (MRest c).
Proof.
  intros l. destruct l as [|x l _] using rev_ind; [right; left; reflexivity|].
  destruct x as [a|c]; [left; exists l, a; reflexivity|]. right. right. exists c. apply last_some.
Qed.
Lemma last_cell_ends : forall l0 a h, last_cell (l0 ++ [MCell a])%list h = (h, a, true).
Proof. intros. unfold last_cell. now rewrite last_some. Qed.
Lemma last_cell_not : forall l h, ~ ends_cell l -> last_cell l h = ((h ++ [""])%list, length h, false).
Proof.
  intros l h N. unfold last_cell. destruct (ends_cell_dec l) as [E|[E|[c E]]]; [contradiction|rewrite E; reflexivity|rewrite E; reflexivity].
Qed.
Lemma ends_cell_or : forall l, ends_cell l \/ ~ ends_cell l.
Proof.
  intros l. destruct (ends_cell_dec l) as [E|[E|[c E]]]; [now left|right|right].
  - intros (l0 & a & ->). rewrite last_some in E. discriminate.
  - intros (l0 & a & ->). rewrite last_some in E. discriminate.
Qed.

Lemma run_mid : forall h b r a, ipieces h (b ++ MRun r :: a)%list = (ipieces h b ++ mpieces h (runR_children r) ++ ipieces h a)%list.
Proof. intros. rewrite ipieces_app. f_equal. unfold ipieces. cbn [flat_map]. now rewrite ipieces_run. Qed.
Lemma cells_mid : forall b r a, icells (b ++ MRun r :: a)%list = (icells b ++ mcells (runR_children r) ++ icells a)%list.
Proof. intros. now rewrite icells_app. Qed.

(** a run that is merged *)
Definition harmless (e : bool) (l : list rchild) : bool := late_text l || e && late_text (drop_text l).
Lemma merge_good : forall e o b pr a h0 h t ch h1 pt na h2 ch',
  good (b ++ MRun pr :: a) h0 -> ipieces h0 a = [] ->
  (e = true -> ends_cell (runR_children pr)) -> harmless e (runR_children o) = true ->
  collect (runR_children o) (h0 ++ [""])%list (length h0) [] = (h, t, ch) ->
  last_cell (runR_children pr) h = (h1, pt, na) ->
  merge_into ch h1 pt na t (runR_children pr) = (h2, ch') ->
  let pr' := set_runR_children ch' pr in
  good (b ++ MRun pr' :: a) h2 /\ ipieces h2 a = [] /\
  ipieces h2 (b ++ MRun pr' :: a) = (ipieces h0 (b ++ MRun pr :: a) ++ run_pieces o)%list /\
  (ends_text false (runR_children o) = true -> ends_cell ch').
Proof.
  intros e o b pr a h0 h t ch h1 pt na h2 ch' [ND G] PA EC HL C LC M pr'.
  destruct (collect_run _ _ _ _ _ C) as (P & N & F & L & Lt & K).
  rewrite cells_mid in ND.
  assert (G' : forall x, In x (icells b ++ mcells (runR_children pr) ++ icells a)%list -> x < length h0 /\ hget h0 x <> "").
  { intros x I. apply G. now rewrite cells_mid. }
  clear G.
  assert (ET : ends_text false (runR_children o) = true -> ends_cell ch).
  { intros E. destruct (collect_ends (runR_children o) (h0 ++ [""])%list (length h0) [] h t ch) as [c0 ->].
    - rewrite app_length. cbn. lia.
    - rewrite halloc_get, hget_over by lia. exact E.
    - exact C.
    - now exists c0, t. }
  assert (TL : forall x, In x (mcells ch) -> x <> t \/ hget h t <> "").
  { intros x I. destruct (Nat.eq_dec x t) as [->|]; [right; now apply F|now left]. }
  destruct (ends_cell_or (runR_children pr)) as [EP|NP].
  - (* the previous run ends with a text *)
    destruct EP as (p0 & c & EP). rewrite EP in LC. rewrite last_cell_ends in LC. injection LC as <- <- <-.
    assert (SH : exists lead os tail, ch = (lead ++ map MRest os ++ tail)%list /\ (tail = [] \/ tail = [MCell t]) /\
        (lead = [] \/ os <> [] /\ exists x, lead = [MCell x])).
    { unfold harmless in HL. apply orb_prop in HL as [HL|HL].
      - destruct (collect_shape_late _ _ _ _ _ _ (eq_trans (halloc_get _ _) (hget_over _ _ (le_n _))) HL C) as (os & tail & E & T).
        exists [], os, tail. auto.
      - apply andb_prop in HL as [_ HL].
        destruct (collect_shape _ _ _ _ _ _ _ HL C) as (lead & os & tail & E & T & LD).
        exists lead, os, tail. split; [exact E|]. split; [exact T|]. destruct LD as [|[? ->]]; eauto. }
    destruct SH as (lead & os & tail & EH & T & LD).
    assert (Cb : c < length h0 /\ hget h0 c <> "").
    { apply G'. apply in_or_app. right. apply in_or_app. left. rewrite EP, mcells_app. apply in_or_app. right. now left. }
    assert (Fc : forall x, In x (mcells ch) -> x <> c) by (intros x I; destruct (F x I); lia).
    destruct (merge_into_last lead os tail h c t (runR_children pr)) as (h3 & x & tl & M' & TL' & L3 & Hpt & Ho & PP).
    + lia.
    + rewrite K by lia. tauto.
    + lia.
    + destruct T as [->| ->]; [now left|right]. split; [reflexivity|].
      assert (I : In t (mcells ch)) by (rewrite EH, !mcells_app; apply in_or_app; right; apply in_or_app; right; now left).
      split; [now apply Fc|]. now apply F.
    + destruct LD as [->|(NO & y & ->)]; [now left|right]. split; [exact NO|]. exists y. split; [reflexivity|].
      assert (I : In y (mcells ch)) by (rewrite EH; now left). split; [now apply Fc|]. now apply F.
    + rewrite <- EH in M', PP. rewrite M' in M. injection M as <- <-.
      assert (SUB : forall y, In y (mcells tl) -> In y (mcells ch)).
      { intros y I. destruct TL' as [->| ->]; [|destruct I]. rewrite EH, mcells_app. apply in_or_app. now right. }
      assert (NT : NoDup (mcells tl)).
      { destruct TL' as [->| ->]; [|constructor]. rewrite EH, mcells_app in N. now apply nodup_r in N. }
      assert (OLD : forall y, y < length h0 -> y <> c -> hget h3 y = hget h0 y).
      { intros y Ly Ny. rewrite Ho by lia. now apply K. }
      rewrite EP, mcells_app in ND, G'. cbn [mcells flat_map mcell app] in ND, G'.
      assert (Nb : forall y, In y (icells b) -> y <> c).
      { intros y I ->. apply (nodup_d _ _ _ ND I). apply in_or_app. left. apply in_or_app. right. now left. }
      assert (Na : forall y, In y (icells a) -> y <> c).
      { intros y I ->. apply nodup_r in ND. apply (nodup_d _ _ c ND); [|exact I]. apply in_or_app. right. now left. }
      assert (Np : forall y, In y (mcells p0) -> y <> c).
      { intros y I ->. apply nodup_r in ND. apply nodup_l in ND. apply (nodup_d _ _ c ND I). now left. }
      split; [split|].
      * rewrite cells_mid. cbn [pr' set_runR_children runR_children]. rewrite EP, !mcells_app. cbn [mcells flat_map mcell app].
        apply nodup_app; [now apply nodup_l in ND| |].
        -- apply nodup_app.
           ++ apply nodup_app; [apply nodup_r in ND; now apply nodup_l in ND|exact NT|].
              intros y I J. apply SUB in J. destruct (F y J). destruct (G' y); [|lia].
              apply in_or_app. right. apply in_or_app. now left.
           ++ apply nodup_r in ND. now apply nodup_r in ND.
           ++ intros y I J. apply in_app_or in I as [I|I].
              ** apply nodup_r in ND. now apply (nodup_d _ _ y ND).
              ** apply SUB in I. destruct (F y I). destruct (G' y); [|lia]. apply in_or_app. right. apply in_or_app. now right.
        -- intros y I J. rewrite <- app_assoc in J. apply in_app_or in J as [J|J].
           ++ apply (nodup_d _ _ y ND I). apply in_or_app. now left.
           ++ apply in_app_or in J as [J|J].
              ** apply SUB in J. destruct (F y J). destruct (G' y); [|lia]. apply in_or_app. now left.
              ** apply (nodup_d _ _ y ND I). apply in_or_app. now right.
      * intros y I. rewrite cells_mid in I. cbn [pr' set_runR_children runR_children] in I. rewrite EP, !mcells_app in I. cbn [mcells flat_map mcell app] in I.
        assert (Y : In y (icells b ++ (mcells p0 ++ [c]) ++ icells a)%list \/ In y (mcells tl)).
        { apply in_app_or in I as [I|I]; [left; apply in_or_app; now left|].
          apply in_app_or in I as [I|I]; [|left; apply in_or_app; right; apply in_or_app; now right].
          apply in_app_or in I as [I|I]; [left; apply in_or_app; right; apply in_or_app; now left|now right]. }
        destruct Y as [Y|Y].
        -- destruct (G' y Y). split; [lia|]. destruct (Nat.eq_dec y c) as [->|Nc].
           ++ rewrite Hpt. apply app_not_empty_l. now rewrite K by lia.
           ++ now rewrite OLD.
        -- apply SUB in Y. destruct (F y Y). split; [lia|]. rewrite Ho by (auto; lia). assumption.
      * assert (PB : ipieces h3 b = ipieces h0 b).
        { apply ipieces_ext. intros y I. apply OLD; [|now apply Nb]. apply G'. apply in_or_app. now left. }
        assert (PA' : ipieces h3 a = ipieces h0 a).
        { apply ipieces_ext. intros y I. apply OLD; [|now apply Na]. apply G'. apply in_or_app. right. apply in_or_app. now right. }
        split; [congruence|]. split.
        -- rewrite !run_mid. rewrite PB, PA', PA, !app_nil_r. rewrite <- app_assoc. f_equal.
           cbn [pr' set_runR_children runR_children]. rewrite EP, !mpieces_app.
           rewrite (mpieces_ext h0 h3 p0).
           2:{ intros y I. apply OLD; [|now apply Np]. apply G'. apply in_or_app. right. apply in_or_app. left. apply in_or_app. now left. }
           rewrite (mpieces_ext h h3 tl).
           2:{ intros y I. apply SUB in I. apply Ho; [now apply Fc|]. now apply F. }
           rewrite <- !app_assoc. f_equal. unfold mpieces at 1 3. cbn [flat_map look_child child_pieces text_text].
           rewrite !app_nil_r, Hpt, chars_app, <- app_assoc, K by lia. f_equal. rewrite PP. exact P.
        -- intros E. destruct (ET E) as (c0 & y & EC').
           destruct TL' as [->| ->].
           ++ destruct T as [->| ->].
              ** exfalso. rewrite app_nil_r in EH. rewrite EH in EC'.
                 destruct os as [|o1 os _] using rev_ind.
                 --- destruct LD as [->|[? _]]; [|congruence]. destruct c0; discriminate EC'.
                 --- rewrite map_app, app_assoc in EC'. apply app_inj_tail in EC' as [_ EC']. discriminate EC'.
              ** exists (runR_children pr ++ map MRest os)%list, t. now rewrite <- app_assoc.
           ++ rewrite app_nil_r. now exists p0, c.
  - (* it does not *)
    rewrite last_cell_not in LC by exact NP. injection LC as <- <- <-.
    assert (HL' : late_text (runR_children o) = true).
    { unfold harmless in HL. apply orb_prop in HL as [HL|HL]; [exact HL|]. apply andb_prop in HL as [E _]. now apply EC in E. }
    destruct (collect_shape_late _ _ _ _ _ _ (eq_trans (halloc_get _ _) (hget_over _ _ (le_n _))) HL' C) as (os & tail & EH & T).
    destruct (merge_into_fresh os tail (h ++ [""])%list (length h) t (runR_children pr)) as (h3 & M' & L3 & Ho).
    + rewrite app_length. cbn. lia.
    + rewrite halloc_get. apply hget_over. lia.
    + destruct T as [->| ->]; [now left|right]. split; [reflexivity|]. split; [lia|]. rewrite halloc_get.
      apply F. rewrite EH, mcells_app. apply in_or_app. right. now left.
    + rewrite <- EH in M'. rewrite M' in M. injection M as <- <-. rewrite app_length in L3. cbn [length] in L3.
      assert (OH : forall y, y < length h -> hget h3 y = hget h y).
      { intros y Ly. rewrite Ho by lia. apply halloc_get. }
      assert (OLD : forall y, y < length h0 -> hget h3 y = hget h0 y).
      { intros y Ly. rewrite OH by lia. now apply K. }
      split; [split|].
      * rewrite cells_mid. cbn [pr' set_runR_children runR_children]. rewrite mcells_app.
        apply nodup_app; [now apply nodup_l in ND| |].
        -- apply nodup_app.
           ++ apply nodup_app; [apply nodup_r in ND; now apply nodup_l in ND|exact N|].
              intros y I J. destruct (F y J). destruct (G' y); [|lia].
              apply in_or_app. right. apply in_or_app. now left.
           ++ apply nodup_r in ND. now apply nodup_r in ND.
           ++ intros y I J. apply in_app_or in I as [I|I].
              ** apply nodup_r in ND. now apply (nodup_d _ _ y ND).
              ** destruct (F y I). destruct (G' y); [|lia]. apply in_or_app. right. apply in_or_app. now right.
        -- intros y I J. rewrite <- app_assoc in J. apply in_app_or in J as [J|J].
           ++ apply (nodup_d _ _ y ND I). apply in_or_app. now left.
           ++ apply in_app_or in J as [J|J].
              ** destruct (F y J). destruct (G' y); [|lia]. apply in_or_app. now left.
              ** apply (nodup_d _ _ y ND I). apply in_or_app. now right.
      * intros y I. rewrite cells_mid in I. cbn [pr' set_runR_children runR_children] in I. rewrite mcells_app in I.
        assert (Y : In y (icells b ++ mcells (runR_children pr) ++ icells a)%list \/ In y (mcells ch)).
        { apply in_app_or in I as [I|I]; [left; apply in_or_app; now left|].
          apply in_app_or in I as [I|I]; [|left; apply in_or_app; right; apply in_or_app; now right].
          apply in_app_or in I as [I|I]; [left; apply in_or_app; right; apply in_or_app; now left|now right]. }
        destruct Y as [Y|Y].
        -- destruct (G' y Y). split; [lia|]. now rewrite OLD.
        -- destruct (F y Y). split; [lia|]. rewrite OH by lia. assumption.
      * assert (PB : ipieces h3 b = ipieces h0 b).
        { apply ipieces_ext. intros y I. apply OLD. apply G'. apply in_or_app. now left. }
        assert (PA' : ipieces h3 a = ipieces h0 a).
        { apply ipieces_ext. intros y I. apply OLD. apply G'. apply in_or_app. right. apply in_or_app. now right. }
        split; [congruence|]. split.
        -- rewrite !run_mid. rewrite PB, PA', PA, !app_nil_r. rewrite <- app_assoc. f_equal.
           cbn [pr' set_runR_children runR_children]. rewrite mpieces_app.
           rewrite (mpieces_ext h0 h3 (runR_children pr)).
           2:{ intros y I. apply OLD. apply G'. apply in_or_app. right. apply in_or_app. now left. }
           f_equal. rewrite (mpieces_ext h h3 ch); [exact P|]. intros y I. apply OH. now apply F.
        -- intros E. destruct (ET E) as (c0 & y & ->). exists (runR_children pr ++ c0)%list, y. now rewrite <- app_assoc.
Qed.
