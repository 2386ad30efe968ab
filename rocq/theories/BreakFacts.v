(** Which calls panic, on documents of any origin. *)
From Coq Require Import String Ascii List Bool Arith NArith ZArith Lia.
From Verif Require Import GoStr Num Lib Types Docx Api Keep Copy Pack Text History SpecApi SpecPanic SpecBreak
  RegFacts IdFacts HistFacts HistFacts2 HistInv DrawIds CopyFacts CopyFacts2 HomeFacts PackFacts2 PanicFacts.
Import ListNotations.
Local Open Scope list_scope.
Local Open Scope string_scope.

(** ** lookups *)
Lemma refer_in_points : forall l id tgt, refer_target_in l id = Ok tgt <->
  exists l1 r l2, l = (l1 ++ r :: l2)%list /\ rel_id r = id /\ rel_target r = tgt /\ ~ In id (map rel_id l1).
Proof.
  induction l as [|a l IH]; intros id tgt; cbn [refer_target_in].
  - split; [discriminate|]. intros ([|b l1] & r & l2 & E & _); discriminate.
  - destruct (String.eqb_spec (rel_id a) id) as [E|E].
    + split.
      * intros K. injection K as K. exists [], a, l. auto.
      * intros ([|b l1] & r & l2 & A & B & C & D); cbn [app] in A; injection A as A1 A2; subst.
        -- reflexivity.
        -- exfalso. apply D. now left.
    + rewrite IH. split.
      * intros (l1 & r & l2 & A & B & C & D). exists (a :: l1), r, l2. subst. repeat split; auto. intros [K|K]; auto.
      * intros ([|b l1] & r & l2 & A & B & C & D); cbn [app] in A; injection A as A1 A2; subst; [congruence|].
        exists l1, r, l2. repeat split; auto. intros K. apply D. now right.
Qed.
Lemma refer_points : forall x id tgt, refer_target (d_reg x) id = Ok tgt <-> points_to x id tgt.
Proof. intros x id tgt. apply refer_in_points. Qed.
Lemma points_unique : forall x id a b, points_to x id a -> points_to x id b -> a = b.
Proof. intros x id a b A B. apply refer_points in A. apply refer_points in B. congruence. Qed.
Lemma refer_never_panics : forall g id, refer_target g id <> Panic.
Proof. intros g id. unfold refer_target. induction (rels g) as [|a l IH]; cbn; [discriminate|]. destruct (String.eqb _ _); [discriminate|exact IH]. Qed.
Lemma drop_none : forall n s, drop n s = None <-> String.length s < n.
Proof.
  induction n as [|n IH]; intros s; cbn [drop]; [split; [discriminate|lia]|]. destruct s as [|c s]; cbn [String.length]; [split; [lia|auto]|]. rewrite IH. lia.
Qed.
Lemma drop_some : forall n s t, drop n s = Some t <-> exists pre, s = pre ++ t /\ String.length pre = n.
Proof.
  induction n as [|n IH]; intros s t; cbn [drop].
  - split.
    + intros K. injection K as ->. exists "". auto.
    + intros (pre & -> & L). destruct pre; [reflexivity|discriminate].
  - destruct s as [|c s]; [split; [discriminate|intros ([|d pre] & A & B); discriminate]|]. rewrite IH. split.
    + intros (pre & -> & L). exists (String c pre). split; [reflexivity|]. cbn. congruence.
    + intros ([|d pre] & A & B); [discriminate|]. cbn [append] in A. injection A as <- ->. exists pre. split; [reflexivity|]. now injection B.
Qed.
Lemma last_named_stores : forall n l, last_named n l = None <-> ~ In n (map fst l).
Proof.
  intros n l. split; [|apply last_named_none]. induction l as [|m l IH]; cbn; auto. intros K. destruct (last_named n l); [discriminate|].
  destruct (String.eqb_spec (fst m) n) as [E|E]; [discriminate|]. intros [A|A]; auto. now apply IH.
Qed.
Lemma file_reg_owner : forall w f, file_reg w f = match owner w f with Some x => Ok (d_reg x) | None => Panic end.
Proof. intros w [i|]; reflexivity. Qed.
Lemma on_file_owner : forall A w f (k : reg -> A * reg), on_file w f k = Panic <-> owner w f = None.
Proof. intros A w [i|] k; cbn; [|tauto]. destruct (nth_error w i); [|tauto]. destruct (k _). split; discriminate. Qed.
Lemma on_file_to : forall A w i (k : reg -> A * reg), i < length w -> exists v w', on_file w (Some i) k = Ok (v, w') /\ only i w w'.
Proof.
  intros A w i k L. destruct (on_file w (Some i) k) as [[v w']|e|] eqn:E.
  - exists v, w'. split; auto. eapply on_file_only; eauto.
  - exfalso. eapply on_file_never; eauto.
  - apply on_file_owner in E. cbn in E. apply nth_error_None in E. lia.
Qed.
Definition sound (w : world) : Prop := forall i x, nth_error w i = Some x -> media_ok (d_reg x).

Lemma bind2_panics : forall A B C (x : res (A * B)) (k : A -> B -> C), bind x (fun '(a, b) => Ok (k a b)) = Panic <-> x = Panic.
Proof. intros A B C [[a b]|e|] k; cbn; split; congruence. Qed.

(** ** calls on runs and paragraphs *)
Lemma rop_breaks : forall o r, exec_rop o r = Panic <-> run_breaks o r.
Proof.
  intros o r. destruct o; cbn [exec_rop run_breaks];
    try (unfold run_color, run_size, run_sizecs, run_shade, run_spacing, run_bold, run_italic, run_underline, run_highlight, run_strike, run_font, on_rpr;
         destruct (runR_rpr r); split; congruence); try (split; [discriminate|tauto]).
  unfold drawing_at. destruct (nth_error (runR_children r) k) as [c|] eqn:N.
  - rewrite bind_panics, child_size_panics. split; intros K Q; apply K.
    + destruct Q as (i & a & A & B). injection A as ->. eauto.
    + destruct Q as (i & a & -> & B). eauto.
  - split; auto. intros _ (i & a & A & _). discriminate.
Qed.
Section P.
Context `{GoLib}.
Lemma pop_breaks : forall o w p, exec_pop o w p = Panic <-> para_breaks o w p.
Proof.
  intros o w p. destruct o; cbn [exec_pop para_breaks]; try (split; [discriminate|tauto]).
  - unfold add_link. rewrite <- (on_file_owner _ w (para_file p) (add_link_relation link)). destruct (on_file _ _ _) as [[id w1]|e|]; cbn; split; congruence.
  - unfold add_drawing. destruct (lib_imgsize data) as [[[sw sh] fmt]|]; [|split; [discriminate|intros (a & b & c & K & _); discriminate]].
    transitivity (owner w (para_file p) = None \/ iv sw = 0%Z).
    + rewrite <- (on_file_owner _ w (para_file p) (new_image fmt data)), <- (pic_size_panics sw sh).
      destruct (on_file _ _ _) as [[[[a b] c] w1]|e|] eqn:E; cbn [bind].
      * destruct (pic_size sw sh) as [[ew eh]|e|]; cbn; split; try congruence; auto; intros [K|K]; discriminate.
      * exfalso. eapply on_file_never; eauto.
      * split; auto.
    + split; [intros K; exists sw, sh, fmt; auto|]. intros (a & b & c & K & Q). injection K as <- <- <-. exact Q.
  - unfold add_shape. rewrite <- (on_file_owner _ w (para_file p) (new_shape_ids name)). destruct (on_file _ _ _) as [[[a b] w1]|e|]; cbn; split; congruence.
  - unfold run_at. destruct (nth_error (para_children p) k) as [[r|id r|r]|]; try (split; auto; fail).
    + now rewrite bind_panics, rop_breaks.
    + now rewrite bind_panics, rop_breaks.
Qed.
End P.

(** ** copying *)
Section C.
Variable w : world.          (** the world before *)
Variable S0 : sound w.
Variable P : option nat -> Prop.
Variable to : nat.
Hypothesis Pto : ~ P (Some to).

(** what copying has done to the world so far *)
Definition sofar (v : world) : Prop := to < length v /\ forall f, P f -> owner v f = owner w f.
Lemma sofar_only : forall a b, sofar a -> only to a b -> sofar b.
Proof.
  intros a b [L A] [E O]. split; [lia|]. intros f Pf. rewrite <- A by auto. destruct f as [i|]; [|reflexivity]. cbn. apply O. intros ->. auto.
Qed.
Lemma graphic_breaks : forall f og v, sofar v -> (picture_in og -> P f) -> (copy_graphic to f og v = Panic <-> copy_breaks_graphic w f og).
Proof.
  intros f og v Q U. unfold copy_graphic, copy_breaks_graphic. destruct og as [g|]; [|tauto]. destruct (graphicR_data g) as [d|] eqn:Gd; [|tauto].
  destruct (gdataR_pic d) as [p|] eqn:Gp.
  2: { split; [destruct (gdataR_shape d), (gdataR_canvas d); discriminate|intros (p & b & K & _); discriminate]. }
  assert (Pf : P f). { apply U. exists g, d. repeat split; auto. rewrite Gp. discriminate. }
  destruct (pic_blip p) as [b|] eqn:B; [|split; [discriminate|intros (p' & b & K1 & K2 & _); congruence]].
  assert (X : forall Z : Prop, Z <-> (exists p' b', Some p = Some p' /\ pic_blip p' = Some b' /\ 
     (owner w f = None \/ exists x tgt, owner w f = Some x /\ points_to x (ablip_embed (picblip_blip b')) tgt /\
        (String.length tgt < 6 \/ pic_nvpic p' = None /\ exists pre name, tgt = pre ++ name /\ String.length pre = 6 /\ stores x name))) <->
     (Z <-> (owner w f = None \/ exists x tgt, owner w f = Some x /\ points_to x (ablip_embed (picblip_blip b)) tgt /\
        (String.length tgt < 6 \/ pic_nvpic p = None /\ exists pre name, tgt = pre ++ name /\ String.length pre = 6 /\ stores x name)))).
  { intros Z. split; intros K; (rewrite K; clear K; split).
    - intros (p' & b' & A & A2 & A3). injection A as <-. rewrite B in A2. injection A2 as <-. exact A3.
    - intros A. exists p, b. auto.
    - intros A. exists p, b. auto.
    - intros (p' & b' & A & A2 & A3). injection A as <-. rewrite B in A2. injection A2 as <-. exact A3. }
  apply X. clear X. rewrite file_reg_owner, (proj2 Q f Pf). destruct (owner w f) as [x|] eqn:O; cbn [bind]; [|tauto].
  destruct (refer_target (d_reg x) (ablip_embed (picblip_blip b))) as [tgt|e|] eqn:R.
  - apply refer_points in R.
    destruct (on_file_to _ v to inc_docid (proj1 Q)) as (n1 & w1 & -> & O1). cbn [bind]. pose proof (sofar_only _ _ Q O1) as Q1.
    destruct (on_file_to _ w1 to (increase_id TUPIAN) (proj1 Q1)) as (n2 & w2 & -> & O2). cbn [bind]. pose proof (sofar_only _ _ Q1 O2) as Q2.
    destruct (drop 6 tgt) as [name|] eqn:D.
    + rewrite file_reg_owner, (proj2 Q2 f Pf), O. cbn [bind].
      assert (M : media_ok (d_reg x)). { destruct f as [i|]; [|discriminate]. exact (S0 i x O). }
      rewrite M. cbn [bind]. destruct (last_named name (media (d_reg x))) as [[mn data]|] eqn:LN.
      * destruct (on_file_to _ w2 to (add_image (target_format tgt) data) (proj1 Q2)) as (n3 & w3 & -> & O3). cbn [bind].
        assert (ST : stores x name). { apply last_named_some in LN. destruct LN as [A B']. unfold stores. rewrite <- B'. now apply in_map. }
        destruct (proj1 (drop_some _ _ _) D) as (pre & D1 & D2).
        destruct (pic_nvpic p) as [nv|] eqn:NV.
        -- split; [discriminate|]. intros [K|(x' & tgt' & A & A2 & [A3|[A3 _]])]; try discriminate. injection A as <-.
           apply drop_none in A3. rewrite <- (points_unique _ _ _ _ R A2) in A3. congruence.
        -- split; auto. intros _. right. exists x, tgt. repeat split; auto. right. split; auto. exists pre, name. auto.
      * split; [discriminate|]. intros [K|(x' & tgt' & A & A2 & [A3|[A3 (pre & nm & A4 & A5 & A6)]])]; try discriminate; injection A as <-; rewrite <- (points_unique _ _ _ _ R A2) in *.
        -- apply drop_none in A3. congruence.
        -- assert (drop 6 tgt = Some nm) by (apply drop_some; eauto). assert (nm = name) by congruence. subst nm. apply last_named_stores in LN. contradiction.
    + split; auto. intros _. right. exists x, tgt. repeat split; auto. left. now apply drop_none.
  - split; [discriminate|]. intros [K|(x' & tgt' & A & A2 & _)]; try discriminate. injection A as <-. apply refer_points in A2. congruence.
  - exfalso. eapply refer_never_panics; eauto.
Qed.
Lemma child_breaks : forall c v, sofar v -> child_uses P c -> (copy_rchild to c v = Panic <-> copy_breaks_child w c).
Proof.
  intros c v Q U. destruct c as [t|t|t|[x|] a]; cbn [copy_rchild copy_breaks_child]; try (split; [discriminate|tauto]).
  - rewrite <- (graphic_breaks _ _ v Q U). destruct (copy_graphic _ _ _ _) as [[w1 r]|e|]; cbn; split; congruence.
  - destruct a as [x|]; [|split; [discriminate|tauto]]. rewrite <- (graphic_breaks _ _ v Q U). destruct (copy_graphic _ _ _ _) as [[w1 r]|e|]; cbn; split; congruence.
Qed.
Lemma list_breaks : forall A B (f : A -> world -> res (world * B)) (U K : A -> Prop), (forall x v, never_err (f x v)) ->
  (forall x v v' y, f x v = Ok (v', y) -> frame to v v') -> (forall x v, sofar v -> U x -> (f x v = Panic <-> K x)) ->
  forall l v, sofar v -> Forall U l -> (copy_list f l v = Panic <-> exists x, In x l /\ K x).
Proof.
  intros A B f U K NE FR PK. induction l as [|x l IH]; intros v Q F; cbn [copy_list].
  - split; [discriminate|intros (x & [] & _)].
  - inversion F as [|? ? F1 F2]; subst. pose proof (PK x v Q F1) as PX. destruct (f x v) as [[v1 y]|e|] eqn:E; cbn [bind].
    + assert (Q1 : sofar v1) by (eapply sofar_only; [exact Q|apply (FR _ _ _ _ E)]). specialize (IH v1 Q1 F2).
      transitivity (copy_list f l v1 = Panic); [clear; destruct (copy_list f l v1) as [[v2 l2]|e|]; cbn; split; congruence|]. rewrite IH. split.
      * intros (z & I & Kz). exists z. auto using in_cons.
      * intros (z & [<-|I] & Kz); [|eauto]. apply PX in Kz. discriminate.
    + exfalso. eapply NE; eauto.
    + split; auto. intros _. exists x. split; [now left|]. now apply PX.
Qed.
Lemma crun_breaks : forall r v, sofar v -> (forall x, In x (runR_children r) -> child_uses P x) -> (copy_run to r v = Panic <-> copy_breaks_run w r).
Proof.
  intros r v Q U. unfold copy_run, copy_breaks_run. transitivity (copy_list (copy_rchild to) (runR_children r) v = Panic).
  { apply bind2_panics. }
  apply (list_breaks _ _ (copy_rchild to) (child_uses P) (copy_breaks_child w)); auto.
  - intros; apply copy_rchild_never.
  - intros; eapply copy_rchild_frame; eauto.
  - intros; now apply child_breaks.
  - now apply Forall_forall.
Qed.
Definition pchild_uses (c : pchild) : Prop := match c with PRun r | PLink _ r => forall x, In x (runR_children r) -> child_uses P x | PRPr _ => True end.
Lemma cpchild_breaks : forall f c v, sofar v -> P f -> pchild_uses c -> (copy_pchild to f c v = Panic <-> copy_breaks_pchild w f c).
Proof.
  intros f c v Q Pf U. destruct c as [r|id r|r]; cbn [copy_pchild copy_breaks_pchild]; [| |split; [discriminate|tauto]].
  - rewrite <- (crun_breaks r v Q U). destruct (copy_run to r v) as [[v1 c]|e|]; cbn; split; congruence.
  - rewrite file_reg_owner, (proj2 Q f Pf). destruct (owner w f) as [x|] eqn:O; cbn [bind]; [|tauto].
    destruct (refer_target (d_reg x) id) as [tgt|e|] eqn:R.
    + apply refer_points in R. destruct (on_file_to _ v to (add_link_relation tgt) (proj1 Q)) as (n1 & w1 & -> & O1). cbn [bind].
      pose proof (sofar_only _ _ Q O1) as Q1. transitivity (copy_run to r w1 = Panic); [destruct (copy_run to r w1) as [[v1 c]|e|]; cbn; split; congruence|].
      rewrite (crun_breaks r w1 Q1 U). split; [intros K; right; split; eauto|]. intros [K|[_ K]]; [discriminate|exact K].
    + split; [discriminate|]. intros [K|[(x' & tgt' & A & A2) _]]; try discriminate. injection A as <-. apply refer_points in A2. congruence.
    + exfalso. eapply refer_never_panics; eauto.
Qed.
Lemma cpara_breaks : forall p v, sofar v -> para_uses P p -> (copy_para to p v = Panic <-> copy_breaks w p).
Proof.
  intros p v Q [Pf U]. unfold copy_para, copy_breaks. transitivity (copy_list (copy_pchild to (para_file p)) (para_children p) v = Panic).
  { apply bind2_panics. }
  apply (list_breaks _ _ (copy_pchild to (para_file p)) pchild_uses (copy_breaks_pchild w (para_file p))); auto.
  - intros; apply copy_pchild_never.
  - intros; eapply copy_pchild_frame; eauto.
  - intros; now apply cpchild_breaks.
  - apply Forall_forall. exact U.
Qed.
Lemma copy_cell_frame : forall c v v' y, copy_cell to c v = Ok (v', y) -> frame to v v'.
Proof.
  intros c v v' y E. unfold copy_cell in E. bok E. destruct v0. inversion E; subst. eapply copy_list_frame; [|eauto]. intros; eapply copy_para_frame; eauto.
Qed.
Lemma copy_row_frame : forall c v v' y, copy_row to c v = Ok (v', y) -> frame to v v'.
Proof.
  intros c v v' y E. unfold copy_row in E. bok E. destruct v0. inversion E; subst. eapply copy_list_frame; [|eauto]. intros; eapply copy_cell_frame; eauto.
Qed.
Lemma ccell_breaks : forall c v, sofar v -> Forall (para_uses P) (cell_paras c) -> (copy_cell to c v = Panic <-> exists p, In p (cell_paras c) /\ copy_breaks w p).
Proof.
  intros c v Q U. unfold copy_cell. transitivity (copy_list (copy_para to) (cell_paras c) v = Panic).
  { apply bind2_panics. }
  apply (list_breaks _ _ (copy_para to) (para_uses P) (copy_breaks w)); auto.
  - intros; apply copy_para_never.
  - intros; eapply copy_para_frame; eauto.
  - intros; now apply cpara_breaks.
Qed.
Lemma crow_breaks : forall r v, sofar v -> Forall (fun c => Forall (para_uses P) (cell_paras c)) (row_cells r) ->
  (copy_row to r v = Panic <-> exists c, In c (row_cells r) /\ exists p, In p (cell_paras c) /\ copy_breaks w p).
Proof.
  intros r v Q U. unfold copy_row. transitivity (copy_list (copy_cell to) (row_cells r) v = Panic).
  { apply bind2_panics. }
  apply (list_breaks _ _ (copy_cell to) (fun c => Forall (para_uses P) (cell_paras c)) (fun c => exists p, In p (cell_paras c) /\ copy_breaks w p)); auto.
  - intros; apply copy_cell_never.
  - intros; eapply copy_cell_frame; eauto.
  - intros; now apply ccell_breaks.
Qed.
Lemma citem_breaks : forall x v, sofar v -> Forall (para_uses P) (item_paras x) -> (copy_item to x v = Panic <-> exists p, In p (item_paras x) /\ copy_breaks w p).
Proof.
  intros x v Q U. destruct x as [p|t|s]; cbn [copy_item item_paras] in *.
  - inversion U; subst. transitivity (copy_para to p v = Panic); [destruct (copy_para to p v) as [[v1 y]|e|]; cbn; split; congruence|].
    rewrite cpara_breaks by auto. split; [intros K; exists p; cbn; auto|]. intros (q & [<-|[]] & K). exact K.
  - transitivity (copy_list (copy_row to) (table_rows t) v = Panic).
    { rewrite bind2_panics. unfold copy_table. apply bind2_panics. }
    rewrite (list_breaks _ _ (copy_row to) (fun r => Forall (fun c => Forall (para_uses P) (cell_paras c)) (row_cells r))
      (fun r => exists c, In c (row_cells r) /\ exists p, In p (cell_paras c) /\ copy_breaks w p)); auto.
    + split.
      * intros (r & I1 & c & I2 & p & I3 & K). exists p. split; auto. apply in_table_paras. eauto.
      * intros (p & I & K). apply in_table_paras in I. destruct I as (r & c & I1 & I2 & I3). eauto 10.
    + intros; apply copy_row_never.
    + intros; eapply copy_row_frame; eauto.
    + intros; now apply crow_breaks.
    + apply Forall_forall. intros r I1. apply Forall_forall. intros c I2. apply Forall_forall. intros p I3. rewrite Forall_forall in U. apply U. apply in_table_paras. eauto.
  - split; [discriminate|intros (p & [] & _)].
Qed.
Lemma cpush_breaks : forall x v, sofar v -> Forall (para_uses P) (item_paras x) -> (copy_push to x v = Panic <-> exists p, In p (item_paras x) /\ copy_breaks w p).
Proof.
  intros x v Q U. rewrite <- (citem_breaks x v Q U). unfold copy_push. destruct (copy_item to x v) as [[v1 y]|e|] eqn:E; cbn [bind]; [|split; congruence|tauto].
  split; [|discriminate]. assert (Q1 : sofar v1) by (eapply sofar_only; [exact Q|apply (copy_item_frame _ _ _ _ _ E)]). unfold push_item.
  destruct (nth_error v1 to) as [d|] eqn:N; [discriminate|]. apply nth_error_None in N. destruct Q1. lia.
Qed.
Lemma append_breaks : forall l v, sofar v -> Forall (para_uses P) (body_paras l) -> (append_items to l v = Panic <-> exists p, In p (body_paras l) /\ copy_breaks w p).
Proof.
  induction l as [|x l IH]; intros v Q U; cbn [append_items].
  - split; [discriminate|intros (p & [] & _)].
  - unfold body_paras in *. cbn [flat_map] in *. apply Forall_app in U. destruct U as [U1 U2]. pose proof (cpush_breaks x v Q U1) as PX.
    destruct (copy_push to x v) as [v1|e|] eqn:E; cbn [bind].
    + rewrite IH; auto; [|eapply sofar_only; [exact Q|eapply copy_push_only; eauto]]. split.
      * intros (p & I & K). exists p. split; auto. apply in_app_iff. auto.
      * intros (p & I & K). apply in_app_iff in I. destruct I as [I|I]; [|eauto]. assert (@Ok world v1 = Panic) by (apply PX; eauto). discriminate.
    + exfalso. eapply copy_push_never; eauto.
    + split; auto. intros _. destruct (proj1 PX eq_refl) as (p & I & K). exists p. split; auto. apply in_app_iff. auto.
Qed.
End C.

Definition known (n : nat) (f : option nat) : Prop := forall i, f = Some i -> i < n.
Lemma split_breaks : forall w, sound w -> forall t sep, (forall p e, sep p <> Err e) ->
  forall l cur fresh v, length w <= cur < length v -> (forall f, known (length w) f -> owner v f = owner w f) -> Forall (para_uses (known (length w))) (body_paras l) ->
  (split_items t sep l cur fresh v = Panic <-> (exists p, In p (body_paras l) /\ copy_breaks w p) \/ exists p, In (IPara p) l /\ sep p = Panic).
Proof.
  intros w S0 t sep NE. induction l as [|x l IH]; intros cur fresh v C Q U; cbn [split_items].
  - split; [discriminate|intros [(p & [] & _)|(p & [] & _)]].
  - unfold body_paras in *. cbn [flat_map] in *. apply Forall_app in U. destruct U as [U1 U2].
    assert (N : forall cur v, length w <= cur < length v -> (forall f, known (length w) f -> owner v f = owner w f) ->
      (bind (copy_push cur x v) (fun v' => split_items t sep l cur false v') = Panic <->
       (exists p, In p (item_paras x ++ flat_map item_paras l)%list /\ copy_breaks w p) \/ exists p, In (IPara p) l /\ sep p = Panic)).
    { clear C Q cur fresh v. intros cur v C Q. assert (NP : ~ known (length w) (Some cur)) by (intros K; specialize (K cur eq_refl); lia).
      assert (SF : sofar w (known (length w)) cur v) by (split; [lia|auto]).
      pose proof (cpush_breaks w S0 (known (length w)) cur NP x v SF U1) as PX. destruct (copy_push cur x v) as [v1|e|] eqn:E; cbn [bind].
      - pose proof (sofar_only w (known (length w)) cur NP _ _ SF (copy_push_only _ _ _ _ E)) as [L1 A1].
        rewrite IH; auto; [|lia]. split; (intros [(p & I & K)|K]; [left|right; auto]).
        + exists p. split; auto. apply in_app_iff. auto.
        + apply in_app_iff in I. destruct I as [I|I]; [|eauto]. assert (@Ok world v1 = Panic) by (apply PX; eauto). discriminate.
      - exfalso. eapply copy_push_never; eauto.
      - split; auto. intros _. left. destruct (proj1 PX eq_refl) as (p & I & K). exists p. split; auto. apply in_app_iff. auto. }
    assert (D : (forall p, x = IPara p -> sep p <> Panic) -> ((exists p, In (IPara p) (x :: l) /\ sep p = Panic) <-> exists p, In (IPara p) l /\ sep p = Panic)).
    { intros NP. split; [|intros (p & I & K); exists p; auto using in_cons]. intros (p & [I|I] & K); [|eauto]. exfalso. eapply NP; eauto. }
    destruct x as [p|tb|s].
    + destruct (sep p) as [b|e|] eqn:E; cbn [bind].
      * rewrite D by (intros q Q1; injection Q1 as <-; congruence). destruct (b && negb fresh)%bool; apply N; auto.
        -- unfold new_part. rewrite app_length. cbn. lia.
        -- intros f Kf. rewrite <- Q by auto. destruct f as [i|]; [|reflexivity]. cbn. apply nth_error_app1. specialize (Kf i eq_refl). lia.
      * exfalso. eapply NE; eauto.
      * split; auto. intros _. right. exists p. split; [now left|exact E].
    + rewrite D by discriminate. now apply N.
    + rewrite D by discriminate. now apply N.
Qed.

(** ** Parse *)
Section E.
Context `{GoLib}.
Lemma entry_never : forall f e d, unpack_entry f d e <> Panic.
Proof.
  intros f e d. unfold unpack_entry. destruct (String.eqb _ _); [|destruct (String.eqb _ _); [|destruct (has_prefix _ _)]]; try (destruct (read_entry e) as [s|]); try discriminate.
  - unfold Rels.parse_doc_relation. destruct (Rels.rels_root _ _ _) as [[ns l] []]; try discriminate. destruct (Rels.max_id _ _); discriminate.
  - unfold parse_doc_part. destruct (XmlTok.root _ _ _) as [l []]; discriminate.
Qed.
Lemma unpack_never : forall f a d, unpack_entries f d a <> Panic.
Proof.
  intros f; induction a as [|e a IH]; intros d; cbn [unpack_entries]; [discriminate|]. pose proof (entry_never f e d).
  destruct (unpack_entry f d e); cbn [bind]; [apply IH|discriminate|congruence].
Qed.
Lemma parse_never : forall a w, parse a w <> Panic.
Proof.
  intros a w. unfold parse, unpack. pose proof (unpack_never (length w) a (mk_docx [] (mk_reg [] "" [] [] 0 0 0 []) (mk_tmpl "" (zip_open a) []) false)) as K.
  destruct (unpack_entries _ _ _); cbn [bind]; [discriminate|discriminate|congruence].
Qed.

(** ** the media index is right in every history *)
Lemma sound_grows : forall w w', sound w -> grows w w' -> length w' = length w -> sound w'.
Proof.
  intros w w' S0 G L i x N. assert (I : i < length w). { rewrite <- L. apply nth_error_Some. congruence. }
  destruct (nth_error w i) as [y|] eqn:Y; [|apply nth_error_None in Y; lia]. destruct (G i y Y) as (x' & X & R). rewrite N in X. injection X as <-.
  eapply steps_media_ok; eauto.
Qed.
Lemma sound_app : forall w x, sound w -> media_ok (d_reg x) -> sound (w ++ [x])%list.
Proof.
  intros w x S0 M i y N. destruct (Nat.lt_ge_cases i (length w)) as [L|L].
  - rewrite nth_error_app1 in N by auto. eauto.
  - rewrite nth_error_app2 in N by auto. destruct (i - length w) as [|[|k]]; cbn in N; try discriminate. injection N as <-. exact M.
Qed.
Lemma push_sound : forall to x w w', copy_push to x w = Ok w' -> sound w -> sound w'.
Proof. intros to x w w' E S0. eapply sound_grows; [exact S0|eapply copy_push_grows; eauto|]. apply (copy_push_only _ _ _ _ E). Qed.
Lemma append_sound : forall to l w w', append_items to l w = Ok w' -> sound w -> sound w'.
Proof. intros to; induction l as [|x l IH]; intros w w' E S0; cbn in E; [now injection E as <-|]. bok E. eapply IH; eauto. eapply push_sound; eauto. Qed.
Lemma split_sound : forall t sep l cur fresh w w', split_items t sep l cur fresh w = Ok w' -> sound w -> sound w'.
Proof.
  intros t sep; induction l as [|x l IH]; intros cur fresh w w' E S0; cbn in E; [now injection E as <-|].
  assert (N : forall cur w, bind (copy_push cur x w) (fun w' => split_items t sep l cur false w') = Ok w' -> sound w -> sound w').
  { intros c v K S1. bok K. eapply IH; eauto. eapply push_sound; eauto. }
  destruct x as [p|tb|s]; eauto. bok E. destruct (v && negb fresh)%bool; eauto. eapply N; eauto. apply sound_app; auto. apply empty_media_ok.
Qed.
Lemma on_doc_length : forall w d k w', on_doc w d k = Ok w' -> length w' = length w.
Proof. intros w d k w' E. destruct (on_doc_inv _ _ _ _ E) as (x & y & _ & _ & ->). apply set_nth_length. Qed.
Lemma exec_sound : forall o w w', exec o w = Ok w' -> sound w -> sound w'.
Proof.
  intros o w w' E S0. pose proof (exec_grows _ _ _ E) as G. destruct o; cbn [exec] in E;
    try (eapply sound_grows; [exact S0|exact G|]; eapply on_doc_length; exact E).
  - injection E as <-. apply sound_app; auto. apply empty_media_ok.
  - injection E as <-. apply sound_app; auto. apply load_media_ok.
  - eapply sound_grows; [exact S0|exact G|]. destruct (nth_error w d) as [x|]; [|discriminate]. destruct (get_para (d_items x) a); [|discriminate].
    bok E. destruct v as [w1 p1]. rewrite (on_doc_length _ _ _ _ E). eapply pop_reg_length; eauto.
  - eapply sound_grows; [exact S0|exact G|]. bok E. destruct v as [w1 p1]. injection E as <-. eapply pop_reg_length; eauto.
  - destruct (nth_error w d); [|discriminate]. unfold append_file in E. destruct (nth_error w from); [|discriminate]. eapply append_sound; eauto.
  - unfold split_by_paragraph in E. destruct (nth_error w d) as [x|]; [|discriminate]. destruct (d_items x); [now injection E as <-|].
    eapply split_sound; eauto. apply sound_app; auto. apply empty_media_ok.
  - unfold parse in E. bok E. injection E as <-. apply sound_app; auto. apply (unpack_inv _ _ _ E0).
Qed.
Lemma run_sound : forall l w w', run_ops l w = Some w' -> sound w -> sound w'.
Proof.
  induction l as [|o l IH]; intros w w' E S0; cbn in E; [injection E as <-; auto|]. destruct (exec o w) as [w1|e|] eqn:X; [|eauto|discriminate].
  eapply IH; eauto. eapply exec_sound; eauto.
Qed.
Lemma sound_nil : sound [].
Proof. intros [|i] x N; discriminate. Qed.

(** ** all calls *)
Lemma exec_breaks : forall o w, sound w -> apart o w -> (exec o w = Panic <-> breaks o w).
Proof.
  intros o w S0 AP. destruct o; cbn [exec breaks]; try (apply on_doc_sure; discriminate); try (split; [discriminate|tauto]).
  - unfold para_at. destruct (nth_error w d) as [x|] eqn:N; [|tauto]. destruct (get_para (d_items x) a) as [p|] eqn:G; [|tauto].
    rewrite <- (pop_breaks o w p). destruct (exec_pop o w p) as [[w1 p']|e|] eqn:E; cbn [bind]; [|split; congruence|tauto].
    split; [|discriminate]. rewrite on_doc_sure by discriminate. intros K. apply nth_error_None in K. rewrite (pop_reg_length _ _ _ _ _ E) in K.
    apply nth_error_None in K. congruence.
  - rewrite <- (pop_breaks o w p). destruct (exec_pop o w p) as [[w1 p']|e|]; cbn [bind]; split; congruence.
  - rewrite on_doc_panics. unfold cell_at. destruct (nth_error w d) as [x|]; [|tauto]. split.
    + intros [K|[y [K1 K2]]]; [discriminate|]. injection K1 as <-. destruct (get_cell (d_items x) i r c); [discriminate|reflexivity].
    + intros K. right. exists x. now rewrite K.
  - rewrite on_doc_panics. destruct (nth_error w d) as [x|]; [|tauto]. split.
    + intros [K|[y [K1 K2]]]; [discriminate|]. injection K1 as <-. right. unfold add_table in K2.
      destruct (Z.ltb_spec (iv r) 0); [auto|]. destruct (Z.ltb_spec (iv c) 0), (Z.ltb_spec 0 (iv r)); cbn in K2; try (destruct (use_colors col); discriminate). right. lia.
    + intros [K|K]; [discriminate|]. right. exists x. split; auto. unfold add_table. destruct (Z.ltb_spec (iv r) 0); [reflexivity|].
      destruct (Z.ltb_spec (iv c) 0), (Z.ltb_spec 0 (iv r)); cbn; try reflexivity; lia.
  - rewrite on_doc_panics. unfold table_at. destruct (nth_error w d) as [x|] eqn:N; [|tauto]. split.
    + intros [K|[y [K1 K2]]]; [discriminate|]. injection K1 as <-. destruct (nth_error (d_items x) i) as [[p|t|s]|] eqn:G; auto.
      rewrite bind_panics in K2. unfold table_justification in K2. destruct (table_props t); [discriminate|reflexivity].
    + intros K. right. exists x. split; auto. destruct (nth_error (d_items x) i) as [[p|t|s]|]; auto. rewrite bind_panics. unfold table_justification. now rewrite K.
  - rewrite on_doc_panics. unfold row_at, table_at. destruct (nth_error w d) as [x|] eqn:N; [|tauto]. split.
    + intros [K|[y [K1 K2]]]; [discriminate|]. injection K1 as <-. destruct (nth_error (d_items x) i) as [[p|t|s]|] eqn:G; auto.
      destruct (nth_error (table_rows t) r) as [rw|] eqn:R; auto. rewrite bind_panics in K2. unfold row_justification in K2. destruct (row_props rw); [discriminate|reflexivity].
    + intros K. right. exists x. split; auto. destruct (nth_error (d_items x) i) as [[p|t|s]|]; auto. destruct (nth_error (table_rows t) r); auto.
      rewrite bind_panics. unfold row_justification. now rewrite K.
  - rewrite on_doc_panics. unfold cell_at. destruct (nth_error w d) as [x|] eqn:N; [|tauto]. split.
    + intros [K|[y [K1 K2]]]; [discriminate|]. injection K1 as <-. destruct (get_cell (d_items x) i r c) as [q|] eqn:G; auto.
      rewrite bind_panics in K2. unfold cell_shade in K2. destruct (cell_props q); [discriminate|reflexivity].
    + intros K. right. exists x. split; auto. destruct (get_cell (d_items x) i r c) as [q|]; auto. rewrite bind_panics. unfold cell_shade. now rewrite K.
  - destruct (nth_error w d) as [y|] eqn:D; [|tauto]. unfold append_file, doc_at. cbn [apart] in AP. destruct (nth_error w from) as [x|] eqn:N; [|tauto].
    rewrite (append_breaks w S0 (fun f => f <> Some d) d) with (v := w); auto.
    + split; auto. intros [K|K]; [discriminate|exact K].
    + split; auto. apply nth_error_Some. congruence.
  - unfold split_by_paragraph, doc_at. destruct AP as [NE AP]. destruct (nth_error w d) as [x|] eqn:N; [|tauto]. specialize (AP x eq_refl).
    destruct (d_items x) as [|y l] eqn:I; [split; [discriminate|intros [(p & [] & _)|(p & [] & _)]]|].
    apply (split_breaks w S0 _ _ NE).
    + unfold new_part. rewrite app_length. cbn. lia.
    + intros f Kf. destruct f as [k|]; [|reflexivity]. cbn. apply nth_error_app1. now apply Kf.
    + exact AP.
  - split; [|tauto]. intros K. eapply parse_never; eauto.
Qed.

(** ** what belongs to its own document *)
Lemma home_uses : forall (Q : option nat -> Prop) i p, (forall f, home_file i f -> Q f) -> home_para i p -> para_uses Q p.
Proof.
  intros Q i p K [F C]. split; [apply K; now left|]. rewrite Forall_forall in C. intros c I. specialize (C c I).
  destruct c as [r|id r|r]; auto; cbn in C; unfold home_run in C; rewrite Forall_forall in C; intros x J; specialize (C x J);
    (destruct x as [t|t|t|[a|] [b|]]; cbn in *; auto; intros P; apply K; apply C; destruct P as (g & d & A & B & D); exists g, d; auto).
Qed.
Lemma home_paras : forall i x, home_item i x -> Forall (home_para i) (item_paras x).
Proof.
  intros i [p|t|s] K; cbn in *; auto. apply Forall_forall. intros p I. apply in_table_paras in I. destruct I as (r & c & A & B & D).
  rewrite Forall_forall in K. specialize (K r A). unfold home_row in K. rewrite Forall_forall in K. destruct (K c B) as [_ L]. rewrite Forall_forall in L. auto.
Qed.
Lemma home_body : forall i l, Forall (home_item i) l -> Forall (home_para i) (body_paras l).
Proof. induction 1; cbn; auto. apply Forall_app. split; auto. now apply home_paras. Qed.
Lemma home_apart : forall o w, home w -> other_document o -> apart o w.
Proof.
  intros o w S O. destruct o; cbn in *; auto.
  - intros x N. eapply Forall_impl; [|apply home_body; exact (S _ _ N)]. intros p. apply home_uses. intros f [->| ->] K; [injection K as K; congruence|discriminate].
  - split; auto. intros x N. eapply Forall_impl; [|apply home_body; exact (S _ _ N)]. intros p. apply home_uses.
    intros f [->| ->] i K; [injection K as <-|discriminate]. apply nth_error_Some. congruence.
Qed.
Lemma home_nil : home [].
Proof. intros [|i] x N; discriminate. Qed.
Lemma any_panics : forall l w o, run_ops l [] = Some w -> apart o w -> (exec o w = Panic <-> breaks o w).
Proof. intros l w o E A. apply exec_breaks; auto. eapply run_sound; eauto. exact sound_nil. Qed.
Lemma own_panics : forall l w o, Forall own_pieces l -> run_ops l [] = Some w -> other_document o -> (exec o w = Panic <-> breaks o w).
Proof.
  intros l w o F E O. apply (any_panics l); auto. apply home_apart; auto. eapply run_home; eauto. exact home_nil.
Qed.

(** ** String *)
Lemma hash_panics : forall w f p, sound w ->
  (pic_hash w f p = Panic <-> match pic_blip p with Some b => hash_breaks w f b | None => False end) /\ forall e, pic_hash w f p <> Err e.
Proof.
  intros w f p S0. unfold pic_hash, hash_breaks. destruct (pic_blip p) as [b|]; [|split; [split; [discriminate|tauto]|discriminate]].
  rewrite file_reg_owner. destruct (owner w f) as [x|] eqn:O; cbn [bind]; [|split; [tauto|discriminate]].
  destruct (refer_target (d_reg x) (ablip_embed (picblip_blip b))) as [tgt|e|] eqn:R.
  - apply refer_points in R. destruct (drop 6 tgt) as [name|] eqn:D.
    + assert (M : media_ok (d_reg x)). { destruct f as [i|]; [|discriminate]. exact (S0 i x O). }
      rewrite M. cbn [bind]. destruct (last_named name (media (d_reg x))) as [m|] eqn:LN; (split; [|discriminate]).
      * split; [discriminate|]. intros [K|(x' & tgt' & A & A2 & [A3|(pre & nm & A4 & A5 & A6)])]; try discriminate; injection A as <-; rewrite <- (points_unique _ _ _ _ R A2) in *.
        -- apply drop_none in A3. congruence.
        -- assert (drop 6 tgt = Some nm) by (apply drop_some; eauto). assert (nm = name) by congruence. subst nm. exfalso. apply A6.
           apply last_named_some in LN. destruct LN as [L1 L2]. unfold stores. rewrite <- L2. now apply in_map.
      * split; auto. intros _. right. exists x, tgt. repeat split; auto. right. apply drop_some in D. destruct D as (pre & D1 & D2).
        exists pre, name. repeat split; auto. now apply last_named_stores.
    + split; [|discriminate]. split; auto. intros _. right. exists x, tgt. repeat split; auto. left. now apply drop_none.
  - split; [|discriminate]. split; [discriminate|]. intros [K|(x' & tgt' & A & A2 & _)]; try discriminate. injection A as <-. apply refer_points in A2. congruence.
  - exfalso. eapply refer_never_panics; eauto.
Qed.
Lemma data_panics : forall w k f dp d, sound w -> (gdata_string w k f dp d = Panic <-> string_breaks_data w f dp d).
Proof.
  intros w k f dp d S0. unfold gdata_string, string_breaks_data. destruct (gdataR_pic d) as [p|].
  - destruct (hash_panics w f p S0) as [HP HE]. transitivity (match pic_blip p with Some b => hash_breaks w f b | None => dp = None /\ pic_nvpic p = None end).
    + unfold pic_name. destruct dp as [n|]; [|destruct (pic_nvpic p) as [n|]; [|destruct (pic_blip p) as [b|]]]; cbn [bind].
      * rewrite bind_panics, HP. destruct (pic_blip p); [tauto|]. split; [tauto|]. intros [K _]; discriminate.
      * rewrite bind_panics, HP. destruct (pic_blip p); [tauto|]. split; [tauto|]. intros [_ K]; discriminate.
      * now rewrite bind_panics, HP.
      * split; auto.
    + split; [intros K; exists p; auto|]. intros (q & A & K). injection A as <-. exact K.
  - split; [destruct (gdataR_shape d); [discriminate|]; destruct (gdataR_canvas d); discriminate|]. intros (p & K & _). discriminate.
Qed.
Lemma inline_panics : forall w (i : inline), sound w -> (inline_string w i = Panic <->
  match inlineR_graphic i with None => True | Some g => match graphicR_data g with None => True | Some d => string_breaks_data w (inlineR_file i) (inlineR_docPr i) d end end).
Proof.
  intros w i S0. unfold inline_string. destruct (@inlineR_graphic graphic i) as [g|]; [|split; auto]. destruct (graphicR_data g); [|split; auto]. now apply data_panics.
Qed.
Lemma anchor_panics : forall w (a : anchor), sound w -> (anchor_string w a = Panic <->
  exists g d, anchorR_graphic a = Some g /\ graphicR_data g = Some d /\ string_breaks_data w (anchorR_file a) (anchorR_docPr a) d).
Proof.
  intros w a S0. unfold anchor_string. destruct (@anchorR_graphic graphic a) as [g|]; [|split; [discriminate|intros (g & d & K & _); discriminate]].
  destruct (graphicR_data g) as [d|] eqn:G; [|split; [discriminate|intros (g' & d & K & K2 & _); congruence]]. rewrite data_panics by auto. split.
  - intros K. exists g, d. auto.
  - intros (g' & d' & A & B & K). injection A as <-. rewrite G in B. injection B as <-. exact K.
Qed.
Lemma rchild_panics : forall w c, sound w -> (rchild_string w c = Panic <-> string_breaks_child w c).
Proof.
  intros w c S0. destruct c as [t|t|t|[i|] [a|]]; cbn [rchild_string string_breaks_child]; try (split; [discriminate|tauto]).
  - apply inline_panics. exact S0.
  - apply inline_panics. exact S0.
  - apply anchor_panics. exact S0.
Qed.
Lemma para_string_panics : forall w p, sound w -> (para_string w p = Panic <-> string_breaks w p).
Proof.
  intros w p S0. unfold para_string, string_breaks. rewrite rconcat_panics.
  - split; intros (c & I & K); exists c; split; auto; destruct c as [r|id r|r]; cbn [pchild_string] in *.
    + rewrite rconcat_panics in K by (intros; apply rchild_string_never). destruct K as (x & J & K). exists x. split; auto. now apply rchild_panics.
    + rewrite file_reg_owner in K. destruct (owner w (para_file p)); [discriminate|reflexivity].
    + discriminate.
    + rewrite rconcat_panics by (intros; apply rchild_string_never). destruct K as (x & J & K). exists x. split; auto. now apply rchild_panics.
    + rewrite file_reg_owner, K. reflexivity.
    + contradiction.
  - intros c e _. destruct c as [r|id r|r]; cbn [pchild_string].
    + apply rconcat_never. intros; apply rchild_string_never.
    + rewrite file_reg_owner. destruct (owner w (para_file p)); discriminate.
    + discriminate.
Qed.
Lemma para_string_never : forall w p e, para_string w p <> Err e.
Proof.
  intros w p. apply rconcat_never. intros c e. destruct c as [r|id r|r]; cbn [pchild_string].
  - apply rconcat_never. intros; apply rchild_string_never.
  - rewrite file_reg_owner. destruct (owner w (para_file p)); discriminate.
  - discriminate.
Qed.
Lemma cell_string_never : forall w c e, cell_string w c <> Err e.
Proof.
  intros w c e. unfold cell_string. destruct (cell_paras c) as [|p l]; [discriminate|]. destruct (para_children p); [discriminate|].
  pose proof (para_string_never w p). destruct (para_string w p); cbn; congruence.
Qed.
Lemma table_string_panics : forall w t, sound w -> (table_string w t = Panic <-> table_breaks w t).
Proof.
  intros w t S0. unfold table_string, table_breaks. destruct (table_rows t) as [|r0 l] eqn:T; [split; [discriminate|intros [(r & l & K & _) _]; discriminate]|].
  destruct (row_cells r0) as [|c0 cl] eqn:R0; [split; [discriminate|intros [(r & l' & K & K2) _]; injection K as <- <-; congruence]|].
  rewrite bind_panics, rconcat_panics.
  - split.
    + intros (r & I & K). split; [exists r0, l; split; auto; congruence|]. rewrite bind_panics, rconcat_panics in K by (intros; apply cell_string_never).
      destruct K as (c & J & K). unfold cell_string in K. destruct (cell_paras c) as [|p pl] eqn:CP; [discriminate|]. destruct (para_children p) eqn:PC; [discriminate|].
      rewrite bind_panics in K. exists r, c, p, pl. repeat split; auto. now apply para_string_panics.
    + intros [_ (r & c & p & pl & I & J & CP & K)]. exists r. split; auto. rewrite bind_panics, rconcat_panics by (intros; apply cell_string_never).
      exists c. split; auto. unfold cell_string. rewrite CP. destruct (para_children p) eqn:PC.
      * exfalso. destruct K as (ch & Q & _). rewrite PC in Q. destruct Q.
      * rewrite bind_panics. now apply para_string_panics.
  - intros r e _. pose proof (rconcat_never _ (cell_string w) (row_cells r) (cell_string_never w) e). destruct (rconcat _ _); cbn; congruence.
Qed.
Lemma any_strings : forall l w, run_ops l [] = Some w ->
  (forall p, para_string w p = Panic <-> string_breaks w p) /\ (forall t, table_string w t = Panic <-> table_breaks w t).
Proof.
  intros l w E. assert (S0 : sound w) by (eapply run_sound; eauto; exact sound_nil). split; intros; [now apply para_string_panics|now apply table_string_panics].
Qed.
End E.
