(** Documents in memory: reading depends only on what can be reached; making
    new objects; replacing one element. *)
From Coq Require Import String List Bool Arith Lia.
From Verif Require Import GoStr Num Lib Types Docx Api Keep Copy History RegFacts Alias SpecAlias.
Import ListNotations.
Local Open Scope list_scope.

Definition agree (h h' : heap) (l : list nat) : Prop := forall b, In b l -> nth_error h' b = nth_error h b.

Lemma agree_app : forall h h' l1 l2, agree h h' (l1 ++ l2) <-> agree h h' l1 /\ agree h h' l2.
Proof.
  intros. unfold agree. split.
  - intros H. split; intros b Hb; apply H; apply in_or_app; tauto.
  - intros [H1 H2] b Hb. apply in_app_or in Hb. destruct Hb; auto.
Qed.
Lemma agree_cons : forall h h' a l, agree h h' (a :: l) <-> nth_error h' a = nth_error h a /\ agree h h' l.
Proof.
  intros. unfold agree. split.
  - intros H. split; intros; apply H; simpl; tauto.
  - intros [H1 H2] b [->|Hb]; auto.
Qed.

Record lawful {A B} (v : heap -> A -> option B) (r : heap -> A -> list nat) : Prop := mk_lawful {
  l_frame : forall h h' a, agree h h' (r h a) -> v h' a = v h a /\ r h' a = r h a;
  l_bound : forall h a y, v h a = Some y -> forall b, In b (r h a) -> b < length h
}.

Lemma deref_agree : forall A (as_ : obj -> option A) h h' a, nth_error h' a = nth_error h a -> deref as_ h' a = deref as_ h a.
Proof. intros. unfold deref. rewrite H. reflexivity. Qed.
Lemma deref_bound : forall A (as_ : obj -> option A) h a y, deref as_ h a = Some y -> a < length h.
Proof.
  intros A as_ h a y H. unfold deref in H. destruct (nth_error h a) eqn:E; [|discriminate].
  apply nth_error_Some. congruence.
Qed.

Lemma law_prop : forall A (as_ : obj -> option A), lawful (fun h o => maybe (deref as_ h) o) (fun _ o => ptr o).
Proof.
  intros. split.
  - intros h h' [a|] H; cbn in *; [|auto]. rewrite (deref_agree _ as_ h h' a); [auto|]. apply H. simpl. auto.
  - intros h [a|] y H b Hb; cbn in *; [|tauto]. destruct Hb as [<-|[]].
    destruct (deref as_ h a) eqn:E; [|discriminate]. eapply deref_bound; eauto.
Qed.
Lemma law_maybe : forall A (v : heap -> nat -> option A) r, lawful v r ->
  lawful (fun h o => maybe (v h) o) (fun h o => flat_map (r h) (ptr o)).
Proof.
  intros A v r [F B]. split.
  - intros h h' [a|] H; cbn in *; [|auto]. rewrite app_nil_r in H. destruct (F h h' a H) as [-> ->]. auto.
  - intros h [a|] y H b Hb; cbn in *; [|tauto]. rewrite app_nil_r in Hb.
    destruct (v h a) eqn:E; [|discriminate]. eapply B; eauto.
Qed.
Lemma law_list : forall A B (v : heap -> A -> option B) r, lawful v r ->
  lawful (fun h l => all_some (v h) l) (fun h l => flat_map (r h) l).
Proof.
  intros A B v r [F Bd]. split.
  - intros h h' l. induction l as [|x l IH]; intros H; cbn in *; [auto|].
    apply agree_app in H. destruct H as [H1 H2]. destruct (F h h' x H1) as [-> ->]. destruct (IH H2) as [-> ->]. auto.
  - intros h l. induction l as [|x l IH]; intros y H b Hb; cbn in *; [tauto|].
    destruct (v h x) eqn:E; [|discriminate]. destruct (all_some (v h) l) eqn:E2; [|discriminate].
    apply in_app_or in Hb. destruct Hb as [Hb|Hb]; [eapply Bd|eapply IH]; eauto.
Qed.
(** an object with two parts *)
Lemma law_obj : forall C A1 A2 B1 B2 Y (as_ : obj -> option C) (p : C -> A1) (q : C -> A2)
  (v1 : heap -> A1 -> option B1) r1 (v2 : heap -> A2 -> option B2) r2 (f : C -> B1 -> B2 -> Y),
  lawful v1 r1 -> lawful v2 r2 ->
  lawful (fun h a => match deref as_ h a with
                     | Some c => match v1 h (p c), v2 h (q c) with Some x, Some y => Some (f c x y) | _, _ => None end
                     | None => None
                     end)
         (fun h a => a :: match deref as_ h a with Some c => r1 h (p c) ++ r2 h (q c) | None => [] end).
Proof.
  intros C A1 A2 B1 B2 Y as_ p q v1 r1 v2 r2 f [F1 D1] [F2 D2]. split.
  - intros h h' a H. apply agree_cons in H. destruct H as [H0 H]. rewrite (deref_agree _ as_ h h' a H0).
    destruct (deref as_ h a) as [c|]; [|auto]. apply agree_app in H. destruct H as [H1 H2].
    destruct (F1 h h' _ H1) as [-> ->]. destruct (F2 h h' _ H2) as [-> ->]. auto.
  - intros h a y H b [<-|Hb]; destruct (deref as_ h a) as [c|] eqn:E; try discriminate.
    + eapply deref_bound; eauto.
    + destruct (v1 h (p c)) eqn:E1; [|discriminate]. destruct (v2 h (q c)) eqn:E2; [|discriminate].
      apply in_app_or in Hb. destruct Hb; [eapply D1|eapply D2]; eauto.
Qed.

Lemma law_inl : lawful v_inl reach_inl.
Proof.
  split.
  - intros h h' a H. apply agree_cons in H. destruct H as [H0 H]. unfold v_inl, reach_inl.
    rewrite (deref_agree _ as_inl h h' a H0). destruct (deref as_inl h a) as [[[x e] s]|]; [|auto].
    apply agree_app in H. destruct H as [H1 H2].
    destruct (l_frame _ _ (law_prop _ as_ext) h h' e H1) as [-> _]. destruct (l_frame _ _ (law_prop _ as_sp) h h' s H2) as [-> _]. auto.
  - intros h a y H b [<-|Hb]; unfold v_inl in H; destruct (deref as_inl h a) as [[[x e] s]|] eqn:E; try discriminate.
    + eapply deref_bound; eauto.
    + destruct (maybe (deref as_ext h) e) eqn:E1; [|discriminate]. destruct (maybe (deref as_sp h) s) eqn:E2; [|discriminate].
      apply in_app_or in Hb. destruct Hb; [eapply (l_bound _ _ (law_prop _ as_ext))|eapply (l_bound _ _ (law_prop _ as_sp))]; eauto.
Qed.
Lemma law_anc : lawful v_anc reach_anc.
Proof.
  split.
  - intros h h' a H. apply agree_cons in H. destruct H as [H0 H]. unfold v_anc, reach_anc.
    rewrite (deref_agree _ as_anc h h' a H0). destruct (deref as_anc h a) as [[[x e] s]|]; [|auto].
    apply agree_app in H. destruct H as [H1 H2].
    destruct (l_frame _ _ (law_prop _ as_ext) h h' e H1) as [-> _]. destruct (l_frame _ _ (law_prop _ as_sp) h h' s H2) as [-> _]. auto.
  - intros h a y H b [<-|Hb]; unfold v_anc in H; destruct (deref as_anc h a) as [[[x e] s]|] eqn:E; try discriminate.
    + eapply deref_bound; eauto.
    + destruct (maybe (deref as_ext h) e) eqn:E1; [|discriminate]. destruct (maybe (deref as_sp h) s) eqn:E2; [|discriminate].
      apply in_app_or in Hb. destruct Hb; [eapply (l_bound _ _ (law_prop _ as_ext))|eapply (l_bound _ _ (law_prop _ as_sp))]; eauto.
Qed.
Lemma law_rchild : lawful v_rchild reach_rchild.
Proof.
  split.
  - intros h h' [t|t|t|i a] H; cbn in *; try auto. apply agree_app in H. destruct H as [H1 H2].
    destruct (l_frame _ _ (law_maybe _ _ _ law_inl) h h' i H1) as [-> E1].
    destruct (l_frame _ _ (law_maybe _ _ _ law_anc) h h' a H2) as [-> E2]. cbn in E1, E2. rewrite E1, E2. auto.
  - intros h [t|t|t|i a] y H b Hb; cbn in *; try tauto.
    destruct (maybe (v_inl h) i) eqn:E1; [|discriminate]. destruct (maybe (v_anc h) a) eqn:E2; [|discriminate].
    apply in_app_or in Hb.
    destruct Hb as [Hb|Hb]; [exact (l_bound _ _ (law_maybe _ _ _ law_inl) h i _ E1 b Hb)|exact (l_bound _ _ (law_maybe _ _ _ law_anc) h a _ E2 b Hb)].
Qed.
Definition law_rchildren := law_list _ _ _ _ law_rchild.
Lemma law_run : lawful v_run reach_run.
Proof.
  split.
  - intros h h' r H. unfold v_run, reach_run in *. apply agree_app in H. destruct H as [H1 H2].
    destruct (l_frame _ _ (law_prop _ as_rpr) h h' _ H1) as [-> _].
    destruct (l_frame _ _ law_rchildren h h' _ H2) as [-> ->]. auto.
  - intros h r y H b Hb. unfold v_run, reach_run in *.
    destruct (maybe (deref as_rpr h) (hr_rpr r)) eqn:E1; [|discriminate]. destruct (all_some (v_rchild h) (hr_children r)) eqn:E2; [|discriminate].
    apply in_app_or in Hb.
    destruct Hb as [Hb|Hb]; [exact (l_bound _ _ (law_prop _ as_rpr) h _ _ E1 b Hb)|exact (l_bound _ _ law_rchildren h _ _ E2 b Hb)].
Qed.
Lemma law_child : lawful v_child reach_child.
Proof.
  split.
  - intros h h' [a|a|q] H; cbn in *; try auto; apply agree_cons in H; destruct H as [H0 H].
    + rewrite (deref_agree _ as_run h h' a H0). destruct (deref as_run h a) as [r|]; [|auto].
      destruct (l_frame _ _ law_run h h' r H) as [-> ->]. auto.
    + rewrite (deref_agree _ as_link h h' a H0). destruct (deref as_link h a) as [[id r]|]; [|auto].
      destruct (l_frame _ _ law_run h h' r H) as [-> ->]. auto.
  - intros h [a|a|q] y H b Hb; cbn in *; try tauto.
    + destruct (deref as_run h a) as [r|] eqn:E; [|discriminate]. destruct Hb as [<-|Hb]; [eapply deref_bound; eauto|].
      destruct (v_run h r) eqn:Er; [|discriminate]. exact (l_bound _ _ law_run h r _ Er b Hb).
    + destruct (deref as_link h a) as [[id r]|] eqn:E; [|discriminate]. destruct Hb as [<-|Hb]; [eapply deref_bound; eauto|].
      destruct (v_run h r) eqn:Er; [|discriminate]. exact (l_bound _ _ law_run h r _ Er b Hb).
Qed.
Definition law_children := law_list _ _ _ _ law_child.
Lemma law_para : lawful v_para reach_para.
Proof. exact (law_obj _ _ _ _ _ _ as_para hp_ppr hp_children _ _ _ _ (fun p q c => mk_para q c (hp_file p)) (law_prop _ as_ppr) law_children). Qed.
Definition law_paras := law_list _ _ _ _ law_para.
Lemma law_cell : lawful v_cell reach_cell.
Proof. exact (law_obj _ _ _ _ _ _ as_cell hc_tc hc_paras _ _ _ _ (fun p q c => mk_cell q c (hc_file p)) (law_prop _ as_tc) law_paras). Qed.
Definition law_cells := law_list _ _ _ _ law_cell.
Lemma law_row : lawful v_row reach_row.
Proof. exact (law_obj _ _ _ _ _ _ as_row hw_tr hw_cells _ _ _ _ (fun p q c => mk_row q c) (law_prop _ as_tr) law_cells). Qed.
Definition law_rows := law_list _ _ _ _ law_row.
Lemma law_table : lawful v_table reach_table.
Proof. exact (law_obj _ _ _ _ _ _ as_table ht_tbl ht_rows _ _ _ _ (fun p q c => mk_table q (ht_grid p) c) (law_prop _ as_tbl) law_rows). Qed.
Lemma law_item : lawful v_item reach_item.
Proof.
  split.
  - intros h h' [a|a|s] H; cbn [reach_item v_item] in *.
    + destruct (l_frame _ _ law_para h h' a H) as [-> ->]. split; reflexivity.
    + destruct (l_frame _ _ law_table h h' a H) as [-> ->]. split; reflexivity.
    + split; reflexivity.
  - intros h [a|a|s] y H b Hb; cbn in *; try tauto.
    + destruct (v_para h a) eqn:E; [|discriminate]. exact (l_bound _ _ law_para h a _ E b Hb).
    + destruct (v_table h a) eqn:E; [|discriminate]. exact (l_bound _ _ law_table h a _ E b Hb).
Qed.
Definition law_items := law_list _ _ _ _ law_item.

(** ** Making objects *)
Definition keeps (h h' : heap) : Prop := exists l, h' = h ++ l.
Lemma keeps_refl : forall h, keeps h h. Proof. intros h. exists []. rewrite app_nil_r. reflexivity. Qed.
Lemma keeps_trans : forall a b c, keeps a b -> keeps b c -> keeps a c.
Proof. intros a b c [l ->] [l' ->]. exists (l ++ l'). rewrite app_assoc. reflexivity. Qed.
Lemma keeps_len : forall a b, keeps a b -> length a <= length b.
Proof. intros a b [l ->]. rewrite app_length. lia. Qed.
Lemma keeps_nth : forall a b i, keeps a b -> i < length a -> nth_error b i = nth_error a i.
Proof. intros a b i [l ->] H. apply nth_error_app1. exact H. Qed.
Lemma keeps_alloc : forall h o, keeps h (h ++ [o]).
Proof. intros. exists [o]. reflexivity. Qed.
Lemma keeps_deref : forall A (as_ : obj -> option A) h h' a x, keeps h h' -> deref as_ h a = Some x -> deref as_ h' a = Some x.
Proof. intros A as_ h h' a x K E. unfold deref in *. rewrite (keeps_nth h h' a K (deref_bound _ as_ h a x E)). exact E. Qed.
Lemma law_keeps : forall A B (v : heap -> A -> option B) r, lawful v r -> forall h h' a y, keeps h h' -> v h a = Some y ->
  v h' a = Some y /\ r h' a = r h a.
Proof.
  intros A B v r [F Bd] h h' a y K E. destruct (F h h' a) as [-> ->]; [|auto].
  intros b Hb. apply keeps_nth; [exact K|]. eapply Bd; eauto.
Qed.

(** [f] makes new objects only, all different *)
Definition makes {A B} (f : B -> heap -> heap * A) (v : heap -> A -> option B) (r : heap -> A -> list nat) : Prop :=
  forall y h h' a, f y h = (h', a) ->
    keeps h h' /\ v h' a = Some y /\ NoDup (r h' a) /\ forall b, In b (r h' a) -> length h <= b.

Lemma nodup_app : forall (l l' : list nat) n, NoDup l -> NoDup l' -> (forall b, In b l -> b < n) -> (forall b, In b l' -> n <= b) -> NoDup (l ++ l').
Proof.
  induction l as [|x l IH]; intros l' n H1 H2 L G; cbn; [exact H2|]. inversion H1; subst. constructor.
  - intros Hin. apply in_app_or in Hin. destruct Hin as [Hin|Hin]; [tauto|].
    specialize (L x (or_introl eq_refl)). specialize (G x Hin). lia.
  - apply (IH l' n); auto. intros b Hb. apply L. simpl. auto.
Qed.

Lemma makes_list : forall A B (f : B -> heap -> heap * A) v r, lawful v r -> makes f v r ->
  makes (al_list f) (fun h l => all_some (v h) l) (fun h l => flat_map (r h) l).
Proof.
  intros A B f v r L M ys. induction ys as [|y ys IH]; intros h h' l E; cbn in E.
  - inversion E; subst. cbn. repeat split; [apply keeps_refl|constructor|tauto].
  - destruct (f y h) as [h1 a] eqn:E1. destruct (al_list f ys h1) as [h2 l2] eqn:E2. inversion E; subst h' l.
    destruct (M _ _ _ _ E1) as (K1 & V1 & N1 & G1). destruct (IH _ _ _ E2) as (K2 & V2 & N2 & G2).
    destruct (law_keeps _ _ v r L h1 h2 a y K2 V1) as [V1' R1]. cbn. rewrite V1', V2, R1. repeat split.
    + eapply keeps_trans; eauto.
    + apply (nodup_app _ _ (length h1)); auto. intros b Hb. exact (l_bound _ _ L h1 a y V1 b Hb).
    + intros b Hb. apply in_app_or in Hb. destruct Hb as [Hb|Hb]; [apply G1; exact Hb|].
      apply G2 in Hb. apply keeps_len in K1. lia.
Qed.

Lemma deref_new : forall A (as_ : obj -> option A) h o, deref as_ (h ++ [o]) (length h) = as_ o.
Proof. intros. unfold deref. rewrite nth_error_app2 by lia. rewrite Nat.sub_diag. reflexivity. Qed.

Lemma makes_prop : forall A (mk : A -> obj) (as_ : obj -> option A), (forall x, as_ (mk x) = Some x) ->
  makes (al_opt mk) (fun h o => maybe (deref as_ h) o) (fun _ o => ptr o).
Proof.
  intros A mk as_ Hmk [x|] h h' a E; cbn in E; inversion E; subst; cbn.
  - rewrite deref_new, Hmk. repeat split; [apply keeps_alloc|repeat constructor; simpl; tauto|]. intros b [<-|[]]. lia.
  - repeat split; [apply keeps_refl|constructor|tauto].
Qed.

Lemma made_two : forall A1 B1 A2 B2 (v1 : heap -> A1 -> option B1) r1 (v2 : heap -> A2 -> option B2) r2,
  lawful v1 r1 -> lawful v2 r2 -> forall h h1 h2 p q x y o,
  keeps h h1 /\ v1 h1 p = Some x /\ NoDup (r1 h1 p) /\ (forall b, In b (r1 h1 p) -> length h <= b) ->
  keeps h1 h2 /\ v2 h2 q = Some y /\ NoDup (r2 h2 q) /\ (forall b, In b (r2 h2 q) -> length h1 <= b) ->
  keeps h (h2 ++ [o]) /\ v1 (h2 ++ [o]) p = Some x /\ v2 (h2 ++ [o]) q = Some y /\
  NoDup (length h2 :: r1 (h2 ++ [o]) p ++ r2 (h2 ++ [o]) q) /\
  (forall b, In b (length h2 :: r1 (h2 ++ [o]) p ++ r2 (h2 ++ [o]) q) -> length h <= b).
Proof.
  intros A1 B1 A2 B2 v1 r1 v2 r2 L1 L2 h h1 h2 p q x y o (K1 & V1 & N1 & G1) (K2 & V2 & N2 & G2).
  assert (K3 : keeps h1 (h2 ++ [o])) by (eapply keeps_trans; [exact K2|apply keeps_alloc]).
  destruct (law_keeps _ _ v1 r1 L1 h1 _ p x K3 V1) as [V1' R1].
  destruct (law_keeps _ _ v2 r2 L2 h2 _ q y (keeps_alloc h2 o) V2) as [V2' R2].
  pose proof (keeps_len _ _ K1). pose proof (keeps_len _ _ K2). rewrite R1, R2.
  assert (L1' : forall b, In b (r1 h1 p) -> b < length h1) by (intros b; exact (l_bound _ _ L1 h1 p x V1 b)).
  assert (L2' : forall b, In b (r2 h2 q) -> b < length h2) by (intros b; exact (l_bound _ _ L2 h2 q y V2 b)).
  split; [eapply keeps_trans; eauto|]. split; [exact V1'|]. split; [exact V2'|]. split.
  - constructor.
    + intros Hin. apply in_app_or in Hin. destruct Hin as [Hin|Hin]; [apply L1' in Hin|apply L2' in Hin]; lia.
    + apply (nodup_app _ _ (length h1)); auto.
  - intros b [<-|Hb]; [lia|]. apply in_app_or in Hb. destruct Hb as [Hb|Hb]; [auto|]. apply G2 in Hb. lia.
Qed.

Lemma put_sp_same : forall g, put_sp (graphic_sp (Some g)) g = g.
Proof.
  intros [? d]. unfold put_sp, graphic_sp. destruct d as [[? p ? ? ?]|]; cbn; [|reflexivity].
  destruct p as [[? ? ? ?]|]; reflexivity.
Qed.
Lemma put_inl_same : forall x : inline, put_inl (inlineR_extent x) (graphic_sp (inlineR_graphic x)) x = x.
Proof.
  intros [t b l r e ee dp fr g f]. unfold put_inl. cbn [inlineR_extent inlineR_graphic set_inlineR_extent set_inlineR_graphic].
  destruct g as [g|]; cbn; [|reflexivity]. change (match graphicR_data g with
     | Some d => match gdataR_pic d with Some p => pic_sp p | None => None end | None => None end) with (graphic_sp (Some g)).
  rewrite put_sp_same. reflexivity.
Qed.
Lemma put_anc_same : forall x : anchor, put_anc (anchorR_extent x) (graphic_sp (anchorR_graphic x)) x = x.
Proof.
  intros [? ? ? ? ? ? ? ? ? ? ? ? ? ? ? ? ? ? ? g ?]. unfold put_anc.
  destruct g as [g|]; cbn; [|reflexivity]. change (match graphicR_data g with
     | Some d => match gdataR_pic d with Some p => pic_sp p | None => None end | None => None end) with (graphic_sp (Some g)).
  rewrite put_sp_same. reflexivity.
Qed.

Lemma makes_inl : makes al_inl v_inl reach_inl.
Proof.
  intros x h h' a E. unfold al_inl in E.
  destruct (al_opt OExt (inlineR_extent x) h) as [h1 e] eqn:E1.
  destruct (al_opt OSp (graphic_sp (inlineR_graphic x)) h1) as [h2 s] eqn:E2. inversion E; subst h' a.
  pose proof (makes_prop _ OExt as_ext (fun _ => eq_refl) _ _ _ _ E1) as M1.
  pose proof (makes_prop _ OSp as_sp (fun _ => eq_refl) _ _ _ _ E2) as M2.
  destruct (made_two _ _ _ _ _ _ _ _ (law_prop _ as_ext) (law_prop _ as_sp) _ _ _ _ _ _ _ (OInl x e s) M1 M2) as (K & V1 & V2 & N & G).
  unfold v_inl, reach_inl. rewrite deref_new. cbn [as_inl]. rewrite V1, V2, put_inl_same. auto.
Qed.
Lemma makes_anc : makes al_anc v_anc reach_anc.
Proof.
  intros x h h' a E. unfold al_anc in E.
  destruct (al_opt OExt (anchorR_extent x) h) as [h1 e] eqn:E1.
  destruct (al_opt OSp (graphic_sp (anchorR_graphic x)) h1) as [h2 s] eqn:E2. inversion E; subst h' a.
  pose proof (makes_prop _ OExt as_ext (fun _ => eq_refl) _ _ _ _ E1) as M1.
  pose proof (makes_prop _ OSp as_sp (fun _ => eq_refl) _ _ _ _ E2) as M2.
  destruct (made_two _ _ _ _ _ _ _ _ (law_prop _ as_ext) (law_prop _ as_sp) _ _ _ _ _ _ _ (OAnc x e s) M1 M2) as (K & V1 & V2 & N & G).
  unfold v_anc, reach_anc. rewrite deref_new. cbn [as_anc]. rewrite V1, V2, put_anc_same. auto.
Qed.
Lemma makes_maybe : forall A (f : A -> heap -> heap * nat) v r, makes f v r ->
  makes (al_maybe f) (fun h o => maybe (v h) o) (fun h o => flat_map (r h) (ptr o)).
Proof.
  intros A f v r M [x|] h h' a E; cbn in E.
  - destruct (f x h) as [h1 b] eqn:E1. inversion E; subst. destruct (M _ _ _ _ E1) as (K & V & N & G). cbn.
    rewrite V, app_nil_r. auto.
  - inversion E; subst. cbn. repeat split; [apply keeps_refl|constructor|tauto].
Qed.
Lemma makes_rchild : makes al_rchild v_rchild reach_rchild.
Proof.
  intros [t|t|t|i a] h h' c E; cbn [al_rchild] in E.
  1-3: inversion E; subst; cbn; repeat split; [apply keeps_refl|constructor|tauto].
  destruct (al_maybe al_inl i h) as [h1 i'] eqn:E1. destruct (al_maybe al_anc a h1) as [h2 a'] eqn:E2. inversion E; subst h' c.
  destruct (makes_maybe _ _ _ _ makes_inl _ _ _ _ E1) as (K1 & V1 & N1 & G1).
  destruct (makes_maybe _ _ _ _ makes_anc _ _ _ _ E2) as (K2 & V2 & N2 & G2).
  destruct (law_keeps _ _ _ _ (law_maybe _ _ _ law_inl) h1 h2 i' i K2 V1) as [V1' R1].
  cbn [v_rchild reach_rchild]. rewrite V1', V2, R1. repeat split.
  - eapply keeps_trans; eauto.
  - apply (nodup_app _ _ (length h1)); auto. intros b Hb. exact (l_bound _ _ (law_maybe _ _ _ law_inl) h1 i' i V1 b Hb).
  - intros b Hb. apply in_app_or in Hb. destruct Hb as [Hb|Hb]; [auto|]. apply G2 in Hb. apply keeps_len in K1. lia.
Qed.
Definition makes_rchildren := makes_list _ _ _ _ _ law_rchild makes_rchild.
Lemma makes_run : makes al_run v_run reach_run.
Proof.
  intros r h h' c E. unfold al_run in E.
  destruct (al_opt ORpr (runR_rpr r) h) as [h1 q] eqn:E1. destruct (al_list al_rchild (runR_children r) h1) as [h2 l] eqn:E2. inversion E; subst h' c.
  destruct (makes_prop _ ORpr as_rpr (fun _ => eq_refl) _ _ _ _ E1) as (K1 & V1 & N1 & G1).
  destruct (makes_rchildren _ _ _ _ E2) as (K2 & V2 & N2 & G2).
  destruct (law_keeps _ _ _ _ (law_prop _ as_rpr) h1 h2 q _ K2 V1) as [V1' _].
  unfold v_run, reach_run. cbn [hr_rpr hr_children hr_space hr_instr]. rewrite V1', V2. repeat split.
  - eapply keeps_trans; eauto.
  - destruct r; reflexivity.
  - apply (nodup_app _ _ (length h1)); auto. intros b Hb. exact (l_bound _ _ (law_prop _ as_rpr) h1 q _ V1 b Hb).
  - intros b Hb. apply in_app_or in Hb. destruct Hb as [Hb|Hb]; [auto|]. apply G2 in Hb. apply keeps_len in K1. lia.
Qed.
Lemma makes_child : makes al_child v_child reach_child.
Proof.
  intros [r|id r|q] h h' c E; cbn [al_child] in E.
  - destruct (al_run r h) as [h1 r'] eqn:E1. destruct (makes_run _ _ _ _ E1) as (K & V & N & G). inversion E; subst h' c.
    destruct (law_keeps _ _ _ _ law_run h1 _ r' r (keeps_alloc h1 (OHRun r')) V) as [V' R].
    cbn [v_child reach_child]. rewrite deref_new. cbn [as_run]. rewrite V', R. repeat split.
    + eapply keeps_trans; [exact K|apply keeps_alloc].
    + constructor; [|exact N]. intros Hin. apply (l_bound _ _ law_run h1 r' r V) in Hin. lia.
    + intros b [<-|Hb]; [apply keeps_len; exact K|auto].
  - destruct (al_run r h) as [h1 r'] eqn:E1. destruct (makes_run _ _ _ _ E1) as (K & V & N & G). inversion E; subst h' c.
    destruct (law_keeps _ _ _ _ law_run h1 _ r' r (keeps_alloc h1 (OHLink id r')) V) as [V' R].
    cbn [v_child reach_child]. rewrite deref_new. cbn [as_link]. rewrite V', R. repeat split.
    + eapply keeps_trans; [exact K|apply keeps_alloc].
    + constructor; [|exact N]. intros Hin. apply (l_bound _ _ law_run h1 r' r V) in Hin. lia.
    + intros b [<-|Hb]; [apply keeps_len; exact K|auto].
  - inversion E; subst. cbn. repeat split; [apply keeps_refl|constructor|tauto].
Qed.
Definition makes_children := makes_list _ _ _ _ _ law_child makes_child.
Lemma makes_para : makes al_para v_para reach_para.
Proof.
  intros p h h' a E. unfold al_para in E.
  destruct (al_opt OPpr (para_ppr p) h) as [h1 q] eqn:E1. destruct (al_list al_child (para_children p) h1) as [h2 l] eqn:E2. inversion E; subst h' a.
  pose proof (makes_prop _ OPpr as_ppr (fun _ => eq_refl) _ _ _ _ E1) as M1. pose proof (makes_children _ _ _ _ E2) as M2.
  destruct (made_two _ _ _ _ _ _ _ _ (law_prop _ as_ppr) law_children _ _ _ _ _ _ _ (OHPara (mk_hpara q l (para_file p))) M1 M2) as (K & V1 & V2 & N & G).
  unfold v_para, reach_para. rewrite deref_new. cbn [as_para hp_ppr hp_children hp_file]. rewrite V1, V2. repeat split; auto.
  destruct p as [[? ? ?]]. reflexivity.
Qed.
Definition makes_paras := makes_list _ _ _ _ _ law_para makes_para.
Lemma makes_cell : makes al_cell v_cell reach_cell.
Proof.
  intros p h h' a E. unfold al_cell in E.
  destruct (al_opt OTc (cell_props p) h) as [h1 q] eqn:E1. destruct (al_list al_para (cell_paras p) h1) as [h2 l] eqn:E2. inversion E; subst h' a.
  pose proof (makes_prop _ OTc as_tc (fun _ => eq_refl) _ _ _ _ E1) as M1. pose proof (makes_paras _ _ _ _ E2) as M2.
  destruct (made_two _ _ _ _ _ _ _ _ (law_prop _ as_tc) law_paras _ _ _ _ _ _ _ (OHCell (mk_hcell q l (cell_file p))) M1 M2) as (K & V1 & V2 & N & G).
  unfold v_cell, reach_cell. rewrite deref_new. cbn [as_cell hc_tc hc_paras hc_file]. rewrite V1, V2. repeat split; auto.
  destruct p; reflexivity.
Qed.
Definition makes_cells := makes_list _ _ _ _ _ law_cell makes_cell.
Lemma makes_row : makes al_row v_row reach_row.
Proof.
  intros p h h' a E. unfold al_row in E.
  destruct (al_opt OTr (row_props p) h) as [h1 q] eqn:E1. destruct (al_list al_cell (row_cells p) h1) as [h2 l] eqn:E2. inversion E; subst h' a.
  pose proof (makes_prop _ OTr as_tr (fun _ => eq_refl) _ _ _ _ E1) as M1. pose proof (makes_cells _ _ _ _ E2) as M2.
  destruct (made_two _ _ _ _ _ _ _ _ (law_prop _ as_tr) law_cells _ _ _ _ _ _ _ (OHRow (mk_hrow q l)) M1 M2) as (K & V1 & V2 & N & G).
  unfold v_row, reach_row. rewrite deref_new. cbn [as_row hw_tr hw_cells]. rewrite V1, V2. repeat split; auto.
  destruct p; reflexivity.
Qed.
Definition makes_rows := makes_list _ _ _ _ _ law_row makes_row.
Lemma makes_table : makes al_table v_table reach_table.
Proof.
  intros p h h' a E. unfold al_table in E.
  destruct (al_opt OTbl (table_props p) h) as [h1 q] eqn:E1. destruct (al_list al_row (table_rows p) h1) as [h2 l] eqn:E2. inversion E; subst h' a.
  pose proof (makes_prop _ OTbl as_tbl (fun _ => eq_refl) _ _ _ _ E1) as M1. pose proof (makes_rows _ _ _ _ E2) as M2.
  destruct (made_two _ _ _ _ _ _ _ _ (law_prop _ as_tbl) law_rows _ _ _ _ _ _ _ (OHTable (mk_htable q (table_grid p) l)) M1 M2) as (K & V1 & V2 & N & G).
  unfold v_table, reach_table. rewrite deref_new. cbn [as_table ht_tbl ht_rows ht_grid]. rewrite V1, V2. repeat split; auto.
  destruct p; reflexivity.
Qed.
Lemma makes_item : makes al_item v_item reach_item.
Proof.
  intros [p|t|s] h h' a E; cbn [al_item] in E.
  - destruct (al_para p h) as [h1 b] eqn:E1. inversion E; subst. destruct (makes_para _ _ _ _ E1) as (K & V & N & G).
    cbn [v_item reach_item]. rewrite V. auto.
  - destruct (al_table t h) as [h1 b] eqn:E1. inversion E; subst. destruct (makes_table _ _ _ _ E1) as (K & V & N & G).
    cbn [v_item reach_item]. rewrite V. auto.
  - inversion E; subst. cbn. repeat split; [apply keeps_refl|constructor|tauto].
Qed.
Definition makes_items := makes_list _ _ _ _ _ law_item makes_item.
