(** The general facts about histories for documents made by New and LoadBodyItems. *)
From Coq Require Import String Ascii List Bool Arith NArith ZArith Lia.
From Verif Require Import GoStr Num Lib Types Docx Text Api Keep Copy History RegFacts IdFacts SpecApi SpecEdit ApiFacts HistFacts HistFacts2.
Import ListNotations.
Local Open Scope list_scope.
Local Open Scope string_scope.

Section N.
Context `{GoLib}.
Lemma from_start : forall w0 d0 l w d, run_ops l (w0 ++ [d0])%list = Some w -> nth_error w (length w0) = Some d ->
  reg_steps (d_reg d0) (d_reg d).
Proof.
  intros w0 d0 l w d R N. apply run_ops_grows in R. destruct (R (length w0) d0) as [d' [A B]].
  - rewrite nth_error_app2 by lia. now rewrite Nat.sub_diag.
  - rewrite N in A. injection A as ->. exact B.
Qed.
Lemma made_numbered : forall d, made d -> numbered (d_reg d) /\ rid (d_reg d) = 3%N /\ length (rels (d_reg d)) = 3 /\ media_ok (d_reg d).
Proof.
  intros d M. inversion M; subst; cbn [d_reg new_docx load_body_items].
  - split; [apply empty_numbered|]. split; [reflexivity|]. split; [reflexivity|]. apply empty_media_ok.
  - split; [apply load_numbered|]. split; [reflexivity|]. split; [reflexivity|]. apply load_media_ok.
Qed.
Lemma made_rels : forall d, made d -> rels (d_reg d) = base_rels.
Proof. intros d M. inversion M; reflexivity. Qed.
Lemma made_ids_unique : forall w0 d0 l w d, made d0 -> run_ops l (w0 ++ [d0])%list = Some w -> nth_error w (length w0) = Some d ->
  (N.of_nat (length (rels (d_reg d))) < two63)%N -> NoDup (map rel_id (rels (d_reg d))).
Proof.
  intros w0 d0 l w d M R N L. pose proof (from_start _ _ _ _ _ R N) as S. destruct (made_numbered _ M) as [A [B [C _]]].
  destruct (steps_rels _ _ S) as [l0 [E Q]]. rewrite (made_rels _ M) in *. rewrite E in *. rewrite app_length in L. cbn [length base_rels] in L. unfold two63 in L.
  destruct Q as [Q1 Q2]; [rewrite B; lia|]. rewrite map_app, Q2, B.
  change (map rel_id base_rels) with (ids_from 0 3). change 3%N with (0 + N.of_nat 3)%N at 1. rewrite <- ids_from_app. apply ids_from_nodup.
Qed.
Lemma made_link : forall w0 d0 l1 w j a t link w1 x p l2 w2 d2, made d0 ->
  run_ops l1 (w0 ++ [d0])%list = Some w ->
  nth_error w j = Some x -> get_para (d_items x) a = Some p -> para_file p = Some (length w0) ->
  exec (OPara j a (OLink t link)) w = Ok w1 -> run_ops l2 w1 = Some w2 -> nth_error w2 (length w0) = Some d2 ->
  (N.of_nat (length (rels (d_reg d2))) < two63)%N ->
  exists x1 id r, nth_error w1 j = Some x1 /\
    get_para (d_items x1) a = Some (mk_para (para_ppr p) (para_children p ++ [PLink id r])%list (para_file p)) /\
    runR_instr r = t /\ refer_target (d_reg d2) id = Ok link.
Proof.
  intros w0 d0 l1 w j a t link w1 x p l2 w2 d2 M R Nj G F E R2 N2 L. destruct (made_numbered _ M) as [A [B [C _]]].
  assert (N0 : exists e, nth_error w (length w0) = Some e).
  { apply run_ops_grows in R. destruct (R (length w0) d0) as [e [K _]]; [|eauto]. rewrite nth_error_app2 by lia. now rewrite Nat.sub_diag. }
  destruct N0 as [e N0]. eapply (hyperlink_keeps (d_reg d0) (length w0)); eauto.
  - eapply from_start; eauto.
  - rewrite B, C. unfold two63 in L. lia.
Qed.
Lemma new_picture : forall w0 l1 w j a anch data w1 x p l2 w2 d2,
  run_ops l1 (w0 ++ [new_docx])%list = Some w ->
  nth_error w j = Some x -> get_para (d_items x) a = Some p -> para_file p = Some (length w0) ->
  exec (OPara j a (ODrawing anch data)) w = Ok w1 -> run_ops l2 w1 = Some w2 -> nth_error w2 (length w0) = Some d2 ->
  (N.of_nat (length (rels (d_reg d2))) < two63)%N ->
  exists x1 r c pc embed name, nth_error w1 j = Some x1 /\
    get_para (d_items x1) a = Some (mk_para (para_ppr p) (para_children p ++ [PRun r])%list (para_file p)) /\
    runR_children r = [c] /\ drawing_pics c = [pc] /\ pic_embed pc = Some embed /\
    refer_target (d_reg d2) embed = Ok ("media/" ++ name) /\
    media_of (d_reg d2) name = Ok (Some (name, data)).
Proof.
  intros w0 l1 w j a anch data w1 x p l2 w2 d2 R Nj G F E R2 N2 L. destruct (made_numbered _ made_new) as [A [B [C D]]].
  assert (N0 : exists e, nth_error w (length w0) = Some e).
  { apply run_ops_grows in R. destruct (R (length w0) new_docx) as [e [K _]]; [|eauto]. rewrite nth_error_app2 by lia. now rewrite Nat.sub_diag. }
  destruct N0 as [e N0]. eapply (picture_keeps (d_reg new_docx) (length w0)); eauto.
  - apply empty_img_fresh.
  - eapply from_start; eauto.
  - rewrite B, C. unfold two63 in L. lia.
  - cbn [d_reg new_docx imgid empty_reg media length]. assert (S : reg_steps empty_reg (d_reg d2)).
    { assert (R3 : run_ops (l1 ++ [OPara j a (ODrawing anch data)] ++ l2)%list (w0 ++ [new_docx])%list = Some w2).
      { clear - R E R2. revert R. generalize (w0 ++ [new_docx])%list. induction l1 as [|o l IH]; cbn; intros u R.
        - injection R as ->. cbn in E. rewrite E. exact R2.
        - destruct (exec o u); auto. discriminate. }
      exact (from_start _ _ _ _ _ R3 N2). }
    apply steps_empty_media in S. unfold two63 in L. lia.
Qed.
Lemma made_media : forall w0 d0 l w d n, made d0 -> run_ops l (w0 ++ [d0])%list = Some w -> nth_error w (length w0) = Some d ->
  match media_of (d_reg d) n with
  | Ok None => ~ In n (map fst (media (d_reg d)))
  | Ok (Some m) => last_media (media (d_reg d)) n m
  | _ => False
  end.
Proof.
  intros w0 d0 l w d n M R N. destruct (made_numbered _ M) as [_ [_ [_ D]]]. pose proof (from_start _ _ _ _ _ R N) as S.
  rewrite (steps_media_ok _ _ S D). destruct (last_named n (media (d_reg d))) eqn:Q.
  - now apply last_named_spec.
  - now apply last_named_none_iff.
Qed.
(** nothing stored is lost *)
Lemma made_media_grows : forall w0 d0 l w d, run_ops l (w0 ++ [d0])%list = Some w -> nth_error w (length w0) = Some d ->
  exists more, media (d_reg d) = (media (d_reg d0) ++ more)%list.
Proof. intros w0 d0 l w d R N. destruct (steps_media _ _ (from_start _ _ _ _ _ R N)) as [m [E _]]. eauto. Qed.
End N.

(** ** Forms in which PropApi states the facts *)
From Coq Require Import Permutation.
From Verif Require Import EditFacts.
Lemma table_counts : forall i r c width col d,
  ((0 <= iv r)%Z -> (0 <= iv c)%Z -> exists d' cc, add_table i r c width col d = Ok (d', cc)) /\
  ((iv r < 0 \/ (0 < iv r /\ iv c < 0))%Z -> add_table i r c width col d = Panic).
Proof. intros. split; intros; [now apply table_exists|now apply table_negative]. Qed.
Lemma keep_exact : forall names, 
  (forall l, body_keep names l = filter (fun x => listed names (item_type x)) l) /\
  (forall p, para_keep names p = mk_para (para_ppr p) (filter (fun x => listed names (pchild_type x)) (para_children p)) (para_file p)) /\
  (forall r, run_keep names r = mk_runR (runR_space r) (runR_rpr r) (runR_instr r) (filter (fun x => listed names (rchild_type x)) (runR_children r))).
Proof. intros. unfold body_keep, para_keep, run_keep, set_para_children, set_runR_children. split; [|split]; intros; now rewrite keep_filter. Qed.
Lemma keep_twice : forall n1 n2,
  (forall l, body_keep n2 (body_keep n1 l) = filter (fun x => (listed n1 (item_type x) && listed n2 (item_type x))%bool) l) /\
  (forall p, para_children (para_keep n2 (para_keep n1 p)) = filter (fun x => (listed n1 (pchild_type x) && listed n2 (pchild_type x))%bool) (para_children p)) /\
  (forall r, runR_children (run_keep n2 (run_keep n1 r)) = filter (fun x => (listed n1 (rchild_type x) && listed n2 (rchild_type x))%bool) (runR_children r)).
Proof.
  intros. unfold body_keep, para_keep, run_keep. split; [|split]; intros; cbn [para_children set_para_children runR_children set_runR_children]; apply keep_both.
Qed.
Lemma perm_two : forall (a b : string) l, Permutation l [a; b] -> l = [a; b] \/ l = [b; a].
Proof. intros a b l P. apply Permutation_sym, Permutation_length_2_inv in P. exact P. Qed.
Lemma perm_three : forall (a b c : string) l, Permutation l [a; b; c] ->
  l = [a; b; c] \/ l = [a; c; b] \/ l = [b; a; c] \/ l = [b; c; a] \/ l = [c; a; b] \/ l = [c; b; a].
Proof.
  intros a b c l P. assert (E : exists x y z, l = [x; y; z]).
  { apply Permutation_length in P. destruct l as [|x [|y [|z [|]]]]; try discriminate P. eauto. }
  destruct E as [x [y [z ->]]].
  assert (I : In x [a; b; c]) by (apply (Permutation_in _ P); now left).
  destruct I as [<-|[<-|[<-|[]]]].
  - apply Permutation_cons_inv in P. apply perm_two in P. destruct P as [P|P]; inversion P; subst; auto 8.
  - assert (Q : Permutation (b :: [y; z]) (b :: [a; c])) by (eapply Permutation_trans; [exact P|]; constructor).
    apply Permutation_cons_inv in Q. apply perm_two in Q. destruct Q as [Q|Q]; inversion Q; subst; auto 8.
  - assert (Q : Permutation (c :: [y; z]) (c :: [a; b])).
    { eapply Permutation_trans; [exact P|]. change [a; b; c] with ([a; b] ++ [c])%list. apply Permutation_sym, Permutation_cons_append. }
    apply Permutation_cons_inv in Q. apply perm_two in Q. destruct Q as [Q|Q]; inversion Q; subst; auto 8.
Qed.
Lemma drop_comm : forall t1 t2 p, drop_in_para t2 (drop_in_para t1 p) = drop_in_para t1 (drop_in_para t2 p).
Proof.
  intros. rewrite (drop_drop t1 t2 (fun c => (t1 c || t2 c)%bool)) by auto.
  rewrite (drop_drop t2 t1 (fun c => (t1 c || t2 c)%bool)); auto. intros; apply orb_comm.
Qed.
Lemma para_drop_comm : forall a b p, para_drop a (para_drop b p) = para_drop b (para_drop a p).
Proof. intros. unfold para_drop. destruct (drop_test a), (drop_test b); auto. apply drop_comm. Qed.
Lemma drop_combined : forall p,
  (forall name, para_drop name (para_drop name p) = para_drop name p) /\
  (forall l, Permutation.Permutation l ["Shape"; "Canvas"] -> fold_right para_drop p l = para_drop "ShapeAndCanvas" p) /\
  (forall l, Permutation.Permutation l ["Shape"; "Canvas"; "Group"] -> fold_right para_drop p l = para_drop "ShapeAndCanvasAndGroup" p).
Proof.
  intros p. split; [|split].
  - intros. apply drop_twice.
  - intros l P. destruct (perm_two _ _ _ P) as [->| ->]; cbn [fold_right]; apply drop_shape_canvas.
  - intros l P. destruct (drop_all_three p) as [A _].
    destruct (perm_three _ _ _ _ P) as [E|[E|[E|[E|[E|E]]]]]; subst l; cbn [fold_right]; rewrite <- A.
    + rewrite (para_drop_comm "Canvas" "Group"), (para_drop_comm "Shape" "Group"), (para_drop_comm "Shape" "Canvas"). reflexivity.
    + rewrite (para_drop_comm "Shape" "Group"), (para_drop_comm "Shape" "Canvas"). reflexivity.
    + rewrite (para_drop_comm "Shape" "Group"), (para_drop_comm "Canvas" "Group"). reflexivity.
    + rewrite (para_drop_comm "Canvas" "Group"). reflexivity.
    + rewrite (para_drop_comm "Shape" "Canvas"). reflexivity.
    + reflexivity.
Qed.
Lemma drop_all : forall name l,
  body_paras (drop_drawing_of name l) = map (para_drop name) (body_paras l) /\ bare (drop_drawing_of name l) = bare l /\
  (to_drop name = None -> drop_drawing_of name l = l).
Proof. intros. split; [apply drop_all_paras|split; [apply drop_all_bare|apply drop_unknown]]. Qed.
Lemma refer_target_spec : forall g id,
  (forall t, refer_target g id = Ok t <-> exists r, first_rel (rels g) id r /\ rel_target r = t) /\
  (refer_target g id = Err ERR_REFID <-> ~ In id (map rel_id (rels g))) /\ refer_target g id <> Panic.
Proof. intros. split; [intros; apply refer_first|split; [apply refer_none|apply refer_not_panic]]. Qed.
Lemma refer_id_spec : forall g t,
  (forall id, refer_id g t = Ok id <-> exists r, first_target (rels g) t r /\ rel_id r = id) /\
  (refer_id g t = Err ERR_REFID <-> ~ In t (map rel_target (rels g))) /\ refer_id g t <> Panic.
Proof.
  intros. split; [intros; apply referid_first|split; [apply referid_none|]]. unfold refer_id.
  induction (rels g) as [|r l IH]; cbn; [discriminate|]. destruct (String.eqb _ _); auto. discriminate.
Qed.
Lemma range_spec : forall S (iter : rel -> S -> rel * S * option string) g s,
  snd (range_relationships iter g s) = g /\
  (forall s', fst (range_relationships iter g s) = (s', None) <-> all_calls iter (rels g) s = Some s') /\
  (forall s' e, fst (range_relationships iter g s) = (s', Some e) <->
    exists a r b s1 r', rels g = (a ++ r :: b)%list /\ all_calls iter a s = Some s1 /\ iter r s1 = (r', s', Some e)).
Proof. intros. unfold range_relationships. cbn [fst snd]. split; [reflexivity|split; intros; [apply range_all|apply range_stop]]. Qed.
