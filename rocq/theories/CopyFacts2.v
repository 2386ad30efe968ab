(** Facts about AppendFile: what it leaves alone, and when copying and String
    do not panic. *)
From Coq Require Import String Ascii List Bool Arith NArith ZArith Lia.
From Verif Require Import GoStr Num Lib Types Docx Text Api Keep Copy History RegFacts IdFacts SpecApi SpecEdit SpecCopy ApiFacts HistFacts HistFacts2 DrawIds NewFacts CopyFacts.
Import ListNotations.
Local Open Scope list_scope.
Local Open Scope string_scope.

Section A.
Context `{GoLib}.

(** ** AppendFile *)
Lemma append_keeps : forall to from w w' d s, nth_error w to = Some d -> nth_error w from = Some s -> append_file to from w = Ok w' ->
  length w' = length w /\ (forall i, i <> to -> nth_error w' i = nth_error w i) /\
  exists d' new, nth_error w' to = Some d' /\ d_items d' = (d_items d ++ new)%list /\ map kind_of new = map kind_of (d_items s) /\
    d_tmpl d' = d_tmpl d /\
    (exists r, rels (d_reg d') = (rels (d_reg d) ++ r)%list) /\ (exists m, media (d_reg d') = (media (d_reg d) ++ m)%list) /\
    (forall id t, refer_target (d_reg d) id = Ok t -> refer_target (d_reg d') id = Ok t) /\
    (forall id t, refer_id (d_reg d) id = Ok t -> refer_id (d_reg d') id = Ok t).
Proof.
  intros to from w w' d s Nt Nf E. unfold append_file in E. rewrite Nf in E.
  destruct (append_items_only _ _ _ _ E) as [L O]. split; auto. split; auto.
  destruct (append_items_kinds _ _ _ _ _ Nt E) as [d' [new [A1 [A2 [A3 [A4 A5]]]]]].
  exists d', new. destruct (steps_rels _ _ A4) as [r [B1 _]]. destruct (steps_media _ _ A4) as [m [C1 _]].
  split; auto. split; auto. split; auto. split; auto. split; [eauto|]. split; [eauto|]. split.
  - intros id t F. eapply steps_refer; eauto.
  - intros tg id F. unfold refer_id in *. rewrite B1. apply referid_first in F. apply referid_first. destruct F as [x [[a [b [F1 [F2 F3]]]] F4]].
    exists x. split; auto. exists a, (b ++ r)%list. rewrite F1, <- app_assoc. auto.
Qed.

Lemma append_same : forall w0 l w d from s w' l2 w2 d2,
  run_ops l (w0 ++ [new_docx])%list = Some w -> nth_error w (length w0) = Some d -> nth_error w from = Some s ->
  append_file (length w0) from w = Ok w' -> run_ops l2 w' = Some w2 -> nth_error w2 (length w0) = Some d2 ->
  (N.of_nat (length (rels (d_reg d2))) < B63)%N ->
  (forall n m, media_of (d_reg d) n = Ok (Some m) -> media_of (d_reg d2) n = Ok (Some m)) /\
  exists d' new, nth_error w' (length w0) = Some d' /\ d_items d' = (d_items d ++ new)%list /\
    Forall2 (same_item w (length w0) (d_reg d2)) (d_items s) new.
Proof.
  intros w0 l w d from s w' l2 w2 d2 R N Nf E R2 N2 B.
  assert (S : reg_steps empty_reg (d_reg d)) by apply (from_start _ _ _ _ _ R N).
  assert (G := append_file_grows _ _ _ _ E). destruct (G _ _ N) as [d' [N' S']].
  destruct (run_ops_grows _ _ _ R2 _ _ N') as [d2' [N2' S2]]. rewrite N2 in N2'. injection N2' as <-.
  assert (S02 : reg_steps (d_reg d) (d_reg d2)) by (eapply reg_steps_trans; eauto).
  destruct (good_step _ _ (d_reg d2) empty_good (empty_room _ (reg_steps_trans _ _ _ S S02) B) S S02) as [Gd Rd].
  split; [intros n m M; eapply steps_media_of; eauto|].
  unfold append_file in E. rewrite Nf in E.
  eapply append_items_same; eauto.
  - unfold inv. split; [rewrite <- (app_nil_r w) at 2; apply later_app|]. exists d. auto.
  - exists d'. auto.
Qed.

(** ** the text of copies *)
Lemma same_run_plain : forall w to g r r', same_run w to g r r' -> plain_run r -> runR_children r' = runR_children r.
Proof.
  intros w to g [sp q ch ins] [sp' q' ch' ins'] [A [B [C D]]] P. unfold plain_run in P. cbn in *. induction D as [|c c' l l' S D IH]; auto.
  f_equal; [|apply IH; intros; apply P; now right]. specialize (P c (or_introl eq_refl)). destruct c; cbn in *; try congruence.
Qed.
Lemma same_para_string : forall w to d2 w2 p p', same_para w to (d_reg d2) p p' -> nth_error w2 to = Some d2 -> plain p -> links_resolve w p ->
  para_string w2 p' = para_string w p.
Proof.
  intros w to d2 w2 p p' [A [B C]] N P K. unfold para_string. rewrite B. unfold plain in P. unfold links_resolve in K.
  revert P K. generalize (para_file p) as f, (para_children p) as l, (para_children p') as l', C. clear p p' A B C.
  intros f l l' C. induction C as [|r r' l l' S C IH|q l l' C IH|id r id' r' l l' T S C IH|id r l l' T C IH]; intros P K; cbn [rconcat]; auto.
  - cbn [pchild_string]. assert (Pr : plain_run r) by (apply P; now left). assert (Er := same_run_plain _ _ _ _ _ S Pr).
    rewrite Er, !plain_run_string by auto. rewrite IH; auto; intros; [apply P; now right|eapply K; right; eauto].
  - cbn [pchild_string]. rewrite IH; auto; intros; [apply P; now right|eapply K; right; eauto].
  - destruct (K id r (or_introl eq_refl)) as [t Kt]. specialize (T t Kt). destruct Kt as [i [d [-> [Ni Ei]]]].
    cbn [pchild_string file_reg]. rewrite N, Ni. cbn [bind]. rewrite T, Ei. destruct S as [_ [_ [-> _]]].
    rewrite IH; auto; intros; [apply P; now right|eapply K; right; eauto].
  - destruct (K id r (or_introl eq_refl)) as [t Kt]. destruct (T t Kt).
Qed.

(** ** histories without pictures *)
Definition safe_graphic (og : option graphic) : Prop := exists g d, og = Some g /\ graphicR_data g = Some d /\ gdataR_pic d = None.
Definition safe_rchild (c : rchild) : Prop :=
  match c with
  | RDraw i a => (forall x, i = Some x -> safe_graphic (inlineR_graphic x)) /\ (forall x, a = Some x -> safe_graphic (anchorR_graphic x))
  | _ => True
  end.
Definition safe_run (r : run) : Prop := forall c, In c (runR_children r) -> safe_rchild c.
Definition safe_pchild (c : pchild) : Prop := match c with PRun r | PLink _ r => safe_run r | PRPr _ => True end.
Definition file_in (n : nat) (f : option nat) : Prop := exists i, f = Some i /\ i < n.
Definition safe_para (n : nat) (p : para) : Prop := file_in n (para_file p) /\ forall c, In c (para_children p) -> safe_pchild c.
Definition safe_items (n : nat) (l : list item) : Prop :=
  (forall p, In p (body_paras l) -> safe_para n p) /\ (forall c, In c (body_cells l) -> file_in n (cell_file c)).
Definition safe (w : world) : Prop := forall i d, nth_error w i = Some d -> safe_items (length w) (d_items d).

Lemma file_in_le : forall n m f, file_in n f -> n <= m -> file_in m f.
Proof. intros n m f [i [-> L]] K. exists i. split; auto. lia. Qed.
Lemma safe_para_le : forall n m p, safe_para n p -> n <= m -> safe_para m p.
Proof. intros n m p [A B] L. split; auto. eapply file_in_le; eauto. Qed.
Lemma safe_items_le : forall n m l, safe_items n l -> n <= m -> safe_items m l.
Proof. intros n m l [A B] L. split; intros; [eapply safe_para_le|eapply file_in_le]; eauto. Qed.
Lemma safe_items_app : forall n a b, safe_items n a -> safe_items n b -> safe_items n (a ++ b)%list.
Proof.
  intros n a b [A1 A2] [B1 B2]. split; intros x I; unfold body_paras, body_cells in *; rewrite flat_map_app, in_app_iff in I; destruct I; auto.
Qed.
Lemma safe_items_cons : forall n x b, safe_items n (x :: b) <-> safe_items n [x] /\ safe_items n b.
Proof.
  intros n x b. split.
  - intros [A1 A2]. unfold safe_items, body_paras, body_cells in *. cbn [flat_map] in *. rewrite !app_nil_r.
    split; (split; intros; [apply A1|apply A2]; rewrite in_app_iff; auto).
  - intros [A B]. exact (safe_items_app n [x] b A B).
Qed.

(** String *)
Lemma rconcat_some : forall A (f : A -> res string) l, (forall x, In x l -> exists s, f x = Ok s) -> exists s, rconcat f l = Ok s.
Proof.
  induction l as [|x l IH]; intros K; cbn; [eauto|]. destruct (K x (or_introl eq_refl)) as [s ->]. cbn.
  destruct IH as [t ->]; [intros; apply K; now right|]. cbn. eauto.
Qed.
Lemma safe_gdata_string : forall w k f dp d, gdataR_pic d = None -> exists s, gdata_string w k f dp d = Ok s.
Proof. intros w k f dp d E. unfold gdata_string. unfold gdata in *. rewrite E. destruct (gdataR_shape d); [eauto|]. destruct (gdataR_canvas d); eauto. Qed.
Lemma safe_rchild_string : forall w c, safe_rchild c -> exists s, rchild_string w c = Ok s.
Proof.
  intros w [t|t|b|[x|] [y|]] S; cbn in *; eauto.
  - destruct S as [S _]. destruct (S x eq_refl) as [g [d [A [B C]]]]. unfold inline_string. unfold inline, anchor, graphic, gdata in *. rewrite A, B. apply safe_gdata_string. exact C.
  - destruct S as [S _]. destruct (S x eq_refl) as [g [d [A [B C]]]]. unfold inline_string. unfold inline, anchor, graphic, gdata in *. rewrite A, B. apply safe_gdata_string. exact C.
  - destruct S as [_ S]. destruct (S y eq_refl) as [g [d [A [B C]]]]. unfold anchor_string. unfold inline, anchor, graphic, gdata in *. rewrite A, B. apply safe_gdata_string. exact C.
Qed.
Lemma file_in_reg : forall w f, file_in (length w) f -> exists g, file_reg w f = Ok g.
Proof. intros w f [i [-> L]]. cbn. destruct (nth_error w i) eqn:E; [eauto|]. apply nth_error_None in E. lia. Qed.
Lemma safe_para_string : forall w p, safe_para (length w) p -> exists s, para_string w p = Ok s.
Proof.
  intros w p [F S]. apply rconcat_some. intros c I. specialize (S c I). destruct c as [r|id r|r]; cbn; [| |eauto].
  - apply rconcat_some. intros c' I'. apply safe_rchild_string. exact (S c' I').
  - destruct (file_in_reg _ _ F) as [g ->]. cbn. eauto.
Qed.

(** copying *)
Definition total {A B} (to : nat) (f : A -> world -> res (world * B)) (P : A -> Prop) (Q : B -> Prop) : Prop :=
  forall n x w, n = length w -> to < n -> P x -> exists w' y, f x w = Ok (w', y) /\ length w' = n /\ Q y.
Lemma safe_copy_graphic : forall to f og w, safe_graphic og -> copy_graphic to f og w = Ok (w, CNil) \/ copy_graphic to f og w = Ok (w, CSame).
Proof.
  intros to f og w [g [d [-> [B C]]]]. unfold copy_graphic. unfold graphic, gdata in *. rewrite B, C. destruct (gdataR_shape d); [auto|]. destruct (gdataR_canvas d); auto.
Qed.
Lemma safe_copy_rchild : forall to c w, safe_rchild c -> exists c', copy_rchild to c w = Ok (w, c') /\ safe_rchild c'.
Proof.
  intros to [t|t|b|[x|] y] w S; cbn [copy_rchild]; try (eexists; split; [reflexivity|exact S]).
  - destruct S as [S _]. specialize (S x eq_refl). destruct (safe_copy_graphic to (inlineR_file x) _ w S) as [E|E]; rewrite E; cbn; eexists; (split; [reflexivity|]); split; intros z Z; inversion Z; subst; auto.
  - destruct y as [y|]; [|eexists; split; [reflexivity|exact S]].
    destruct S as [_ S]. specialize (S y eq_refl). destruct (safe_copy_graphic to (anchorR_file y) _ w S) as [E|E]; rewrite E; cbn; eexists; (split; [reflexivity|]); split; intros z Z; inversion Z; subst; auto.
Qed.
Lemma total_list : forall A B to (f : A -> world -> res (world * B)) P Q, total to f P Q -> total to (copy_list f) (fun l => forall x, In x l -> P x) (fun l => forall y, In y l -> Q y).
Proof.
  intros A B to f P Q T n l. induction l as [|x l IH]; intros w L K Pl; cbn [copy_list].
  - exists w, []. split; auto. split; auto. intros y [].
  - destruct (T n x w L K) as [w1 [y [E1 [E2 E3]]]]; [apply Pl; now left|]. rewrite E1. cbn [bind].
    destruct (IH w1 (eq_sym E2) K) as [w2 [l2 [F1 [F2 F3]]]]; [intros; apply Pl; now right|]. rewrite F1. cbn [bind].
    exists w2, (y :: l2). split; auto. split; auto. intros z [<-|I]; auto.
Qed.
Lemma total_run : forall to, total to (copy_run to) safe_run safe_run.
Proof.
  intros to n r w L K S. unfold copy_run.
  assert (T : total to (copy_rchild to) safe_rchild safe_rchild).
  { intros m c v Lm Km Sc. destruct (safe_copy_rchild to c v Sc) as [c' [E1 E2]]. exists v, c'. auto. }
  destruct (total_list _ _ _ _ _ _ T n (runR_children r) w L K S) as [w' [c [E1 [E2 E3]]]]. rewrite E1. cbn [bind].
  eexists _, _. split; [reflexivity|]. split; auto.
Qed.
Lemma on_file_total : forall A (w : world) i (k : reg -> A * reg), i < length w -> exists x w', on_file w (Some i) k = Ok (x, w') /\ length w' = length w.
Proof.
  intros A w i k L. unfold on_file. destruct (nth_error w i) as [d|] eqn:E; [|apply nth_error_None in E; lia].
  destruct (k (d_reg d)) as [x g]. eexists _, _. split; [reflexivity|]. apply set_nth_length.
Qed.
Lemma total_pchild : forall to m f, file_in m f -> 
  forall n c w, n = length w -> m <= n -> to < n -> safe_pchild c -> exists w' y, copy_pchild to f c w = Ok (w', y) /\ length w' = n /\ (forall z, y = Some z -> safe_pchild z).
Proof.
  intros to m f F n c w L M K S. destruct c as [r|id r|r]; cbn [copy_pchild].
  - destruct (total_run to n r w L K S) as [w' [y [E1 [E2 E3]]]]. rewrite E1. cbn. eexists _, _. split; [reflexivity|]. split; auto. intros z [=<-]. exact E3.
  - destruct (file_in_reg w f) as [g E0]; [eapply file_in_le; eauto; lia|]. rewrite E0. cbn [bind].
    pose proof (refer_not_panic (rels g) id) as NP. unfold refer_target. destruct (refer_target_in (rels g) id) as [t|e|]; [| |congruence].
    + destruct (on_file_total _ w to (add_link_relation t)) as [rid [w1 [E1 E2]]]; [lia|]. rewrite E1. cbn [bind].
      destruct (total_run to n r w1) as [w2 [y [F1 [F2 F3]]]]; [lia|auto|auto|]. rewrite F1. cbn. eexists _, _. split; [reflexivity|]. split; auto. intros z [=<-]. exact F3.
    + eexists _, _. split; [reflexivity|]. split; auto. discriminate.
  - eexists _, _. split; [reflexivity|]. split; auto. intros z [=<-]. exact I.
Qed.
Lemma somes_in : forall A (l : list (option A)) x, In x (somes l) -> In (Some x) l.
Proof. induction l as [|[y|] l IH]; cbn; intros x K; auto. destruct K as [->|K]; auto. Qed.
Lemma total_para : forall to n p w, n = length w -> to < n -> safe_para n p -> exists w' y, copy_para to p w = Ok (w', y) /\ length w' = n /\ safe_para n y.
Proof.
  intros to n p w L K [F S]. unfold copy_para.
  assert (T : forall l w, n = length w -> (forall c, In c l -> safe_pchild c) -> exists w' c, copy_list (copy_pchild to (para_file p)) l w = Ok (w', c) /\ length w' = n /\ (forall z, In (Some z) c -> safe_pchild z)).
  { induction l as [|x l IH]; intros v Lv Sl; cbn [copy_list].
    - exists v, []. split; [auto|split; [auto|intros z []]].
    - destruct (total_pchild to n _ F n x v Lv (le_n n) K) as [w1 [y [E1 [E2 E3]]]]; [apply Sl; now left|]. rewrite E1. cbn [bind].
      destruct (IH w1) as [w2 [l2 [F1 [F2 F3]]]]; [auto|intros; apply Sl; now right|]. rewrite F1. cbn [bind].
      exists w2, (y :: l2). split; auto. split; auto. intros z [Z|I]; auto. }
  destruct (T (para_children p) w L S) as [w' [c [E1 [E2 E3]]]]. rewrite E1. cbn [bind].
  eexists _, _. split; [reflexivity|]. split; auto. split; [exists to; auto|]. intros z I. apply E3, somes_in. exact I.
Qed.
Lemma in_table_paras : forall t p, In p (table_paras t) <-> exists r c, In r (table_rows t) /\ In c (row_cells r) /\ In p (cell_paras c).
Proof.
  intros t p. unfold table_paras. rewrite in_flat_map. split.
  - intros [r [A B]]. apply in_flat_map in B. destruct B as [c [B C]]. eauto.
  - intros [r [c [A [B C]]]]. exists r. split; auto. apply in_flat_map. eauto.
Qed.
Definition safe_cell (n : nat) (c : cell) : Prop := file_in n (cell_file c) /\ forall p, In p (cell_paras c) -> safe_para n p.
Lemma safe_table : forall n t, safe_items n [ITable t] <-> forall r c, In r (table_rows t) -> In c (row_cells r) -> safe_cell n c.
Proof.
  intros n t. unfold safe_items, body_paras, body_cells. cbn [flat_map item_paras]. rewrite !app_nil_r. split.
  - intros [A B] r c Ir Ic. split.
    + apply B. apply in_flat_map. eauto.
    + intros p Ip. apply A. apply in_table_paras. eauto.
  - intros K. split.
    + intros p Ip. apply in_table_paras in Ip. destruct Ip as [r [c [A [B C]]]]. eapply K; eauto.
    + intros c Ic. apply in_flat_map in Ic. destruct Ic as [r [A B]]. eapply K; eauto.
Qed.
Lemma total_list_n : forall A B (f : A -> world -> res (world * B)) n (P : A -> Prop) (Q : B -> Prop),
  (forall x w, n = length w -> P x -> exists w' y, f x w = Ok (w', y) /\ length w' = n /\ Q y) ->
  forall l w, n = length w -> (forall x, In x l -> P x) -> exists w' l', copy_list f l w = Ok (w', l') /\ length w' = n /\ (forall y, In y l' -> Q y).
Proof.
  intros A B f n P Q T l. induction l as [|x l IH]; intros w L Pl; cbn [copy_list].
  - exists w, []. split; auto. split; auto. intros y [].
  - destruct (T x w L) as [w1 [y [E1 [E2 E3]]]]; [apply Pl; now left|]. rewrite E1. cbn [bind].
    destruct (IH w1 (eq_sym E2)) as [w2 [l2 [F1 [F2 F3]]]]; [intros; apply Pl; now right|]. rewrite F1. cbn [bind].
    exists w2, (y :: l2). split; auto. split; auto. intros z [<-|I]; auto.
Qed.
Lemma total_item : forall to n x w, n = length w -> to < n -> safe_items n [x] -> exists w' y, copy_item to x w = Ok (w', y) /\ length w' = n /\ safe_items n [y].
Proof.
  intros to n x w L K S. destruct x as [p|t|s]; cbn [copy_item].
  - destruct S as [S _]. destruct (total_para to n p w L K) as [w' [y [E1 [E2 E3]]]]; [apply S; now left|]. rewrite E1. cbn.
    eexists _, _. split; [reflexivity|]. split; auto. split; [intros q [<-|[]]; auto|intros c []].
  - rewrite safe_table in S. unfold copy_table.
    destruct (total_list_n _ _ (copy_row to) n (fun r => forall c, In c (row_cells r) -> safe_cell n c) (fun r => forall c, In c (row_cells r) -> safe_cell n c)) with (l := table_rows t) (w := w)
      as [w' [l' [E1 [E2 E3]]]]; auto.
    + intros r v Lv Sr. unfold copy_row.
      destruct (total_list_n _ _ (copy_cell to) n (safe_cell n) (safe_cell n)) with (l := row_cells r) (w := v) as [w' [l' [E1 [E2 E3]]]]; auto.
      * intros c u Lu [Sc1 Sc2]. unfold copy_cell.
        destruct (total_list_n _ _ (copy_para to) n (safe_para n) (safe_para n)) with (l := cell_paras c) (w := u) as [w' [l' [E1 [E2 E3]]]]; auto.
        { intros; apply total_para; auto. }
        rewrite E1. cbn. eexists _, _. split; [reflexivity|]. split; auto. split; [exists to; auto|exact E3].
      * rewrite E1. cbn. eexists _, _. split; [reflexivity|]. auto.
    + intros r Ir c Ic. eapply S; eauto.
    + rewrite E1. cbn. eexists _, _. split; [reflexivity|]. split; auto. rewrite safe_table. intros r c Ir Ic. eapply E3; eauto.
  - eexists _, _. split; [reflexivity|]. auto.
Qed.
Lemma set_items_safe : forall w i d d', safe w -> nth_error w i = Some d -> safe_items (length w) (d_items d') -> safe (set_nth w i d').
Proof.
  intros w i d d' S N K j e J. rewrite set_nth_length. destruct (Nat.eq_dec i j) as [->|Ne].
  - rewrite set_nth_same in J by (eapply nth_lt; eauto). injection J as <-. exact K.
  - rewrite set_nth_other in J by auto. eapply S; eauto.
Qed.
Lemma same_items_safe : forall w w', safe w -> length w' = length w -> same_items w w' -> safe w'.
Proof.
  intros w w' S L K i d N. specialize (K i). unfold items_at in K. rewrite N in K. cbn in K. destruct (nth_error w i) as [e|] eqn:E; [|discriminate].
  injection K as K _. rewrite K, L. eapply S; eauto.
Qed.
Lemma total_push : forall to x w, safe w -> to < length w -> safe_items (length w) [x] -> exists w', copy_push to x w = Ok w' /\ length w' = length w /\ safe w'.
Proof.
  intros to x w S L K. destruct (total_item to (length w) x w eq_refl L K) as [w1 [y [E1 [E2 E3]]]].
  destruct (copy_item_frame _ _ _ _ _ E1) as [_ F2].
  assert (S1 : safe w1) by (eapply same_items_safe; eauto).
  unfold copy_push. rewrite E1. cbn [bind]. unfold push_item. destruct (nth_error w1 to) as [d|] eqn:N; [|apply nth_error_None in N; lia].
  eexists. split; [reflexivity|]. rewrite set_nth_length. split; auto. eapply set_items_safe; eauto. cbn. rewrite E2. apply safe_items_app; auto.
  rewrite <- E2. eapply S1; eauto.
Qed.
Lemma total_append : forall to l w, safe w -> to < length w -> safe_items (length w) l -> exists w', append_items to l w = Ok w' /\ length w' = length w /\ safe w'.
Proof.
  induction l as [|x l IH]; intros w S L K; cbn [append_items]; [eauto|].
  apply safe_items_cons in K. destruct K as [K1 K2]. destruct (total_push to x w S L K1) as [w1 [E1 [E2 E3]]]. rewrite E1. cbn [bind].
  destruct (IH w1) as [w2 [F1 [F2 F3]]]; auto; try lia; [now rewrite E2|]. exists w2. split; auto. split; auto. lia.
Qed.
Lemma safe_new_part : forall t w, safe w -> safe (new_part t w).
Proof.
  intros t w S i d N. unfold new_part in *. rewrite app_length. destruct (Nat.lt_ge_cases i (length w)).
  - rewrite nth_error_app1 in N by auto. eapply safe_items_le; [eapply S; eauto|lia].
  - rewrite nth_error_app2 in N by auto. destruct (i - length w) as [|k]; [|destruct k; discriminate]. injection N as <-. split; intros x [].
Qed.
Lemma total_split : forall t sep, (forall p, exists b, sep p = Ok b) -> forall l cur fresh w, safe w -> cur < length w -> safe_items (length w) l ->
  exists w', split_items t sep l cur fresh w = Ok w' /\ safe w'.
Proof.
  intros t sep T. induction l as [|x l IH]; intros cur fresh w S L K; cbn [split_items]; [eauto|].
  apply safe_items_cons in K. destruct K as [K1 K2].
  assert (G : forall cur w0, safe w0 -> length w <= length w0 -> cur < length w0 -> exists w', bind (copy_push cur x w0) (fun w' => split_items t sep l cur false w') = Ok w' /\ safe w').
  { intros c v Sv Lv Lc. destruct (total_push c x v Sv Lc) as [w1 [E1 [E2 E3]]]; [eapply safe_items_le; eauto|]. rewrite E1. cbn [bind].
    apply IH; auto; [lia|]. rewrite E2. eapply safe_items_le; eauto. }
  destruct x as [p|tb|s]; try (apply G; auto; lia).
  destruct (T p) as [b ->]. cbn [bind]. destruct (b && negb fresh)%bool; [|apply G; auto; lia].
  apply G; [now apply safe_new_part| |]; unfold new_part; rewrite app_length; cbn; lia.
Qed.
Lemma split_total : forall i sep w, safe w -> i < length w -> (forall p, exists b, sep p = Ok b) -> exists w', split_by_paragraph i sep w = Ok w' /\ safe w'.
Proof.
  intros i sep w S L T. unfold split_by_paragraph. destruct (nth_error w i) as [d|] eqn:N; [|apply nth_error_None in N; lia].
  assert (K : safe_items (length (new_part (d_tmpl d) w)) (d_items d)).
  { unfold new_part. rewrite app_length. eapply safe_items_le; [eapply S; eauto|lia]. }
  destruct (d_items d) as [|x l]; [eauto|]. apply total_split; auto; [now apply safe_new_part|]. unfold new_part. rewrite app_length. cbn. lia.
Qed.

(** calls keep it *)
Lemma safe_graphic_size : forall sw sh og, safe_graphic og -> safe_graphic (option_map (graphic_size sw sh) og).
Proof. intros sw sh og [g [d [-> [B C]]]]. exists g, d. split; auto. cbn. f_equal. unfold graphic_size. unfold graphic, gdata in *. now rewrite B, C. Qed.
Lemma exec_rop_safe : forall o r r', exec_rop o r = Ok r' -> safe_run r -> safe_run r'.
Proof.
  intros o r r' E S. destruct o; cbn [exec_rop] in E;
    try (unfold run_color, run_size, run_sizecs, run_shade, run_spacing, run_bold, run_italic, run_underline, run_highlight, run_strike, run_font, on_rpr in E;
         destruct (runR_rpr r); inversion E; subst; exact S).
  - inversion E; subst. intros c I. cbn in I. apply in_app_iff in I. destruct I as [I|[<-|[]]]; [auto|exact Logic.I].
  - inversion E; subst. intros c I. cbn in I. apply S. eapply keep_in; eauto.
  - destruct (nth_error (runR_children r) k) as [c|] eqn:K; [|discriminate]. bk E c' E0. inversion E; subst. intros x I. cbn in I.
    destruct (nth_split _ _ _ _ K) as [a [b [F [_ Q]]]]. rewrite Q in I. apply in_app_iff in I.
    assert (Sc : safe_rchild c) by (apply S; eapply nth_error_In; eauto).
    destruct I as [I|[<-|I]]; try (apply S; rewrite F; apply in_app_iff; cbn; auto; fail).
    destruct c as [?|?|?|[i|] [y|]], anch; cbn in E0; inversion E0; subst; destruct Sc as [S1 S2]; (split; intros z [=<-]); auto;
      first [apply (safe_graphic_size w h _ (S1 _ eq_refl))|apply (safe_graphic_size w h _ (S2 _ eq_refl))].
Qed.
Lemma add_child_safe : forall n c p, safe_para n p -> safe_pchild c -> safe_para n (add_child c p).
Proof.
  intros n c [[pp ch f]] [F S] K. split; auto. cbn in *. intros x I. apply in_app_iff in I. destruct I as [I|[<-|[]]]; auto.
Qed.
Lemma plain_safe_run : forall r, plain_run r -> safe_run r.
Proof. intros r P c I. specialize (P c I). destruct c; try exact Logic.I. discriminate. Qed.
Lemma exec_pop_safe : forall o n w p w' p', exec_pop o w p = Ok (w', p') -> pop_picture o = false -> safe_para n p -> safe_para n p'.
Proof.
  intros o n w p w' p' E PP S. destruct o; cbn [exec_pop] in E; try discriminate PP.
  - rewrite add_text_run in E. inversion E; subst. apply add_child_safe; auto. apply plain_safe_run, text_run_plain.
  - inversion E; subst. apply add_child_safe; auto. intros c [<-|[]]; exact I.
  - inversion E; subst. apply add_child_safe; auto. intros c [<-|[]]; exact I.
  - destruct (add_link_inv _ _ _ _ _ _ E) as [i' [d' [B1 [B2 [B3 B4]]]]]. subst. apply add_child_safe; auto. intros c [].
  - unfold add_shape in E. bk E v E0. destruct v as [[idn ids] w1]. inversion E; subst. apply add_child_safe; auto.
    intros c [<-|[]]. destruct anch; (split; intros z [=<-]); eexists _, _; (split; [reflexivity|split; reflexivity]).
  - inversion E; subst. destruct p as [[pp ch f]]. exact S.
  - inversion E; subst. destruct p as [[pp ch f]]. exact S.
  - inversion E; subst. destruct p as [[pp ch f]]. exact S.
  - inversion E; subst. destruct p as [[pp ch f]]. exact S.
  - inversion E; subst. destruct p as [[pp ch f]]. exact S.
  - inversion E; subst. destruct p as [[pp ch f]]. destruct S as [F S]. split; auto. intros c I. apply S. cbn in I. exact (keep_in _ _ _ _ _ I).
  - inversion E; subst. unfold para_drop. destruct (drop_test name) as [t|]; [|exact S]. destruct p as [[pp ch f]]. destruct S as [F S]. split; auto.
    intros c I. cbn in I. apply in_map_iff in I. destruct I as [c0 [<- I]]. specialize (S c0 I). destruct c0; cbn; auto.
    intros x Ix. apply filter_In in Ix. apply S. tauto.
  - destruct (nth_error (para_children p) k) as [[r|id r|r]|] eqn:K; try discriminate; (bk E r' E0; inversion E; subst; destruct p as [[pp ch f]]; destruct S as [F S]; split; [exact F|];
      intros c I; cbn in I, K; destruct (nth_split _ _ _ _ K) as [a [b [E1 [_ Q]]]]; rewrite Q in I; apply in_app_iff in I;
      assert (Sr := S _ (nth_error_In _ _ K));
      destruct I as [I|[<-|I]]; [apply S; cbn; rewrite E1; apply in_app_iff; auto|eapply exec_rop_safe; eauto|apply S; cbn; rewrite E1; apply in_app_iff; right; right; auto]).
Qed.
Lemma put_para_safe : forall n l a p p', get_para l a = Some p -> safe_items n l -> safe_para n p' -> safe_items n (put_para l a p').
Proof.
  intros n l a p p' G [A B] S. split.
  - intros q I. destruct (in_put_para _ _ _ _ _ G I) as [->|J]; auto.
  - intros c I. destruct (put_para_cells _ _ _ _ _ G I) as [y [J ->]]. auto.
Qed.
Lemma get_para_safe : forall n l a p, get_para l a = Some p -> safe_items n l -> safe_para n p.
Proof. intros n l a p G [A B]. apply A. destruct (get_para_split _ _ _ G) as [x [y [E _]]]. rewrite E. apply in_app_iff. right; now left. Qed.
Lemma put_cell_safe : forall n l i r c v v', get_cell l i r c = Some v -> safe_items n l -> safe_cell n v' -> safe_items n (put_cell l i r c v').
Proof.
  intros n l i r c v v' G [A B] [S1 S2]. split.
  - intros p I. destruct (get_cell_split _ _ _ _ _ G) as [X [Y [E1 E2]]]. rewrite E1 in I. rewrite !in_app_iff in I.
    destruct I as [I|[I|I]]; auto; apply A; rewrite E2, !in_app_iff; auto.
  - intros x I. destruct (put_cell_cells _ _ _ _ _ _ _ G I) as [->|J]; auto.
Qed.
Lemma get_cell_safe : forall n l i r c v, get_cell l i r c = Some v -> safe_items n l -> safe_cell n v.
Proof.
  intros n l i r c v G [A B]. split; [eapply B, get_cell_in; eauto|]. intros p I. apply A.
  destruct (get_cell_split _ _ _ _ _ G) as [X [Y [E1 E2]]]. rewrite E2, !in_app_iff. auto.
Qed.
Lemma exec_safe : forall o w w', safe w -> picture_free o = true -> exec o w = Ok w' -> safe w'.
Proof.
  intros o w w' S PF E.
  assert (OD : forall d k, on_doc w d k = Ok w' ->
    (forall x x', d < length w -> k x = Ok x' -> safe_items (length w) (d_items x) -> safe_items (length w) (d_items x')) -> safe w').
  { intros d k F K. destruct (on_doc_inv _ _ _ _ F) as [x [x' [F1 [F2 F3]]]]. subst w'. eapply set_items_safe; eauto. eapply K; eauto. eapply nth_lt; eauto. }
  assert (NW : forall y, safe_items (length w + 1) (d_items y) -> safe (w ++ [y])%list).
  { intros y Sy i d N. rewrite app_length. cbn. destruct (Nat.lt_ge_cases i (length w)).
    - rewrite nth_error_app1 in N by auto. eapply safe_items_le; [eapply S; eauto|lia].
    - rewrite nth_error_app2 in N by auto. destruct (i - length w) as [|k]; [|destruct k; discriminate]. injection N as <-. exact Sy. }
  assert (one_para : forall n i, i < n -> safe_items n [IPara (mk_para None [] (Some i))]).
  { intros n i L. split; [intros p [<-|[]]; split; [exists i; auto|intros c []]|intros c []]. }
  destruct o; cbn [exec picture_free] in E, PF; try discriminate PF.
  - inversion E; subst. apply NW. split; intros x [].
  - destruct (exec_para_inv _ _ _ _ _ E) as [x [p [w1 [p' [A1 [A2 [A3 [y [A4 [A5 A6]]]]]]]]]].
    destruct (exec_pop_items _ _ _ _ _ A3) as [B1 [B2 _]]. assert (S1 : safe w1) by (eapply same_items_safe; eauto).
    subst w'. eapply set_items_safe; eauto. cbn [d_items set_d_items]. rewrite B2.
    eapply put_para_safe; eauto. eapply exec_pop_safe; eauto; [now apply negb_true_iff|]. eapply get_para_safe; eauto.
  - bk E v E0. destruct v as [w1 p']. inversion E; subst. destruct (exec_pop_items _ _ _ _ _ E0) as [B1 [B2 _]]. eapply same_items_safe; eauto.
  - eapply OD; eauto. intros x x' L [=<-] K. cbn [d_items add_paragraph add_item set_d_items]. apply safe_items_app; auto.
  - eapply OD; eauto. intros x x' L K Sx. cbn in K. destruct (get_cell (d_items x) i r c) as [v|] eqn:G; inversion K; subst. cbn [d_items set_d_items].
    destruct (get_cell_safe _ _ _ _ _ _ G Sx) as [C1 C2]. eapply put_cell_safe; eauto. split; [exact C1|]. cbn. intros p I. apply in_app_iff in I. destruct I as [I|[<-|[]]]; auto.
    split; [exact C1|intros ? []].
  - eapply OD; eauto. intros x x' L K Sx. cbn in K. bk K v E0. destruct v as [x1 cc]. inversion K; subst. unfold add_table in E0.
    destruct (_ <? _)%Z; [discriminate|]. destruct (_ && _)%bool; [discriminate|]. destruct (use_colors col) as [cs cc2]. inversion E0; subst. cbn [d_reg d_items add_item set_d_items].
    apply safe_items_app; auto. apply safe_table. cbn [table_rows]. intros row c0 Ir Ic. apply repeat_spec in Ir. subst row. cbn in Ic. apply repeat_spec in Ic. subst c0.
    split; [exists d; auto|intros p []].
  - eapply OD; eauto. intros x x' L [=<-] Sx. unfold add_table_twips. destruct (use_colors col) as [cs cc]. cbn [fst d_reg d_items add_item set_d_items].
    apply safe_items_app; auto. apply safe_table. cbn [table_rows]. intros row c0 Ir Ic. apply in_map_iff in Ir. destruct Ir as [h [<- _]]. cbn in Ic. apply in_map_iff in Ic. destruct Ic as [v [<- _]].
    split; [exists d; auto|intros p []].
  - eapply OD; eauto. intros x x' L K Sx. cbn in K. destruct (nth_error (d_items x) i) as [[|t|]|] eqn:G; try discriminate. bk K v1 E0. inversion K; subst.
    assert (T : table_rows v1 = table_rows t) by (unfold table_justification in E0; destruct (table_props t); inversion E0; reflexivity).
    destruct (nth_split _ _ _ _ G) as [a [b [F [_ Q]]]]. cbn [d_items set_d_items]. rewrite Q. rewrite F in Sx.
    unfold safe_items, body_paras, body_cells in *. rewrite !flat_split in *. cbn [item_paras] in *. unfold table_paras in *. rewrite T. exact Sx.
  - eapply OD; eauto. intros x x' L K Sx. cbn in K. destruct (nth_error (d_items x) i) as [[|t|]|] eqn:G; try discriminate.
    destruct (nth_error (table_rows t) r) as [row|] eqn:G2; [|discriminate]. bk K v' E0. inversion K; subst.
    assert (T : row_cells v' = row_cells row) by (unfold row_justification in E0; destruct (row_props row); inversion E0; reflexivity).
    destruct (nth_split _ _ _ _ G) as [a [b [F [_ Q]]]]. destruct (nth_split _ _ _ _ G2) as [a2 [b2 [F2 [_ S2]]]]. cbn [d_reg d_items set_d_items]. rewrite Q, S2.
    rewrite F in Sx. unfold safe_items, body_paras, body_cells in *. rewrite !flat_split in *. cbn [item_paras] in *. unfold table_paras in *.
    cbn [table_rows set_table_rows]. rewrite F2 in Sx. rewrite !flat_split in *. rewrite T. exact Sx.
  - eapply OD; eauto. intros x x' L K Sx. cbn in K. destruct (get_cell (d_items x) i r c) as [y|] eqn:G; [|discriminate]. bk K v' E0. inversion K; subst.
    assert (T : cell_paras v' = cell_paras y /\ cell_file v' = cell_file y) by (unfold cell_shade in E0; destruct (cell_props y); inversion E0; auto). destruct T as [T1 T2].
    cbn [d_items set_d_items]. eapply put_cell_safe; eauto. unfold safe_cell. rewrite T1, T2. eapply get_cell_safe; eauto.
  - eapply OD; eauto. intros x x' L [=<-] Sx. destruct a3; (cbn [d_items with_a3 with_a4 add_item set_d_items]; apply safe_items_app; auto; split; intros ? []).
  - eapply OD; eauto. intros x x' L [=<-] Sx. exact Sx.
  - eapply OD; eauto. intros x x' L [=<-] [A B]. cbn [d_items set_d_items]. unfold body_keep. split.
    + intros p Ip. apply A. eapply sub_in; [apply sub_flat, sub_keep|exact Ip].
    + intros p Ip. apply B. eapply sub_in; [apply sub_flat, sub_keep|exact Ip].
  - eapply OD; eauto. intros x x' L [=<-] Sx. cbn [d_items set_d_items]. revert Sx. generalize (d_items x) as l. clear - H.
    assert (PD : forall n p, safe_para n p -> safe_para n (para_drop name p)).
    { intros n p Sp. eapply (exec_pop_safe (ODropP name) n [] p); [reflexivity|reflexivity|exact Sp]. }
    unfold drop_drawing_of. induction l as [|y l IH]; intros Sx; [exact Sx|]. apply safe_items_cons in Sx. destruct Sx as [S1 S2]. cbn [map].
    apply safe_items_cons. split; auto. destruct y as [p|t|s]; [| |exact S1].
    + destruct S1 as [S1 _]. split; [|intros ? []]. intros q [<-|[]]. apply PD, S1. now left.
    + cbn [drop_item]. rewrite safe_table in *. intros row c Ir Ic. cbn in Ir. apply in_map_iff in Ir. destruct Ir as [row' [<- Ir]]. cbn in Ic.
      apply in_map_iff in Ic. destruct Ic as [c' [<- Ic]]. destruct (S1 _ _ Ir Ic) as [C1 C2]. split; [exact C1|]. cbn. intros p Ip. apply in_map_iff in Ip.
      destruct Ip as [q [<- Iq]]. apply PD. auto.
  - destruct (nth_error w d) as [e|] eqn:Nd; [|discriminate]. unfold append_file in E. destruct (nth_error w from) as [s|] eqn:Nf; [|discriminate].
    destruct (total_append d (d_items s) w S) as [w2 [F1 [F2 F3]]]; [eapply nth_lt; eauto|eapply S; eauto|]. rewrite F1 in E. injection E as <-. exact F3.
  - unfold split_by_paragraph in E. destruct (nth_error w d) as [x|] eqn:Nd; [|discriminate].
    assert (SI : forall t sp l cur fresh w0 w1, safe w0 -> cur < length w0 -> safe_items (length w0) l -> split_items t sp l cur fresh w0 = Ok w1 -> safe w1).
    { intros t sp. induction l as [|y l IH]; intros cur fresh w0 w1 S0 L0 K0 E0; cbn [split_items] in E0; [injection E0 as <-; exact S0|].
      apply safe_items_cons in K0. destruct K0 as [K1 K2].
      assert (G : forall c v, safe v -> length w0 <= length v -> c < length v -> bind (copy_push c y v) (fun w' => split_items t sp l c false w') = Ok w1 -> safe w1).
      { intros c v Sv Lv Lc Ev. destruct (total_push c y v Sv Lc) as [u [U1 [U2 U3]]]; [eapply safe_items_le; eauto|]. rewrite U1 in Ev. cbn [bind] in Ev.
        eapply IH; [exact U3| | |exact Ev]; [lia|]. rewrite U2. eapply safe_items_le; eauto. }
      destruct y as [p|tb|s]; try (eapply G; eauto; lia).
      bk E0 b Eb. destruct (b && negb fresh)%bool; [|eapply G; eauto; lia].
      eapply G; [apply (safe_new_part t _ S0)| | |exact E0]; unfold new_part; rewrite app_length; cbn; lia. }
    assert (K : safe_items (length (new_part (d_tmpl x) w)) (d_items x)).
    { unfold new_part. rewrite app_length. eapply safe_items_le; [eapply S; eauto|lia]. }
    destruct (d_items x) as [|y l]; [injection E as <-; exact S|]. eapply SI; [apply safe_new_part, S| |exact K|exact E]. unfold new_part. rewrite app_length. cbn. lia.
Qed.
Lemma run_safe : forall l w w', safe w -> Forall (fun o => picture_free o = true) l -> run_ops l w = Some w' -> safe w'.
Proof.
  induction l as [|o l IH]; intros w w' S F R; cbn [run_ops] in R; [injection R as <-; exact S|]. inversion F; subst.
  destruct (exec o w) as [w1|e|] eqn:E; [| |discriminate].
  - apply (IH w1 w'); auto. eapply exec_safe; eauto.
  - apply (IH w w'); auto.
Qed.
Lemma picture_free_total : forall l w, run_ops l [] = Some w -> Forall (fun o => picture_free o = true) l ->
  (forall i d p, nth_error w i = Some d -> In p (body_paras (d_items d)) -> exists s, para_string w p = Ok s) /\
  (forall i j, i < length w -> j < length w -> exists w', append_file i j w = Ok w') /\
  (forall i sep, i < length w -> (forall p, exists b, sep p = Ok b) -> exists w', split_by_paragraph i sep w = Ok w').
Proof.
  intros l w R F. assert (S : safe w). { eapply run_safe; eauto. intros i d N. destruct i; discriminate. }
  split; [|split].
  - intros i d p N I. apply safe_para_string. eapply S; eauto.
  - intros i j Li Lj. unfold append_file. destruct (nth_error w j) as [s|] eqn:N; [|apply nth_error_None in N; lia].
    destruct (total_append i (d_items s) w S Li) as [w' [E _]]; [eapply S; eauto|]. eauto.
  - intros i sep Li T. destruct (split_total i sep w S Li T) as [w' [E _]]. eauto.
Qed.

(** ** pictures added by the API *)
Definition never_err {A} (x : res A) : Prop := forall e, x <> Err e.
Lemma bind_never : forall A B (x : res A) (k : A -> res B), never_err x -> (forall v, never_err (k v)) -> never_err (bind x k).
Proof. intros A B [v|e|] k H1 H2 e'; cbn; [apply H2| |discriminate]. destruct (H1 e eq_refl). Qed.
Lemma ok_never : forall A (x : A), never_err (Ok x).
Proof. intros A x e. discriminate. Qed.
Lemma panic_never : forall A, never_err (@Panic A).
Proof. intros A e. discriminate. Qed.
Lemma file_reg_never : forall w f, never_err (file_reg w f).
Proof. intros w [i|] e; cbn; [|discriminate]. destruct (nth_error w i); discriminate. Qed.
Lemma on_file_never : forall A w f (k : reg -> A * reg), never_err (on_file w f k).
Proof. intros A w [i|] k e; cbn; [|discriminate]. destruct (nth_error w i) as [d|]; [|discriminate]. destruct (k (d_reg d)). discriminate. Qed.
Lemma media_never : forall g n, never_err (media_of g n).
Proof. intros g n e. unfold media_of. destruct (mget n (midx g)); [|discriminate]. destruct (nth_error _ _); discriminate. Qed.
#[local] Hint Resolve bind_never ok_never panic_never file_reg_never on_file_never media_never : nev.
Lemma copy_graphic_never : forall to f og w, never_err (copy_graphic to f og w).
Proof.
  intros to f og w. unfold copy_graphic. destruct og as [g|]; auto with nev. destruct (graphicR_data g) as [d|]; auto with nev.
  destruct (gdataR_pic d) as [p|]; [|destruct (gdataR_shape d), (gdataR_canvas d); auto with nev].
  destruct (pic_blip p) as [b|]; auto with nev. apply bind_never; auto with nev. intros src. destruct (refer_target src _) as [t|e|]; auto with nev.
  apply bind_never; auto with nev. intros [idn w1]. apply bind_never; auto with nev. intros [idu w2]. destruct (drop 6 t) as [name|]; auto with nev.
  apply bind_never; auto with nev. intros src2. apply bind_never; auto with nev. intros [[nm data]|]; auto with nev.
  apply bind_never; auto with nev. intros [rid w3]. destruct (pic_nvpic p); auto with nev.
Qed.
Lemma copy_rchild_never : forall to c w, never_err (copy_rchild to c w).
Proof. intros to [t|t|b|[x|] [y|]] w; cbn [copy_rchild]; auto with nev; (apply bind_never; [apply copy_graphic_never|intros [w' r]; auto with nev]). Qed.
Lemma copy_list_never : forall A B (f : A -> world -> res (world * B)), (forall x w, never_err (f x w)) -> forall l w, never_err (copy_list f l w).
Proof.
  intros A B f K. induction l as [|x l IH]; intros w; cbn; auto with nev. apply bind_never; auto. intros [w1 y]. apply bind_never; auto. intros [w2 l2]. auto with nev.
Qed.
Lemma copy_list_panic : forall A B (f : A -> world -> res (world * B)) x, (forall y w, never_err (f y w)) -> (forall w, f x w = Panic) -> forall l w, In x l -> copy_list f l w = Panic.
Proof.
  intros A B f x K P. induction l as [|y l IH]; intros w I; [destruct I|]; destruct I as [<-|I]; cbn.
  - now rewrite P.
  - destruct (f y w) as [[w1 z]|e|] eqn:E; [|destruct (K _ _ _ E)|reflexivity]. cbn. now rewrite IH.
Qed.
Lemma copy_run_never : forall to r w, never_err (copy_run to r w).
Proof. intros to r w. unfold copy_run. apply bind_never; [apply copy_list_never, copy_rchild_never|intros [? ?]; auto with nev]. Qed.
Lemma copy_pchild_never : forall to f c w, never_err (copy_pchild to f c w).
Proof.
  intros to f [r|id r|r] w; cbn [copy_pchild]; auto with nev.
  - apply bind_never; [apply copy_run_never|intros [? ?]; auto with nev].
  - apply bind_never; auto with nev. intros src. destruct (refer_target src id); auto with nev. apply bind_never; auto with nev. intros [? ?].
    apply bind_never; [apply copy_run_never|intros [? ?]; auto with nev].
Qed.
Lemma copy_para_never : forall to p w, never_err (copy_para to p w).
Proof. intros. unfold copy_para. apply bind_never; [apply copy_list_never, copy_pchild_never|intros [? ?]; auto with nev]. Qed.
Lemma copy_cell_never : forall to p w, never_err (copy_cell to p w).
Proof. intros. unfold copy_cell. apply bind_never; [apply copy_list_never, copy_para_never|intros [? ?]; auto with nev]. Qed.
Lemma copy_row_never : forall to p w, never_err (copy_row to p w).
Proof. intros. unfold copy_row. apply bind_never; [apply copy_list_never, copy_cell_never|intros [? ?]; auto with nev]. Qed.
Lemma copy_item_never : forall to p w, never_err (copy_item to p w).
Proof.
  intros to [p|t|s] w; cbn; auto with nev.
  - apply bind_never; [apply copy_para_never|intros [? ?]; auto with nev].
  - apply bind_never; [|intros [? ?]; auto with nev]. unfold copy_table. apply bind_never; [apply copy_list_never, copy_row_never|intros [? ?]; auto with nev].
Qed.
Lemma copy_push_never : forall to x w, never_err (copy_push to x w).
Proof. intros. unfold copy_push. apply bind_never; [apply copy_item_never|]. intros [w' y]. unfold push_item. destruct (nth_error w' to); auto with nev. Qed.

(** a drawing on which every copy and String panics *)
Definition bad_child (c : rchild) : Prop := (forall w, rchild_string w c = Panic) /\ (forall to w, copy_rchild to c w = Panic).
Definition bad_run (r : run) : Prop := exists c, In c (runR_children r) /\ bad_child c.
Definition bad_para (p : para) : Prop := exists r, In (PRun r) (para_children p) /\ bad_run r.
Lemma bad_run_copy : forall r, bad_run r -> forall to w, copy_run to r w = Panic.
Proof.
  intros r [c [I [B1 B2]]] to w. unfold copy_run. rewrite (copy_list_panic _ _ _ c); auto. apply copy_rchild_never.
Qed.
Lemma bad_para_copy : forall p, bad_para p -> forall to w, copy_para to p w = Panic.
Proof.
  intros p [r [I B]] to w. unfold copy_para. rewrite (copy_list_panic _ _ _ (PRun r)); auto; [apply copy_pchild_never|].
  intros v. cbn. now rewrite bad_run_copy.
Qed.
Lemma bad_item_copy : forall x p, In p (item_paras x) -> bad_para p -> forall to w, copy_item to x w = Panic.
Proof.
  intros [q|t|s] p I B to w; cbn in I.
  - destruct I as [->|[]]. cbn. now rewrite bad_para_copy.
  - apply in_table_paras in I. destruct I as [r [c [A1 [A2 A3]]]]. cbn. unfold copy_table.
    rewrite (copy_list_panic _ _ _ r); auto; [apply copy_row_never|]. intros v. unfold copy_row. rewrite (copy_list_panic _ _ _ c); auto; [apply copy_cell_never|].
    intros u. unfold copy_cell. rewrite (copy_list_panic _ _ _ p); auto; [apply copy_para_never|]. intros; now apply bad_para_copy.
  - destruct I.
Qed.
Lemma bad_append : forall l p, In p (body_paras l) -> bad_para p -> forall to w, append_items to l w = Panic.
Proof.
  induction l as [|x l IH]; intros p I B to w; [destruct I|]. unfold body_paras in I. cbn in I. apply in_app_iff in I. cbn [append_items].
  destruct I as [I|I].
  - unfold copy_push. now rewrite (bad_item_copy _ _ I B).
  - destruct (copy_push to x w) as [v|e|] eqn:E; [|destruct (copy_push_never _ _ _ _ E)|reflexivity]. cbn. eapply IH; eauto.
Qed.
Lemma bad_split : forall t sep, (forall p e, sep p <> Err e) -> forall l p, In p (body_paras l) -> bad_para p -> forall cur fresh w, split_items t sep l cur fresh w = Panic.
Proof.
  intros t sep T. induction l as [|x l IH]; intros p I B cur fresh w; [destruct I|]. unfold body_paras in I. cbn in I. apply in_app_iff in I. cbn [split_items].
  assert (G : forall cur w, bind (copy_push cur x w) (fun w' => split_items t sep l cur false w') = Panic).
  { intros c v. destruct I as [I|I].
    - unfold copy_push. now rewrite (bad_item_copy _ _ I B).
    - destruct (copy_push c x v) as [u|e|] eqn:E; [|destruct (copy_push_never _ _ _ _ E)|reflexivity]. cbn. eapply IH; eauto. }
  destruct x as [q|tb|s]; auto. destruct (sep q) as [b|e|] eqn:E; [|destruct (T _ _ E)|reflexivity]. cbn [bind]. destruct (b && negb fresh)%bool; auto.
Qed.
Lemma inline_string_never : forall w x, never_err (inline_string w x).
Proof.
  intros w x. unfold inline_string. destruct (inlineR_graphic x) as [g|]; auto with nev. destruct (graphicR_data g) as [d|]; auto with nev. revert d.
  assert (G : forall k f dp (d : gdata), never_err (gdata_string w k f dp d)).
  { intros k f dp d. unfold gdata_string. destruct (gdataR_pic d) as [p|].
    - apply bind_never; [unfold pic_name; destruct dp; auto with nev; destruct (pic_nvpic p); auto with nev; destruct (pic_blip p); auto with nev|]. intros n.
      apply bind_never; auto with nev. unfold pic_hash. destruct (pic_blip p); auto with nev. apply bind_never; auto with nev. intros g0.
      destruct (refer_target g0 _); auto with nev. destruct (drop 6 x0); auto with nev. apply bind_never; auto with nev. intros [m|]; auto with nev.
    - destruct (gdataR_shape d); auto with nev. destruct (gdataR_canvas d); auto with nev. }
  intros d. apply G.
Qed.
Lemma anchor_string_never : forall w x, never_err (anchor_string w x).
Proof.
  intros w x. unfold anchor_string. destruct (anchorR_graphic x) as [g|]; auto with nev. destruct (graphicR_data g) as [d|]; auto with nev.
  unfold gdata_string. destruct (gdataR_pic d) as [p|].
    - apply bind_never; [unfold pic_name; destruct (anchorR_docPr x); auto with nev; destruct (pic_nvpic p); auto with nev; destruct (pic_blip p); auto with nev|]. intros n.
      apply bind_never; auto with nev. unfold pic_hash. destruct (pic_blip p); auto with nev. apply bind_never; auto with nev. intros g0.
      destruct (refer_target g0 _); auto with nev. destruct (drop 6 x0); auto with nev. apply bind_never; auto with nev. intros [m|]; auto with nev.
    - destruct (gdataR_shape d); auto with nev. destruct (gdataR_canvas d); auto with nev.
Qed.
Lemma rconcat_never : forall A (f : A -> res string) l, (forall x, never_err (f x)) -> never_err (rconcat f l).
Proof. intros A f l K. induction l; cbn [rconcat]; [apply ok_never|]. apply bind_never; [apply K|]. intros s. apply bind_never; [exact IHl|intros; apply ok_never]. Qed.
Lemma rconcat_panic : forall A (f : A -> res string) l x, (forall x, never_err (f x)) -> In x l -> f x = Panic -> rconcat f l = Panic.
Proof.
  intros A f l x K. induction l as [|y l IH]; cbn; [intros []|]; intros [<-|I] P.
  - now rewrite P.
  - destruct (f y) as [s|e|] eqn:E; [|destruct (K _ _ E)|reflexivity]. cbn. now rewrite IH.
Qed.
Lemma rchild_string_never : forall w c, never_err (rchild_string w c).
Proof. intros w [t|t|b|[x|] [y|]]; cbn; auto with nev; first [apply inline_string_never|apply anchor_string_never]. Qed.
Lemma bad_string : forall p, bad_para p -> forall w, para_string w p = Panic.
Proof.
  intros p [r [I [c [J [B _]]]]] w. unfold para_string. apply (rconcat_panic _ _ _ (PRun r)); auto.
  - intros [r'|id r'|r']; cbn; auto with nev. apply rconcat_never, rchild_string_never.
  - cbn. apply (rconcat_panic _ _ _ c); auto. apply rchild_string_never.
Qed.
Lemma api_picture_bad : forall anch data w p w1 p1, add_drawing anch data w p = Ok (w1, p1) -> exists r, p1 = add_child (PRun r) p /\ bad_run r.
Proof.
  intros anch data w p w1 p1 E. unfold add_drawing in E. destruct (lib_imgsize data) as [[[sw sh] fmt]|]; [|discriminate].
  bk E v E0. destruct v as [[[idn id] r] w']. bk E v2 E2. destruct v2 as [ew eh]. inversion E; subst.
  eexists. split; [reflexivity|]. eexists. split; [now left|]. destruct anch; (split; [intros; reflexivity|intros; reflexivity]).
Qed.
Lemma picture_panics : forall anch data w p w1 p1, add_drawing anch data w p = Ok (w1, p1) -> exists r, p1 = add_child (PRun r) p /\
  forall p2, In (PRun r) (para_children p2) ->
    (forall w2, para_string w2 p2 = Panic) /\
    (forall w2 to from s, nth_error w2 from = Some s -> In p2 (body_paras (d_items s)) -> append_file to from w2 = Panic) /\
    (forall w2 i s sep, nth_error w2 i = Some s -> In p2 (body_paras (d_items s)) -> (forall p e, sep p <> Err e) -> split_by_paragraph i sep w2 = Panic).
Proof.
  intros anch data w p w1 p1 E. destruct (api_picture_bad _ _ _ _ _ _ E) as [r [E1 B]]. exists r. split; auto. intros p2 I.
  assert (BP : bad_para p2) by (exists r; auto). split; [|split].
  - now apply bad_string.
  - intros w2 to from s N J. unfold append_file. rewrite N. eapply bad_append; eauto.
  - intros w2 i s sep N J T. unfold split_by_paragraph. rewrite N. destruct (d_items s) as [|x l] eqn:D; [destruct J|]. eapply bad_split; eauto.
Qed.

Lemma split_partition : forall i sep w w' d, nth_error w i = Some d -> split_by_paragraph i sep w = Ok w' ->
  exists ps ds, pieces sep (d_items d) ps /\ w' = (w ++ ds)%list /\ length ds = length ps /\
    forall k s e, nth_error ps k = Some s -> nth_error ds k = Some e -> d_tmpl e = d_tmpl d /\ map kind_of (d_items e) = map kind_of s.
Proof.
  intros i sep w w' d N E. destruct (split_spec _ _ _ _ _ N E) as [ps [ds [A [B [C D]]]]]. exists ps, ds. split; auto. split; auto. split; auto.
  intros k s e K1 K2. destruct (D _ _ _ K1 K2) as [D1 [D2 _]]. auto.
Qed.
Lemma split_same : forall i sep w w' d, nth_error w i = Some d -> split_by_paragraph i sep w = Ok w' ->
  exists ps, concat ps = d_items d /\ length w' = length w + length ps /\
    forall k s, nth_error ps k = Some s -> exists e, nth_error w' (length w + k) = Some e /\
      ((N.of_nat (length (rels (d_reg e))) < B63)%N -> Forall2 (same_item w (length w + k) (d_reg e)) s (d_items e)).
Proof.
  intros i sep w w' d N E. destruct (split_spec _ _ _ _ _ N E) as [ps [ds [[A _] [B [C D]]]]]. exists ps. split; auto. subst w'. rewrite app_length, C. split; auto.
  intros k s K. destruct (nth_error ds k) as [e|] eqn:F.
  - exists e. split; [rewrite nth_error_app2 by lia; now replace (length w + k - length w) with k by lia|]. eapply D; eauto.
  - apply nth_error_None in F. apply nth_lt in K. lia.
Qed.
Lemma append_media_kept : forall w0 l w d from w' d',
  run_ops l (w0 ++ [new_docx])%list = Some w -> nth_error w (length w0) = Some d ->
  append_file (length w0) from w = Ok w' -> nth_error w' (length w0) = Some d' ->
  (N.of_nat (length (rels (d_reg d'))) < B63)%N ->
  forall n m, media_of (d_reg d) n = Ok (Some m) -> media_of (d_reg d') n = Ok (Some m).
Proof.
  intros w0 l w d from w' d' R N E N' B. assert (Nf : exists s, nth_error w from = Some s).
  { unfold append_file in E. destruct (nth_error w from); [eauto|discriminate]. }
  destruct Nf as [s Nf]. apply (append_same w0 l w d from s w' [] w' d' R N Nf E eq_refl N' B).
Qed.
Lemma append_links_pictures : forall w0 l w d from s w' l2 w2 d2,
  run_ops l (w0 ++ [new_docx])%list = Some w -> nth_error w (length w0) = Some d -> nth_error w from = Some s ->
  append_file (length w0) from w = Ok w' -> run_ops l2 w' = Some w2 -> nth_error w2 (length w0) = Some d2 ->
  (N.of_nat (length (rels (d_reg d2))) < B63)%N ->
  exists d' new, nth_error w' (length w0) = Some d' /\ d_items d' = (d_items d ++ new)%list /\
    Forall2 (same_item w (length w0) (d_reg d2)) (d_items s) new.
Proof. intros. eapply append_same; eauto. Qed.
End A.
