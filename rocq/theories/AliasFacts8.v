(** Documents in memory: every call, and histories of calls. *)
From Coq Require Import String List Bool Arith ZArith Lia.
From Verif Require Import GoStr Num Lib Types Docx Api Keep Copy Pack History RegFacts Alias SpecAlias AliasFacts AliasFacts2 AliasFacts3 AliasFacts4 AliasFacts5 AliasFacts6 AliasFacts7.
Import ListNotations.
Local Open Scope list_scope.

Section Steps.
Context {L : GoLib}.
Variable al : bool.

Lemma set_items_map : forall W d x items W', nth_error W d = Some x -> W' = set_nth W d (set_d_items items x) ->
  map d_items W' = set_nth (map d_items W) d items /\ map strip W' = map strip W.
Proof.
  intros W d x items W' E ->. rewrite !set_nth_map. cbn [d_items set_d_items]. split; [reflexivity|].
  change (strip (set_d_items items x)) with (strip x). clear -E. revert d E. induction W as [|y W IH]; intros d E; [destruct d; discriminate|].
  destruct d; cbn in E |- *; [inversion E; subst; reflexivity|]. rewrite IH by exact E. reflexivity.
Qed.

(** a change inside document [d], in the shape all calls below have *)
Lemma ok_in_doc : forall o m W d l x h' S items', inv_on al m -> rep m W -> nth_error (m_docs m) d = Some l -> nth_error W d = Some x ->
  target o = Some d ->
  hexec o m = Ok (mk_mem h' (m_docs m) (m_w m)) -> exec o W = Ok (set_nth W d (set_d_items items' x)) ->
  all_some (v_item h') l = Some items' -> touched (m_heap m) h' S -> incl S (reach_doc (m_heap m) l) ->
  (forall b, In b S -> cont (m_heap m) b = true \/ In b (written o m)) -> (forall b, In b (written o m) -> once m b) ->
  grows (m_heap m) (reach_doc (m_heap m) l) (reach_doc h' l) -> kinds (m_heap m) h' -> okstep al o m (exec o W).
Proof.
  intros o m W d l x h' S items' I R El Ex Et E1 E2 V' T Hs Hc Hw G K. rewrite E2.
  destruct (set_items_map W d x items' _ Ex eq_refl) as [M1 M2].
  destruct (step_in_doc al m W d l x h' S items' (set_nth W d (set_d_items items' x)) I R El Ex V' T Hs) as [R' I']; auto.
  { intros b Hb. destruct (Hc b Hb) as [Hb'|Hb']; [apply I; auto|auto]. }
  exists (mk_mem h' (m_docs m) (m_w m)). split; [exact E1|]. rewrite (proj2 R). rewrite <- M2. split; [exact R'|]. split; [exact I'|].
  exists S. cbn [m_heap m_docs]. split; [exact T|]. split; [|split; [lia|auto]]. intros b Hb. destruct (Hc b Hb) as [Hb'|Hb']; [|auto].
  left. split; [exact Hb'|]. exists d. split; [exact Et|]. eapply in_doc_of; eauto.
Qed.

Lemma para_in_doc : forall h l p a, h_para h l p = Some a -> forall b, cnt (reach_para h a) b <= cnt (reach_doc h l) b.
Proof.
  intros h l [i|i r c k] a E b; cbn [h_para] in E.
  - destruct (nth_error l i) as [[z|z|s]|] eqn:El; try discriminate. inversion E; subst z. exact (in_sub _ (reach_item h) _ _ _ El b).
  - unfold h_cell, h_row in E. destruct (nth_error l i) as [[z|z|s]|] eqn:El; try discriminate.
    destruct (deref as_table h z) as [ht|] eqn:D1; [|discriminate]. destruct (nth_error (ht_rows ht) r) as [z2|] eqn:E2; [|discriminate].
    destruct (deref as_row h z2) as [hr|] eqn:D2; [|discriminate]. destruct (nth_error (hw_cells hr) c) as [z3|] eqn:E3; [|discriminate].
    destruct (deref as_cell h z3) as [hc|] eqn:D3; [|discriminate].
    pose proof (in_sub _ (reach_item h) _ _ _ El b) as C0. cbn [reach_item] in C0. unfold reach_table in C0. rewrite D1 in C0. cbn [count_occ] in C0. rewrite cnt_app in C0.
    pose proof (in_sub _ (reach_row h) _ _ _ E2 b) as C1. unfold reach_row at 1 in C1. rewrite D2 in C1. cbn [count_occ] in C1. rewrite cnt_app in C1.
    pose proof (in_sub _ (reach_cell h) _ _ _ E3 b) as C2. unfold reach_cell at 1 in C2. rewrite D3 in C2. cbn [count_occ] in C2. rewrite cnt_app in C2.
    pose proof (in_sub _ (reach_para h) _ _ _ E b) as C3. unfold reach_doc.
    destruct (Nat.eq_dec z b), (Nat.eq_dec z2 b), (Nat.eq_dec z3 b); lia.
Qed.
Lemma row_in_doc : forall h l i r a, h_row h l i r = Some a -> forall b, cnt (reach_row h a) b <= cnt (reach_doc h l) b.
Proof.
  intros h l i r a E b. unfold h_row in E. destruct (nth_error l i) as [[z|z|s]|] eqn:El; try discriminate.
  destruct (deref as_table h z) as [ht|] eqn:D1; [|discriminate].
  pose proof (in_sub _ (reach_item h) _ _ _ El b) as C0. cbn [reach_item] in C0. unfold reach_table in C0. rewrite D1 in C0. cbn [count_occ] in C0. rewrite cnt_app in C0.
  pose proof (in_sub _ (reach_row h) _ _ _ E b) as C1. unfold reach_doc. destruct (Nat.eq_dec z b); lia.
Qed.
Lemma cell_in_doc : forall h l i r c a, h_cell h l i r c = Some a -> forall b, cnt (reach_cell h a) b <= cnt (reach_doc h l) b.
Proof.
  intros h l i r c a E b. unfold h_cell in E. destruct (h_row h l i r) as [z|] eqn:Er; [|discriminate].
  destruct (deref as_row h z) as [hr|] eqn:D1; [|discriminate].
  pose proof (row_in_doc _ _ _ _ _ Er b) as C0. unfold reach_row at 1 in C0. rewrite D1 in C0. cbn [count_occ] in C0. rewrite cnt_app in C0.
  pose proof (in_sub _ (reach_cell h) _ _ _ E b) as C1. destruct (Nat.eq_dec z b); lia.
Qed.
Lemma cnt_incl : forall l l', (forall b, cnt l b <= cnt l' b) -> incl l l'.
Proof. intros l l' H b Hb. apply cnt_in in Hb. specialize (H b). destruct (in_dec Nat.eq_dec b l') as [|N]; [assumption|]. apply cnt_notin in N. lia. Qed.

Lemma step_para : forall d a o m W, inv_on al m -> rep m W -> (forall b, In b (written (OPara d a o) m) -> once m b) -> okstep al (OPara d a o) m (exec (OPara d a o) W).
Proof.
  intros d a o m W I R Hw. cbn [exec]. pose proof (rep_nth m W d R) as N. destruct (nth_error W d) as [x|] eqn:Ex.
  2:{ destruct N as [_ Nl]. cbn [okstep hexec]. rewrite Nl. reflexivity. }
  destruct N as (Nw & l & Nl & Vl). pose proof (look_para (m_heap m) l _ Vl a) as LP. destruct (get_para (d_items x) a) as [p|] eqn:Ep.
  2:{ cbn [okstep hexec]. rewrite Nl, LP. reflexivity. }
  destruct LP as (b & Eb & Vb). cbn [written] in Hw. rewrite Nl, Eb in Hw.
  pose proof (para_in_doc _ _ _ _ Eb) as C1. pose proof (doc_sub m d l Nl) as C2.
  assert (Ow : owned (m_heap m) (reach_para (m_heap m) b)).
  { intros z Hz. specialize (C1 z). specialize (C2 z). assert (cnt (reach_all m) z <= 1) by (apply I; auto). lia. }
  pose proof (pop_step L o b (m_heap m) W p Vb Ow) as P.
  assert (Hw' : forall z, In z (written_pop (m_heap m) o b) -> cnt (reach_para (m_heap m) b) z <= 1).
  { intros z Hz. specialize (Hw z Hz). unfold once in Hw. specialize (C1 z). specialize (C2 z). lia. }
  specialize (P Hw'). unfold pop_spec in P.
  change (@pair heap (list docx) (m_heap m) (map strip W)) with (@pair heap world (m_heap m) (map strip W)) in P.
  destruct (exec_pop o W p) as [[w' p']|e|] eqn:E; cbn [bind].
  2:{ cbn [okstep hexec]. rewrite Nl, Eb, (proj2 R), P. reflexivity. }
  2:{ cbn [okstep hexec]. rewrite Nl, Eb, (proj2 R), P. reflexivity. }
  destruct P as (h' & S & E1 & T & Hs & Hc & V' & G & K).
  pose proof (pop_items L o W p w' p' E) as Ei.
  assert (Ey : exists y, nth_error w' d = Some y /\ d_items y = d_items x).
  { pose proof (nth_error_map d_items d w') as M1. pose proof (nth_error_map d_items d W) as M2. rewrite Ei, M2, Ex in M1. cbn in M1.
    destruct (nth_error w' d) as [y|]; [|discriminate]. inversion M1. eauto. }
  destruct Ey as (y & Ey & Eyi). unfold on_doc. rewrite Ey. cbn [bind]. rewrite Eyi.
  assert (Os : forall z, In z S -> once m z).
  { intros z Hz. destruct (Hc z Hz) as [Hz'|Hz']; [apply I; auto|auto]. }
  assert (Od : forall z, In z S -> cnt (reach_doc (m_heap m) l) z <= 1).
  { intros z Hz. specialize (Os z Hz). unfold once in Os. specialize (C2 z). lia. }
  destruct (focus_para (m_heap m) l _ Vl h' S T Od a b p' Eb Hs V') as [V2 M2].
  assert (Hsd : incl S (reach_doc (m_heap m) l)) by (intros z Hz; apply (cnt_incl _ _ C1); auto).
  destruct (set_items_map w' d y (put_para (d_items x) a p') _ Ey eq_refl) as [Q1 Q2].
  destruct (step_in_doc al m W d l x h' S (put_para (d_items x) a p') (set_nth w' d (set_d_items (put_para (d_items x) a p') y)) I R Nl Ex V2 T Hsd Os) as [R' I']; auto.
  { apply (moved_grows _ _ _ _ law_items (m_heap m) l _ _ _ _ Vl M2 G). }
  { rewrite Q1, Ei. reflexivity. }
  cbn [okstep hexec]. rewrite Nl, Eb, (proj2 R), E1. cbn [bind]. rewrite Q2 in R', I'. eexists. split; [reflexivity|]. split; [exact R'|]. split; [exact I'|].
  exists S. cbn [m_heap m_docs]. split; [exact T|]. split; [|split; [lia|auto]]. intros z Hz. cbn [target written]. rewrite Nl, Eb. destruct (Hc z Hz) as [Hz'|Hz']; [|auto].
  left. split; [exact Hz'|]. exists d. split; [reflexivity|]. eapply in_doc_of; eauto.
Qed.

Lemma step_detached : forall p o m W, inv_on al m -> rep m W -> okstep al (ODetached p o) m (exec (ODetached p o) W).
Proof.
  intros p o m W I R. cbn [exec]. unfold okstep. cbn [hexec]. rewrite (proj2 R), pop_strip. destruct (exec_pop o W p) as [[w' p']|e|] eqn:E; cbn [sres bind]; [|reflexivity|reflexivity].
  eexists. split; [reflexivity|]. split; [split; cbn [m_heap m_docs m_w]; [rewrite (pop_items L o W p w' p' E); exact (proj1 R)|reflexivity]|].
  split; [exact I|]. apply framed_keeps; cbn [m_heap m_docs]; [apply keeps_refl|lia|auto].
Qed.

Lemma step_cellpara : forall d i r c m W, inv_on al m -> rep m W -> okstep al (OCellPara d i r c) m (exec (OCellPara d i r c) W).
Proof.
  intros d i r c m W I R. pose proof (rep_nth m W d R) as N. destruct (nth_error W d) as [x|] eqn:Ex.
  2:{ destruct N as [_ Nl]. cbn [exec]. unfold on_doc. rewrite Ex. cbn [okstep hexec]. rewrite Nl. reflexivity. }
  destruct N as (Nw & l & Nl & Vl). pose proof (look_cell (m_heap m) l _ Vl i r c) as LC. destruct (get_cell (d_items x) i r c) as [y|] eqn:Ey.
  2:{ cbn [exec]. unfold on_doc. rewrite Ex, Ey. cbn [bind okstep hexec]. rewrite Nl, LC. reflexivity. }
  destruct LC as (b & Eb & Vb). destruct (cell_inv _ _ _ Vb) as (hc & D & P & Hp & Hf).
  destruct (al_para (mk_para None [] (hc_file hc)) (m_heap m)) as [h1 a] eqn:Ea. destruct (makes_para _ _ _ _ Ea) as (K1 & V1 & N1 & G1).
  pose proof (cell_in_doc _ _ _ _ _ _ Eb) as C1. pose proof (doc_sub m d l Nl) as C2.
  destruct (law_keeps _ _ _ _ law_cell (m_heap m) h1 b _ K1 Vb) as [Vb1 Rb1].
  destruct (law_keeps _ _ _ _ (law_list _ _ _ _ law_para) (m_heap m) h1 (hc_paras hc) _ K1 Hp) as [Hp1 Rp1]. cbn beta in Hp1, Rp1.
  destruct (law_keeps _ _ _ _ (law_prop _ as_tc) (m_heap m) h1 (hc_tc hc) _ K1 P) as [P1 _].
  set (o := OHCell (mk_hcell (hc_tc hc) (hc_paras hc ++ [a]) (hc_file hc))). set (h' := upd h1 b o).
  assert (Db1 : deref as_cell h1 b = Some hc) by (eapply keeps_deref; eauto).
  assert (Hb : b < length h1) by (eapply deref_bound; eauto). assert (Hb0 : b < length (m_heap m)) by (eapply deref_bound; eauto).
  assert (Cb : cont (m_heap m) b = true) by (eapply c_cell; eauto).
  assert (Ob : cnt (reach_cell (m_heap m) b) b <= 1).
  { specialize (C1 b). specialize (C2 b). assert (cnt (reach_all m) b <= 1) by (apply I; auto). lia. }
  assert (Nb : ~ In b (flat_map (reach_para h1) (hc_paras hc ++ [a]))).
  { rewrite flat_map_app, Rp1. intros Hin. apply in_app_or in Hin. destruct Hin as [Hin|Hin].
    - apply cnt_in in Hin. unfold reach_cell in Ob. rewrite D in Ob. cbn [count_occ] in Ob. rewrite cnt_app in Ob. destruct (Nat.eq_dec b b); [lia|tauto].
    - cbn [flat_map] in Hin. rewrite app_nil_r in Hin. apply G1 in Hin. lia. }
  assert (Vps : all_some (v_para h1) (hc_paras hc ++ [a]) = Some (cell_paras y ++ [mk_para None [] (hc_file hc)])) by (apply all_some_app; [exact Hp1|cbn; rewrite V1; reflexivity]).
  destruct (touched_agree _ _ _ _ (law_list _ _ _ _ law_para) h1 h' [b] _ _ Vps (touched_upd _ _ _)) as [Vp2 Rp2]; [intros z [<-|[]]; exact Nb|].
  assert (Nq : forall z, In z (ptr (hc_tc hc)) -> z <> b).
  { intros z Hz ->. destruct (hc_tc hc) as [q|]; [|destruct Hz]. destruct Hz as [->|[]]. cbn in P. destruct (deref as_tc (m_heap m) b) eqn:Q; [|discriminate]. apply c_tc in Q. congruence. }
  destruct (touched_agree _ _ _ _ (law_prop _ as_tc) h1 h' [b] _ _ P1 (touched_upd _ _ _)) as [P2 _]; [intros z [<-|[]] Hin; exact (Nq _ Hin eq_refl)|].
  assert (D' : deref as_cell h' b = Some (mk_hcell (hc_tc hc) (hc_paras hc ++ [a]) (hc_file hc))) by (unfold h'; rewrite deref_upd by exact Hb; reflexivity).
  assert (V' : v_cell h' b = Some (cell_add_paragraph y)).
  { unfold v_cell. rewrite D'. cbn [hc_tc hc_paras hc_file]. cbn beta in Vp2, P2. rewrite P2, Vp2. unfold cell_add_paragraph. rewrite Hf. destruct y; reflexivity. }
  assert (T : touched (m_heap m) h' [b]) by (apply (touched_trans _ h1 _ [] [b]); [apply touched_keeps; exact K1|apply touched_upd]).
  assert (Hsc : incl [b] (reach_cell (m_heap m) b)) by (intros z [<-|[]]; left; reflexivity).
  destruct (focus_cell (m_heap m) l _ Vl h' [b] T) with (i := i) (r := r) (c := c) (a := b) (y' := cell_add_paragraph y) as [V2 M2]; auto.
  { intros z [<-|[]]. specialize (C2 b). assert (cnt (reach_all m) b <= 1) by (apply I; auto). lia. }
  apply (ok_in_doc (OCellPara d i r c) m W d l x h' [b] (put_cell (d_items x) i r c (cell_add_paragraph y))); auto.
  - cbn [hexec]. rewrite Nl, Eb, D, Ea. reflexivity.
  - cbn [exec]. unfold on_doc. rewrite Ex, Ey. reflexivity.
  - intros z Hz. apply (cnt_incl _ _ C1). auto.
  - intros z [<-|[]]. auto.
  - cbn. intros z [].
  - apply (moved_grows _ _ _ _ law_items (m_heap m) l _ _ _ _ Vl M2). intros z. unfold reach_cell. rewrite D, D'. cbn [hc_tc hc_paras]. cbn beta in Rp2. rewrite Rp2, flat_map_app, Rp1.
    cbn [flat_map count_occ]. rewrite app_nil_r, !cnt_app. pose proof (cnt_nodup _ z N1) as Cz. split; intros Hz.
    + assert (Z : cnt (reach_para h1 a) z = 0) by (apply cnt_notin; intros Hin; apply G1 in Hin; lia). destruct (Nat.eq_dec b z); lia.
    + assert (Z : cnt (reach_cell (m_heap m) b) z = 0) by (apply cnt_notin; intros Hin; apply (l_bound _ _ law_cell _ _ _ Vb) in Hin; lia).
      unfold reach_cell in Z. rewrite D in Z. cbn [count_occ] in Z. rewrite cnt_app in Z. destruct (Nat.eq_dec b z); lia.
  - apply (kinds_trans _ h1); [apply keeps_len; exact K1|apply kinds_keeps; exact K1|]. apply kinds_upd. rewrite (kinds_keeps _ _ K1 b Hb0), Cb. reflexivity.
Qed.

Lemma grows_refl : forall A B (v : heap -> A -> option B) r, lawful v r -> forall h x y, v h x = Some y -> grows h (r h x) (r h x).
Proof. intros A B v r Lw h x y V. apply (grows_le _ _ v r Lw h x y _ V). auto. Qed.

Definition table_write := prop_write _ _ _ _ _ as_table as_tbl ht_tbl ht_rows v_row reach_row (fun p q c => mk_table q (ht_grid p) c) OTbl law_row (fun _ => eq_refl) (fun _ => eq_refl) c_table c_tbl.
Definition row_write := prop_write _ _ _ _ _ as_row as_tr hw_tr hw_cells v_cell reach_cell (fun p q c => mk_row q c) OTr law_cell (fun _ => eq_refl) (fun _ => eq_refl) c_row c_tr.
Definition cell_write := prop_write _ _ _ _ _ as_cell as_tc hc_tc hc_paras v_para reach_para (fun p q c => mk_cell q c (hc_file p)) OTc law_para (fun _ => eq_refl) (fun _ => eq_refl) c_cell c_tc.

Lemma step_tablejc : forall d i v m W, inv_on al m -> rep m W -> (forall b, In b (written (OTableJc d i v) m) -> once m b) -> okstep al (OTableJc d i v) m (exec (OTableJc d i v) W).
Proof.
  intros d i v m W I R Hw. pose proof (rep_nth m W d R) as N. destruct (nth_error W d) as [x|] eqn:Ex.
  2:{ destruct N as [_ Nl]. cbn [exec]. unfold on_doc. rewrite Ex. cbn [okstep hexec]. rewrite Nl. reflexivity. }
  destruct N as (Nw & l & Nl & Vl). pose proof (look_item (m_heap m) l _ Vl i) as LI.
  cbn [exec]. unfold on_doc. rewrite Ex. destruct (nth_error (d_items x) i) as [[p|t|s]|] eqn:Ei.
  1: destruct LI as (a & LI & _). 3,4: idtac. 1,3,4: cbn [bind okstep hexec]; rewrite Nl, LI; reflexivity.
  destruct LI as (a & La & Va). destruct (table_inv _ _ _ Va) as (ht & D & P & Hr & Hg). cbn [written] in Hw. rewrite Nl, La, D in Hw.
  pose proof (doc_sub m d l Nl) as C2. pose proof (in_sub _ (reach_item (m_heap m)) _ _ _ La) as C1. cbn [reach_item] in C1. fold (reach_doc (m_heap m) l) in C1.
  destruct (ht_tbl ht) as [b|] eqn:Eb.
  2:{ cbn in P. inversion P as [P']. unfold table_justification. rewrite <- P'. cbn [bind okstep hexec]. rewrite Nl, La, D, Eb. reflexivity. }
  cbn [maybe] in P. destruct (deref as_tbl (m_heap m) b) as [q|] eqn:Db; [|discriminate]. inversion P as [P'].
  unfold table_justification. rewrite <- P'. cbn [bind].
  assert (Ob : once m b) by (apply Hw; left; reflexivity). unfold once in Ob.
  destruct (table_write (m_heap m) a ht t b q (set_tblpr_jc (Some v) q) D Va Eb Db) as (ys & Et & V' & R' & Hin & K & T).
  { specialize (C1 b). specialize (C2 b). unfold reach_table in C1. lia. }
  set (h' := upd (m_heap m) b (OTbl (set_tblpr_jc (Some v) q))) in *.
  set (t' := mk_table (Some (set_tblpr_jc (Some v) q)) (ht_grid ht) ys) in *.
  assert (Hsi : incl [b] (reach_item (m_heap m) (HITable a))) by (intros z [<-|[]]; exact Hin).
  destruct (focus_item (m_heap m) l _ Vl h' [b] T) with (i := i) (x := HITable a) (y' := ITable t') as [V2 M2]; auto.
  { intros z [<-|[]]. specialize (C2 b). lia. }
  { cbn [v_item]. unfold v_table. rewrite V'. reflexivity. }
  assert (E2 : exec (OTableJc d i v) W = Ok (set_nth W d (set_d_items (set_nth (d_items x) i (ITable t')) x))).
  { cbn [exec]. unfold on_doc. rewrite Ex, Ei. unfold table_justification. rewrite <- P'. cbn [bind]. unfold t'. rewrite Et. reflexivity. }
  pose proof E2 as E3. cbn [exec] in E3. unfold on_doc in E3. rewrite Ex, Ei in E3. unfold table_justification in E3. rewrite <- P' in E3. cbn [bind] in E3. rewrite E3, <- E2.
  apply (ok_in_doc (OTableJc d i v) m W d l x h' [b] (set_nth (d_items x) i (ITable t'))); auto.
  - cbn [hexec]. rewrite Nl, La, D, Eb. cbn [h_set]. rewrite Db. reflexivity.
  - intros z Hz. apply (cnt_incl _ _ C1). apply Hsi. exact Hz.
  - intros z Hz. right. cbn [written]. rewrite Nl, La, D, Eb. exact Hz.
  - intros z Hz. cbn [written] in Hz. rewrite Nl, La, D, Eb in Hz. auto.
  - apply (moved_grows _ _ _ _ law_items (m_heap m) l _ _ _ _ Vl M2). cbn [reach_item]. unfold reach_table at 2. rewrite R'. apply (grows_refl _ _ _ _ law_table _ _ _ Va).
Qed.

Lemma step_rowjc : forall d i r v m W, inv_on al m -> rep m W -> (forall b, In b (written (ORowJc d i r v) m) -> once m b) -> okstep al (ORowJc d i r v) m (exec (ORowJc d i r v) W).
Proof.
  intros d i r v m W I R Hw. pose proof (rep_nth m W d R) as N. destruct (nth_error W d) as [x|] eqn:Ex.
  2:{ destruct N as [_ Nl]. cbn [exec]. unfold on_doc. rewrite Ex. cbn [okstep hexec]. rewrite Nl. reflexivity. }
  destruct N as (Nw & l & Nl & Vl). pose proof (look_row (m_heap m) l _ Vl i r) as LR.
  assert (EX : exec (ORowJc d i r v) W = match get_row (d_items x) i r with
     | Some y => bind (row_justification v y) (fun y' => match nth_error (d_items x) i with Some (ITable t) => Ok (set_nth W d (set_d_items (set_nth (d_items x) i (ITable (set_table_rows (set_nth (table_rows t) r y') t))) x)) | _ => Panic end)
     | None => Panic end).
  { cbn [exec]. unfold on_doc, get_row. rewrite Ex. destruct (nth_error (d_items x) i) as [[p|t|s]|]; try reflexivity. destruct (nth_error (table_rows t) r) as [y|]; [|reflexivity]. destruct (row_justification v y); reflexivity. }
  destruct (get_row (d_items x) i r) as [y|] eqn:Ey.
  2:{ rewrite EX. cbn [okstep hexec]. rewrite Nl, LR. reflexivity. }
  destruct LR as (a & La & Va). destruct (row_inv _ _ _ Va) as (ht & D & P & Hr). cbn [written] in Hw. rewrite Nl, La, D in Hw.
  pose proof (doc_sub m d l Nl) as C2. pose proof (row_in_doc _ _ _ _ _ La) as C1.
  destruct (hw_tr ht) as [b|] eqn:Eb.
  2:{ cbn in P. inversion P as [P']. rewrite EX. unfold row_justification. rewrite <- P'. cbn [bind okstep hexec]. rewrite Nl, La, D, Eb. reflexivity. }
  cbn [maybe] in P. destruct (deref as_tr (m_heap m) b) as [q|] eqn:Db; [|discriminate]. inversion P as [P'].
  assert (Ob : once m b) by (apply Hw; left; reflexivity). unfold once in Ob.
  destruct (row_write (m_heap m) a ht y b q (set_trpr_jc (Some v) q) D Va Eb Db) as (ys & Et & V' & R' & Hin & K & T).
  { specialize (C1 b). specialize (C2 b). unfold reach_row in C1. lia. }
  set (h' := upd (m_heap m) b (OTr (set_trpr_jc (Some v) q))) in *.
  set (y' := mk_row (Some (set_trpr_jc (Some v) q)) ys) in *.
  assert (Hsi : incl [b] (reach_row (m_heap m) a)) by (intros z [<-|[]]; exact Hin).
  destruct (focus_row (m_heap m) l _ Vl h' [b] T) with (i := i) (r := r) (a := a) (y' := y') as (t & Ei & V2 & M2); auto.
  { intros z [<-|[]]. specialize (C2 b). lia. }
  rewrite Ei in EX.
  apply (ok_in_doc (ORowJc d i r v) m W d l x h' [b] (set_nth (d_items x) i (ITable (set_table_rows (set_nth (table_rows t) r y') t)))); auto.
  - cbn [hexec]. rewrite Nl, La, D, Eb. cbn [h_set]. rewrite Db. reflexivity.
  - rewrite EX. unfold row_justification. rewrite <- P'. cbn [bind]. unfold y'. rewrite Et. reflexivity.
  - intros z Hz. apply (cnt_incl _ _ C1). apply Hsi. exact Hz.
  - intros z Hz. right. cbn [written]. rewrite Nl, La, D, Eb. exact Hz.
  - intros z Hz. cbn [written] in Hz. rewrite Nl, La, D, Eb in Hz. auto.
  - apply (moved_grows _ _ _ _ law_items (m_heap m) l _ _ _ _ Vl M2). unfold reach_row at 2. rewrite R'. apply (grows_refl _ _ _ _ law_row _ _ _ Va).
Qed.

Lemma step_shade : forall d i r c v co f m W, inv_on al m -> rep m W -> (forall b, In b (written (OCellShade d i r c v co f) m) -> once m b) -> okstep al (OCellShade d i r c v co f) m (exec (OCellShade d i r c v co f) W).
Proof.
  intros d i r c v co f m W I R Hw. pose proof (rep_nth m W d R) as N. destruct (nth_error W d) as [x|] eqn:Ex.
  2:{ destruct N as [_ Nl]. cbn [exec]. unfold on_doc. rewrite Ex. cbn [okstep hexec]. rewrite Nl. reflexivity. }
  destruct N as (Nw & l & Nl & Vl). pose proof (look_cell (m_heap m) l _ Vl i r c) as LR.
  assert (EX : exec (OCellShade d i r c v co f) W = match get_cell (d_items x) i r c with
     | Some y => bind (cell_shade v co f y) (fun y' => Ok (set_nth W d (set_d_items (put_cell (d_items x) i r c y') x)))
     | None => Panic end).
  { cbn [exec]. unfold on_doc. rewrite Ex. destruct (get_cell (d_items x) i r c) as [y|]; [|reflexivity]. destruct (cell_shade v co f y); reflexivity. }
  destruct (get_cell (d_items x) i r c) as [y|] eqn:Ey.
  2:{ rewrite EX. cbn [okstep hexec]. rewrite Nl, LR. reflexivity. }
  destruct LR as (a & La & Va). destruct (cell_inv _ _ _ Va) as (ht & D & P & Hr & Hf). cbn [written] in Hw. rewrite Nl, La, D in Hw.
  pose proof (doc_sub m d l Nl) as C2. pose proof (cell_in_doc _ _ _ _ _ _ La) as C1.
  destruct (hc_tc ht) as [b|] eqn:Eb.
  2:{ cbn in P. inversion P as [P']. rewrite EX. unfold cell_shade. rewrite <- P'. cbn [bind okstep hexec]. rewrite Nl, La, D, Eb. reflexivity. }
  cbn [maybe] in P. destruct (deref as_tc (m_heap m) b) as [q|] eqn:Db; [|discriminate]. inversion P as [P'].
  assert (Ob : once m b) by (apply Hw; left; reflexivity). unfold once in Ob.
  set (q' := set_tcpr_shade (Some (mk_shade v co f "" "")) q).
  destruct (cell_write (m_heap m) a ht y b q q' D Va Eb Db) as (ys & Et & V' & R' & Hin & K & T).
  { specialize (C1 b). specialize (C2 b). unfold reach_cell in C1. lia. }
  set (h' := upd (m_heap m) b (OTc q')) in *.
  set (y' := mk_cell (Some q') ys (hc_file ht)) in *.
  assert (Hsi : incl [b] (reach_cell (m_heap m) a)) by (intros z [<-|[]]; exact Hin).
  destruct (focus_cell (m_heap m) l _ Vl h' [b] T) with (i := i) (r := r) (c := c) (a := a) (y' := y') as (V2 & M2); auto.
  { intros z [<-|[]]. specialize (C2 b). lia. }
  apply (ok_in_doc (OCellShade d i r c v co f) m W d l x h' [b] (put_cell (d_items x) i r c y')); auto.
  - cbn [hexec]. rewrite Nl, La, D, Eb. cbn [h_set]. rewrite Db. reflexivity.
  - rewrite EX. unfold cell_shade. rewrite <- P'. cbn [bind]. unfold y', q'. rewrite Et. reflexivity.
  - intros z Hz. apply (cnt_incl _ _ C1). apply Hsi. exact Hz.
  - intros z Hz. right. cbn [written]. rewrite Nl, La, D, Eb. exact Hz.
  - intros z Hz. cbn [written] in Hz. rewrite Nl, La, D, Eb in Hz. auto.
  - apply (moved_grows _ _ _ _ law_items (m_heap m) l _ _ _ _ Vl M2). unfold reach_cell at 2. rewrite R'. apply (grows_refl _ _ _ _ law_cell _ _ _ Va).
Qed.

Lemma item_type_view : forall h x y, v_item h x = Some y -> item_type y = hitem_type x.
Proof.
  intros h [a|a|s] y E; cbn in E; [destruct (v_para h a)|destruct (v_table h a)|]; inversion E; reflexivity.
Qed.
Lemma step_keep : forall d names m W, inv_on al m -> rep m W -> okstep al (OKeep d names) m (exec (OKeep d names) W).
Proof.
  intros d names m W I R. pose proof (rep_nth m W d R) as N. cbn [exec]. unfold on_doc. destruct (nth_error W d) as [x|] eqn:Ex.
  2:{ destruct N as [_ Nl]. cbn [okstep hexec]. rewrite Nl. reflexivity. }
  destruct N as (Nw & l & Nl & Vl). cbn [bind okstep hexec]. rewrite Nl. eexists. split; [reflexivity|].
  destruct (set_items_map W d x (body_keep names (d_items x)) _ Ex eq_refl) as [Q1 Q2].
  split; [|split].
  - split; cbn [m_heap m_docs m_w].
    + rewrite Q1. apply (all_some_set _ _ (fun l => all_some (v_item (m_heap m)) l)); [exact (proj1 R)|].
      apply (keep_named_view _ _ hitem_type item_type _ names (item_type_view (m_heap m)) _ _ Vl).
    + rewrite Q2. exact (proj2 R).
  - intros b Hb. cbn [m_heap] in Hb. unfold reach_all. cbn [m_heap m_docs].
    pose proof (cnt_set _ (reach_doc (m_heap m)) (m_docs m) d l (keep_named hitem_type names l) b Nl) as C.
    pose proof (keep_named_cnt _ hitem_type (reach_item (m_heap m)) names l b) as C2. fold (reach_doc (m_heap m)) in C2. specialize (I b Hb). unfold reach_all in I. unfold reach_doc in *. lia.
  - apply framed_keeps; cbn [m_heap m_docs]; [apply keeps_refl|rewrite set_nth_length; lia|]. intros s Hs Ht. apply set_nth_other. intros ->. apply Ht. reflexivity.
Qed.

Lemma step_dropall : forall d name m W, inv_on al m -> rep m W -> okstep al (ODropAll d name) m (exec (ODropAll d name) W).
Proof.
  intros d name m W I R. pose proof (rep_nth m W d R) as N. destruct (nth_error W d) as [x|] eqn:Ex.
  2:{ destruct N as [_ Nl]. cbn [exec]. unfold on_doc. rewrite Ex. cbn [okstep hexec]. rewrite Nl. reflexivity. }
  destruct N as (Nw & l & Nl & Vl). pose proof (doc_sub m d l Nl) as C2.
  assert (Ow : owned (m_heap m) (flat_map (reach_item (m_heap m)) l)).
  { intros z Hz. specialize (C2 z). assert (cnt (reach_all m) z <= 1) by (apply I; auto). unfold reach_doc in C2. lia. }
  destruct (inplace_drop_items name (m_heap m) l _ Vl Ow) as (S & T & Hs & Cc & V' & Nn & K & Ln).
  apply (ok_in_doc (ODropAll d name) m W d l x (h_drop_items name l (m_heap m)) S (drop_drawing_of name (d_items x))); auto.
  - cbn [hexec]. rewrite Nl. reflexivity.
  - cbn [exec]. unfold on_doc. rewrite Ex. reflexivity.
  - cbn. intros z [].
  - apply (grows_le _ _ _ _ law_items (m_heap m) l _ _ Vl). exact Nn.
Qed.
End Steps.

(** *** copying *)
Section Copying.
Context {L : GoLib}.

Lemma push_step : forall to x y m W, inv_on false m -> rep m W -> v_item (m_heap m) x = Some y ->
  match copy_push to y W with
  | Ok W' => exists m', h_copy_push to x m = Ok m' /\ rep m' W' /\ inv_on false m' /\ keeps (m_heap m) (m_heap m') /\ length (m_docs m') = length (m_docs m) /\
      (forall s, s <> to -> nth_error (m_docs m') s = nth_error (m_docs m) s)
  | Err e => h_copy_push to x m = Err e
  | Panic => h_copy_push to x m = Panic
  end.
Proof.
  intros to x y m W I R V. unfold copy_push, h_copy_push. rewrite (proj2 R). pose proof (cspec_item to (m_heap m) W x y V) as C.
  change (@pair heap (list docx) (m_heap m) (map strip W)) with (@pair heap world (m_heap m) (map strip W)) in C.
  destruct (copy_item to y W) as [[w' y']|e|]; cbn [bind]; [|rewrite C; reflexivity|rewrite C; reflexivity].
  destruct C as (h' & x' & E & K & V' & F & Ei). rewrite E. cbn [bind]. unfold push_item.
  pose proof (rep_nth m W to R) as N.
  assert (Ed : option_map d_items (nth_error w' to) = option_map d_items (nth_error W to)) by (rewrite <- !nth_error_map, Ei; reflexivity).
  destruct (nth_error W to) as [d|] eqn:Ew.
  2:{ destruct N as [_ Nl]. rewrite Nl. destruct (nth_error w' to); [discriminate|]. reflexivity. }
  destruct N as (_ & l & Nl & Vl). rewrite Nl. destruct (nth_error w' to) as [d'|] eqn:Ew'; [|discriminate]. inversion Ed as [Ed'].
  eexists. split; [reflexivity|].
  destruct (law_keeps _ _ _ _ law_bodies (m_heap m) h' (m_docs m) _ K (proj1 R)) as [VB RB].
  destruct (law_keeps _ _ _ _ law_items (m_heap m) h' l _ K Vl) as [VL RL].
  destruct (set_items_map w' to d' (d_items d' ++ [y']) _ Ew' eq_refl) as [Q1 Q2].
  split; [|split; [|split; [exact K|split; [cbn [m_docs]; apply set_nth_length|]]]].
  - split; cbn [m_heap m_docs m_w].
    + unfold add_item. rewrite Q1, Ei, Ed'. apply (all_some_set _ _ (fun l => all_some (v_item h') l)); [exact VB|]. apply all_some_app; [exact VL|]. cbn. rewrite V'. reflexivity.
    + unfold add_item. rewrite Q2. reflexivity.
  - intros b Hb. cbn [m_heap] in Hb. destruct Hb as [Hb|Hb]; [discriminate|]. unfold reach_all. cbn [m_heap m_docs].
    pose proof (cnt_set _ (reach_doc h') (m_docs m) to l (l ++ [x']) b Nl) as C. unfold reach_doc in C at 2 4. rewrite flat_map_app, cnt_app in C. cbn [flat_map] in C. rewrite app_nil_r in C.
    change (flat_map (reach_doc h') (m_docs m)) with (flat_map (fun l => flat_map (reach_item h') l) (m_docs m)) in C. rewrite RB in C.
    destruct (F b) as [F1 F2]. destruct (Nat.lt_ge_cases b (length (m_heap m))) as [Hlt|Hge].
    + rewrite (kinds_keeps _ _ K b Hlt) in Hb. specialize (F1 Hb). specialize (I b (or_intror Hb)). unfold reach_all, reach_doc in I. unfold reach_doc in C |- *. lia.
    + specialize (F2 Hge Hb). assert (Z : cnt (reach_all m) b = 0) by (apply cnt_notin; intros Hin; apply (all_bound _ _ R) in Hin; lia). unfold reach_all, reach_doc in Z. unfold reach_doc in C |- *. lia.
  - intros s Hs. cbn [m_docs]. apply set_nth_other. auto.
Qed.

Lemma append_step : forall to l ys m W, inv_on false m -> rep m W -> all_some (v_item (m_heap m)) l = Some ys ->
  match append_items to ys W with
  | Ok W' => exists m', h_append_items to l m = Ok m' /\ rep m' W' /\ inv_on false m' /\ keeps (m_heap m) (m_heap m') /\ length (m_docs m') = length (m_docs m) /\
      (forall s, s <> to -> nth_error (m_docs m') s = nth_error (m_docs m) s)
  | Err e => h_append_items to l m = Err e
  | Panic => h_append_items to l m = Panic
  end.
Proof.
  intros to. induction l as [|x l IH]; intros ys m W I R V; cbn in V.
  - inversion V; subst. cbn. exists m. split; [reflexivity|]. split; [exact R|]. split; [exact I|]. split; [apply keeps_refl|auto].
  - destruct (v_item (m_heap m) x) as [y|] eqn:Ex; [|discriminate]. destruct (all_some (v_item (m_heap m)) l) as [zs|] eqn:El; [|discriminate]. inversion V; subst ys.
    cbn [append_items h_append_items]. pose proof (push_step to x y m W I R Ex) as P. destruct (copy_push to y W) as [W1|e|]; cbn [bind]; [|rewrite P; reflexivity|rewrite P; reflexivity].
    destruct P as (m1 & E1 & R1 & I1 & K1 & L1 & N1). rewrite E1. cbn [bind].
    destruct (law_keeps _ _ _ _ law_items (m_heap m) (m_heap m1) l _ K1 El) as [V1 _].
    pose proof (IH zs m1 W1 I1 R1 V1) as P2. destruct (append_items to zs W1) as [W2|e|]; [|exact P2|exact P2].
    destruct P2 as (m2 & E2 & R2 & I2 & K2 & L2 & N2). exists m2. split; [exact E2|]. split; [exact R2|]. split; [exact I2|]. split; [eapply keeps_trans; eauto|]. split; [congruence|].
    intros s Hs. rewrite N2, N1 by exact Hs. reflexivity.
Qed.

Lemma step_append : forall d from m W, inv_on false m -> rep m W -> okstep false (OAppend d from) m (exec (OAppend d from) W).
Proof.
  intros d from m W I R. cbn [exec]. pose proof (rep_nth m W d R) as N. destruct (nth_error W d) as [x|] eqn:Ex.
  2:{ destruct N as [_ Nl]. cbn [okstep hexec]. rewrite Nl. reflexivity. }
  destruct N as (_ & l & Nl & _). unfold append_file, okstep. cbn [hexec]. rewrite Nl. unfold h_append_file.
  pose proof (rep_nth m W from R) as N. destruct (nth_error W from) as [y|] eqn:Ey.
  2:{ destruct N as [_ Nf]. rewrite Nf. reflexivity. }
  destruct N as (_ & lf & Nf & Vf). rewrite Nf. pose proof (append_step d lf _ m W I R Vf) as P. destruct (append_items d (d_items y) W) as [W'|e|]; auto.
  destruct P as (m' & E & R' & I' & K & Ln & Nn). exists m'. split; [exact E|]. split; [exact R'|]. split; [exact I'|].
  apply framed_keeps; [exact K|lia|]. intros s _ Ht. apply Nn. intros ->. apply Ht. reflexivity.
Qed.

Lemma part_step : forall t m W, inv_on false m -> rep m W -> rep (h_new_part t m) (new_part t W) /\ inv_on false (h_new_part t m).
Proof.
  intros t m W I R. unfold h_new_part, new_part. split.
  - split; cbn [m_heap m_docs m_w].
    + rewrite map_app. apply all_some_app; [exact (proj1 R)|]. reflexivity.
    + rewrite map_app, (proj2 R). reflexivity.
  - intros b Hb. unfold reach_all. cbn [m_heap m_docs] in *. rewrite flat_map_app. cbn. rewrite app_nil_r. apply (I b Hb).
Qed.

Lemma split_step : forall t sep l ys n cur fr m W, inv_on false m -> rep m W -> all_some (v_item (m_heap m)) l = Some ys -> n <= cur -> n <= length (m_docs m) ->
  match split_items t sep ys cur fr W with
  | Ok W' => exists m', h_split_items t sep l cur fr m = Ok m' /\ rep m' W' /\ inv_on false m' /\ keeps (m_heap m) (m_heap m') /\ length (m_docs m) <= length (m_docs m') /\
      (forall s, s < n -> nth_error (m_docs m') s = nth_error (m_docs m) s)
  | Err e => h_split_items t sep l cur fr m = Err e
  | Panic => h_split_items t sep l cur fr m = Panic
  end.
Proof.
  intros t sep. induction l as [|x l IH]; intros ys n cur fr m W I R V Hn Hm; cbn in V.
  - inversion V; subst. cbn. exists m. split; [reflexivity|]. split; [exact R|]. split; [exact I|]. split; [apply keeps_refl|auto].
  - destruct (v_item (m_heap m) x) as [y|] eqn:Ex; [|discriminate]. destruct (all_some (v_item (m_heap m)) l) as [zs|] eqn:El; [|discriminate]. inversion V; subst ys.
    assert (Next : forall c m0 W0, inv_on false m0 -> rep m0 W0 -> m_heap m0 = m_heap m -> n <= c -> length (m_docs m) <= length (m_docs m0) ->
        (forall s, s < n -> nth_error (m_docs m0) s = nth_error (m_docs m) s) ->
        match bind (copy_push c y W0) (fun w' => split_items t sep zs c false w') with
        | Ok W' => exists m', bind (h_copy_push c x m0) (fun m' => h_split_items t sep l c false m') = Ok m' /\ rep m' W' /\ inv_on false m' /\ keeps (m_heap m) (m_heap m') /\
             length (m_docs m) <= length (m_docs m') /\ (forall s, s < n -> nth_error (m_docs m') s = nth_error (m_docs m) s)
        | Err e => bind (h_copy_push c x m0) (fun m' => h_split_items t sep l c false m') = Err e
        | Panic => bind (h_copy_push c x m0) (fun m' => h_split_items t sep l c false m') = Panic
        end).
    { intros c m0 W0 I0 R0 H0 Hc Hl Hd. assert (Ex0 : v_item (m_heap m0) x = Some y) by (rewrite H0; exact Ex).
      pose proof (push_step c x y m0 W0 I0 R0 Ex0) as P. destruct (copy_push c y W0) as [W1|e|]; cbn [bind]; [|rewrite P; reflexivity|rewrite P; reflexivity].
      destruct P as (m1 & E1 & R1 & I1 & K1 & L1 & N1). rewrite E1. cbn [bind]. rewrite H0 in K1.
      destruct (law_keeps _ _ _ _ law_items (m_heap m) (m_heap m1) l _ K1 El) as [V1 _].
      pose proof (IH zs n c false m1 W1 I1 R1 V1 Hc) as P2. specialize (P2 ltac:(lia)). destruct (split_items t sep zs c false W1) as [W2|e|]; [|exact P2|exact P2].
      destruct P2 as (m2 & E2 & R2 & I2 & K2 & L2 & N2). exists m2. split; [exact E2|]. split; [exact R2|]. split; [exact I2|]. split; [eapply keeps_trans; eauto|]. split; [lia|].
      intros s Hs. rewrite N2 by exact Hs. rewrite N1 by lia. auto. }
    cbn [split_items h_split_items]. destruct (rep_len m W R) as [Len _]. destruct x as [a|a|s]; cbn [v_item] in Ex.
    + destruct (v_para (m_heap m) a) as [p|]; [|discriminate]. inversion Ex; subst y. destruct (sep p) as [b|e|]; cbn [bind]; [|reflexivity|reflexivity].
      destruct (b && negb fr)%bool.
      * rewrite <- Len. destruct (part_step t m W I R) as [R0 I0]. apply Next; auto.
        -- cbn [m_docs h_new_part]. rewrite app_length. lia.
        -- intros s Hs. cbn [m_docs h_new_part]. apply nth_error_app1. lia.
      * apply Next; auto.
    + destruct (v_table (m_heap m) a) as [p|]; [|discriminate]. inversion Ex; subst y. apply Next; auto.
    + inversion Ex; subst y. apply Next; auto.
Qed.

Lemma step_split : forall d sep m W, inv_on false m -> rep m W -> okstep false (OSplit d sep) m (exec (OSplit d sep) W).
Proof.
  intros d sep m W I R. cbn [exec]. unfold split_by_paragraph, okstep. cbn [hexec]. unfold h_split. pose proof (rep_nth m W d R) as N. destruct (nth_error W d) as [x|] eqn:Ex.
  2:{ destruct N as [_ Nl]. rewrite Nl. reflexivity. }
  destruct N as (Nw & l & Nl & Vl). rewrite Nl, Nw. destruct (d_items x) as [|y ys] eqn:Ei.
  - destruct l as [|z l]; [|cbn in Vl; destruct (v_item (m_heap m) z); [destruct (all_some (v_item (m_heap m)) l); discriminate|discriminate]].
    exists m. split; [reflexivity|]. split; [exact R|]. split; [exact I|]. apply framed_keeps; [apply keeps_refl|lia|auto].
  - destruct l as [|z l]; [discriminate|]. destruct (part_step (d_tmpl x) m W I R) as [R0 I0]. destruct (rep_len m W R) as [Len _]. rewrite <- Len.
    change (d_tmpl (strip x)) with (d_tmpl x).
    pose proof (split_step (d_tmpl x) sep (z :: l) (y :: ys) (length (m_docs m)) (length (m_docs m)) true (h_new_part (d_tmpl x) m) (new_part (d_tmpl x) W) I0 R0 Vl (le_n _)) as P.
    specialize (P ltac:(cbn [m_docs h_new_part]; rewrite app_length; lia)).
    destruct (split_items (d_tmpl x) sep (y :: ys) (length (m_docs m)) true (new_part (d_tmpl x) W)) as [W'|e|]; [|exact P|exact P].
    destruct P as (m' & E & R' & I' & K & Ln & Nn). exists m'. split; [exact E|]. split; [exact R'|]. split; [exact I'|].
    cbn [m_docs h_new_part] in Ln, Nn. rewrite app_length in Ln. apply framed_keeps; [exact K|lia|]. intros s Hs _. rewrite Nn by exact Hs. apply nth_error_app1. exact Hs.
Qed.

(** every call *)
Theorem hexec_step : forall al o m W, inv_on al m -> rep m W -> (al = true -> is_copy o = false) -> (forall b, In b (written o m) -> once m b) -> okstep al o m (exec o W).
Proof.
  intros al o m W I R Hc Hw. destruct o.
  - eapply ok_new; eauto; reflexivity.
  - eapply ok_new; eauto; reflexivity.
  - apply step_para; assumption.
  - apply step_detached; assumption.
  - eapply (grow_step L al _ m W d (fun x => Ok (add_paragraph d x))); [exact I|exact R|reflexivity|reflexivity|reflexivity|]. intros x. destruct x; reflexivity.
  - apply step_cellpara; assumption.
  - eapply (grow_step L al _ m W d (fun x => bind (add_table d r c width col x) (fun '(x', _) => Ok x'))); [exact I|exact R|reflexivity|reflexivity|reflexivity|]. intros x. unfold add_table.
    destruct (Z.ltb (iv r) 0); [reflexivity|]. destruct (Z.ltb (iv c) 0 && Z.ltb 0 (iv r))%bool; [reflexivity|]. destruct (use_colors col). destruct x; reflexivity.
  - eapply (grow_step L al _ m W d (fun x => Ok (fst (add_table_twips d rh cw width col x)))); [exact I|exact R|reflexivity|reflexivity|reflexivity|]. intros x. unfold add_table_twips. destruct (use_colors col). destruct x; reflexivity.
  - apply step_tablejc; assumption.
  - apply step_rowjc; assumption.
  - apply step_shade; assumption.
  - eapply (grow_step L al _ m W d (fun x => Ok ((if a3 then with_a3 else with_a4) x))); [exact I|exact R|reflexivity|reflexivity|reflexivity|]. intros x. destruct a3, x; reflexivity.
  - eapply (grow_step L al _ m W d (fun x => Ok (use_template t x))); [exact I|exact R|reflexivity|reflexivity|reflexivity|]. intros x. destruct x; cbn. rewrite app_nil_r. reflexivity.
  - apply step_keep; assumption.
  - apply step_dropall; assumption.
  - destruct al; [specialize (Hc eq_refl); discriminate|]. apply step_append; assumption.
  - destruct al; [specialize (Hc eq_refl); discriminate|]. apply step_split; assumption.
  - destruct (rep_len m W R) as [Len _]. assert (X : exec (OParse a) W = bind (unpack (length (m_docs m)) a) (fun d => Ok (W ++ [d]))) by (cbn [exec]; unfold parse; rewrite <- Len; reflexivity).
    destruct (unpack (length (m_docs m)) a) as [x|e|] eqn:U; cbn [bind] in X.
    + eapply ok_new; eauto. cbn [hexec]. rewrite U. reflexivity.
    + rewrite X. unfold okstep. cbn [hexec]. rewrite U. reflexivity.
    + rewrite X. unfold okstep. cbn [hexec]. rewrite U. reflexivity.
Qed.
End Copying.
