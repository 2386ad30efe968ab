(** The texts of a document that was saved and opened again. *)
From Coq Require Import String Ascii List Bool Arith NArith ZArith Lia Permutation.
From Verif Require Import GoStr Num Lib Types XmlTok Docx Text Api Keep Copy Pack History Reload SpecPack SpecReopen RegFacts HistFacts HistFacts2 PackFacts2 PackFacts5 IdFacts OpcFacts HomeFacts ReopenFacts.
Import ListNotations.
Local Open Scope list_scope.
Local Open Scope string_scope.

Section S.
Context `{GoLib}.
Variables (w w' : world) (i f : nat) (d d' : docx).
Hypothesis Nd : nth_error w i = Some d.
Hypothesis Nf : nth_error w' f = Some d'.
Hypothesis Rels : rels (d_reg d') = rels (d_reg d).
Hypothesis Med : forall n m, media_of (d_reg d) n = Ok (Some m) -> media_of (d_reg d') n = Ok (Some m).

Lemma reg_i : file_reg w (Some i) = Ok (d_reg d). Proof. cbn. now rewrite Nd. Qed.
Lemma reg_f : file_reg w' (Some f) = Ok (d_reg d'). Proof. cbn. now rewrite Nf. Qed.
Lemma refer_same : forall id, refer_target (d_reg d') id = refer_target (d_reg d) id.
Proof. intros id. unfold refer_target. now rewrite Rels. Qed.
Lemma hash_same : forall fl p s, home_file i fl -> pic_hash w fl p = Ok s -> pic_hash w' (Some f) p = Ok s.
Proof.
  intros fl p s Hm E. unfold pic_hash in *. destruct (pic_blip p) as [b|]; [|exact E]. destruct Hm as [->| ->]; [|discriminate].
  rewrite reg_i in E. rewrite reg_f. cbn [bind] in *. rewrite refer_same. destruct (refer_target (d_reg d) _) as [tgt|e|]; auto.
  destruct (drop 6 tgt) as [n|]; auto. bok E. destruct v as [m|]; [|discriminate]. rewrite (Med _ _ E0). exact E.
Qed.
Lemma gdata_same : forall k fl dp (x : gdata) s fr, (gdataR_pic x <> None -> home_file i fl) -> gdata_string w k fl dp x = Ok s ->
  gdata_string w' k (Some f) dp (reload_gdataR (reload_shape fr) (reload_canvas fr) (reload_group fr) x) = Ok s.
Proof.
  intros k fl dp [u p sh cv gr] s fr Hm E. unfold gdata_string in *. cbn [gdataR_pic gdataR_shape gdataR_canvas reload_gdataR] in *. destruct p as [p|].
  - bok E. bok E. rewrite E0. cbn [bind]. rewrite (hash_same fl p v0); [exact E|apply Hm; discriminate|exact E1].
  - destruct sh as [[[c cn cs sp tb bd]]|]; [|destruct cv; exact E]. cbn in *. destruct sp as [sp|]; exact E.
Qed.
Lemma child_same : forall c s, home_rchild i c -> rchild_string w c = Ok s -> rchild_string w' (reload_rchild (Some f) c) = Ok s.
Proof.
  intros [t|t|t|[x|] a] s Hm E; try exact E.
  - destruct Hm as [Hm _]. cbn in *. unfold inline_string, inline, anchor, graphic, gdata in *. cbn [inlineR_graphic reload_inlineR set_inlineR_file set_inlineR_graphic].
    destruct (inlineR_graphic x) as [g|] eqn:G; [|discriminate]. cbn [option_map]. destruct (graphicR_data g) as [q|] eqn:Q; [|discriminate].
    unfold reload_graphicR. rewrite Q. cbn [graphicR_data option_map]. apply (gdata_same _ (inlineR_file x)); [|exact E].
    intros P. apply Hm. exists g, q. auto.
  - destruct a as [x|]; [|exact E]. destruct Hm as [_ Hm]. cbn in *. unfold anchor_string, inline, anchor, graphic, gdata in *. cbn [anchorR_graphic reload_anchorR set_anchorR_file set_anchorR_graphic].
    destruct (anchorR_graphic x) as [g|] eqn:G; [|exact E]. cbn [option_map]. unfold reload_graphicR. destruct (graphicR_data g) as [q|] eqn:Q; [|exact E].
    cbn [graphicR_data option_map]. apply (gdata_same _ (anchorR_file x)); [|exact E].
    intros P. apply Hm. exists g, q. auto.
Qed.
Lemma rconcat_same : forall A B (f1 : A -> res string) (f2 : B -> res string) (g : A -> B) (Q : A -> Prop), (forall x s, Q x -> f1 x = Ok s -> f2 (g x) = Ok s) ->
  forall l s, Forall Q l -> rconcat f1 l = Ok s -> rconcat f2 (map g l) = Ok s.
Proof.
  intros A B f1 f2 g Q K. induction l as [|x l IH]; intros s F E; cbn in *; [exact E|]. inversion F; subst. bok E. bok E.
  rewrite (K _ _ H2 E0). cbn [bind]. rewrite (IH _ H3 E1). exact E.
Qed.
Lemma para_same : forall p s, home_para i p -> para_string w p = Ok s -> para_string w' (reload_para (Some f) p) = Ok s.
Proof.
  intros [[pp ch fl]] s [F Hm] E. cbn in F, Hm. subst fl. unfold para_string in *. cbn [para_file para_children reload_para paraR_ppr paraR_children paraR_file] in *.
  eapply (rconcat_same _ _ _ _ (reload_pchild (Some f)) (home_pchild i)); [|exact Hm|exact E]. clear s E.
  intros [r|id r|r] s Q E; cbn in *; auto.
  - eapply rconcat_same; [|exact Q|exact E]. intros; now apply child_same.
  - rewrite Nd in E. rewrite Nf. cbn [bind] in *. rewrite refer_same. exact E.
Qed.
Lemma cell_same : forall c s, home_cell i c -> cell_string w c = Ok s -> cell_string w' (reload_cell (Some f) c) = Ok s.
Proof.
  intros c s [_ Hm] E. unfold cell_string in *. cbn [cell_paras reload_cell]. destruct (cell_paras c) as [|p l]; [exact E|]. cbn [map]. inversion Hm; subst.
  destruct (para_children p) as [|c0 ch] eqn:C.
  - replace (para_children (reload_para (Some f) p)) with (@nil pchild); [exact E|]. destruct p as [[pp ch fl]]. cbn in C |- *. now rewrite C.
  - bok E. rewrite (para_same _ _ H2 E0). replace (para_children (reload_para (Some f) p)) with (map (reload_pchild (Some f)) (para_children p)) by (now destruct p as [[pp ch0 fl]]).
    rewrite C. exact E.
Qed.
Lemma table_same : forall t s, Forall (home_row i) (table_rows t) -> table_string w t = Ok s -> table_string w' (reload_table (Some f) t) = Ok s.
Proof.
  intros t s Hm E. unfold table_string in *. cbn [table_rows reload_table]. destruct (table_rows t) as [|r0 l]; [exact E|]. cbn [map row_cells reload_row].
  destruct (row_cells r0) as [|c0 cs] eqn:C; [exact E|]. cbn [map]. bok E. 
  change (reload_row (Some f) r0 :: map (reload_row (Some f)) l) with (map (reload_row (Some f)) (r0 :: l)).
  erewrite (rconcat_same _ _ _ _ (reload_row (Some f)) (home_row i)); [| |exact Hm|exact E0].
  - cbn [bind]. cbn [length] in *. now rewrite map_length.
  - intros r s0 Q K. bok K. cbn [row_cells reload_row]. erewrite (rconcat_same _ _ _ _ (reload_cell (Some f)) (home_cell i)); [exact K| |exact Q|exact E1]. intros; now apply cell_same.
Qed.
End S.

Lemma get_cell_reload : forall fr l k r c x, get_cell l k r c = Some x -> get_cell (map (reload_item fr) l) k r c = Some (reload_cell fr x).
Proof.
  intros fr l k r c x E. unfold get_cell in *. rewrite nth_error_map. destruct (nth_error l k) as [[p|t|s]|]; try discriminate. cbn.
  rewrite nth_error_map. destruct (nth_error (table_rows t) r) as [y|]; [|discriminate]. cbn. rewrite nth_error_map, E. reflexivity.
Qed.
Lemma get_para_reload : forall fr l a p, get_para l a = Some p -> get_para (map (reload_item fr) l) a = Some (reload_para fr p).
Proof.
  intros fr l [k|k r c j] p E; cbn in *.
  - rewrite nth_error_map. destruct (nth_error l k) as [[q|t|s]|]; try discriminate. injection E as ->. reflexivity.
  - destruct (get_cell l k r c) as [x|] eqn:G; [|discriminate]. rewrite (get_cell_reload _ _ _ _ _ _ G). cbn. now rewrite nth_error_map, E.
Qed.

Section R.
Context `{GoLib}.
Lemma legal_home : forall o, legal_call o -> brings_home o.
Proof. intros o (_ & G). destruct o; cbn in *; auto. exact (proj1 G). Qed.
Lemma history_media : forall l w i d, run_ops l [] = Some w -> nth_error w i = Some d -> media_ok (d_reg d).
Proof.
  intros l w i d R N. apply (run_regs media_ok step_media_ok empty_media_ok) with (l := l) (w := []) (w' := w) (i := i); auto.
  - clear. induction l as [|o l IH]; constructor; auto. destruct o; cbn; auto; [apply load_media_ok|]. intros f d U. exact (proj1 (proj2 (proj2 (unpack_inv _ _ _ U)))).
  - intros k x K. destruct k; discriminate.
Qed.
Lemma reopen_texts : forall l w i d ar, Forall legal_call l -> run_ops l [] = Some w -> nth_error w i = Some d -> (N.of_nat (length (rels (d_reg d))) < 2 ^ 62)%N ->
  no_media_tmpl d -> writes d (Ok ar) ->
  exists d', exec (OParse ar) w = Ok (w ++ [d'])%list /\
    (forall a p s, get_para (d_items d) a = Some p -> para_string w p = Ok s -> exists p', get_para (d_items d') a = Some p' /\ para_string (w ++ [d'])%list p' = Ok s) /\
    (forall k t s, nth_error (d_items d) k = Some (ITable t) -> table_string w t = Ok s ->
       exists t', nth_error (d_items d') k = Some (ITable t') /\ table_string (w ++ [d'])%list t' = Ok s).
Proof.
  intros l w i d ar F R N L NM W. destruct (reopen l w i d ar (length w) F R N L NM W) as (d' & U & I & RE & _ & _ & M). exists d'.
  assert (HM : home w) by (eapply run_home; [exact R|eapply Forall_impl; [|exact F]; apply legal_home|intros k x K; destruct k; discriminate]).
  pose proof (history_media l w i d R N) as MO.
  assert (Nf : nth_error (w ++ [d'])%list (length w) = Some d') by (rewrite nth_error_app2 by lia; now rewrite Nat.sub_diag).
  assert (Med : forall n m, media_of (d_reg d) n = Ok (Some m) -> media_of (d_reg d') n = Ok (Some m)).
  { intros n m E. rewrite (MO n) in E. injection E as E. apply last_named_some in E. destruct E as (E & <-). now apply M. }
  split; [|split].
  - cbn [exec]. unfold parse. rewrite U. reflexivity.
  - intros a p s G E. exists (reload_para (Some (length w)) p). split; [rewrite I; now apply get_para_reload|].
    eapply (para_same w _ i (length w) d d' N Nf RE Med); [|exact E]. eapply get_para_home; [|exact G]. exact (HM _ _ N).
  - intros k t s G E. exists (reload_table (Some (length w)) t). split; [rewrite I, nth_error_map, G; reflexivity|].
    eapply (table_same w _ i (length w) d d' N Nf RE Med); [|exact E]. exact (HistInv.nth_all _ _ _ _ _ (HM _ _ N) G).
Qed.
End R.
