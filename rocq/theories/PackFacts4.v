(** Histories of documents read from packages. *)
From Coq Require Import String Ascii List Bool Arith NArith ZArith Lia Permutation.
From Verif Require Import GoStr Num Lib Types XmlTok Marshal Unmarshal Reload Docx Text Api Copy Keep History Lex Rels Pack SpecLex SpecNum SpecApi SpecEdit SpecPack RegFacts IdFacts ApiFacts HistFacts HistFacts2 NewFacts LexFacts LexFacts2 RelsFacts PackFacts PackFacts2 PackFacts3.
Import ListNotations.
Local Open Scope list_scope.
Local Open Scope string_scope.

Section WithLib.
Context `{GoLib}.

(** the counter is the largest number read *)
Lemma rels_n_app : forall n l ts, exists l', fst (rels_n n l ts) = (l ++ l')%list.
Proof.
  induction n as [|n IH]; intros l ts; cbn [rels_n]; [exists []; now rewrite app_nil_r|].
  destruct ts as [|t ts]; [exists []; now rewrite app_nil_r|]. destruct t; try (exists []; now rewrite app_nil_r); try apply IH.
  destruct (skip ts) as (st, ts'). destruct st; try (exists []; now rewrite app_nil_r).
  match goal with |- context [rels_n n ?x ts'] => destruct (IH x ts') as (l' & ->) end.
  match goal with |- context [if ?b then _ else _] => destruct b end; [exists (u_rel a :: l'); now rewrite <- app_assoc|eauto].
Qed.
Lemma rels_root_app : forall ts ns l, exists l', snd (fst (rels_root ns l ts)) = (l ++ l')%list.
Proof.
  induction ts as [|t ts IH]; intros ns l; cbn [rels_root]; [exists []; now rewrite app_nil_r|]. destruct t; try apply IH.
  - pose proof (rels_n_app (S (length ts)) l ts) as (l' & E). destruct (rels_n _ l ts) as (x, y). cbn [fst snd] in *. eauto.
  - exists []; now rewrite app_nil_r.
Qed.
Lemma parse_rel_largest : forall s g g', parse_doc_relation s g = Ok g' -> largest_id (rels g) (rid g) -> largest_id (rels g') (rid g').
Proof.
  intros s g g' E (_ & LG). unfold parse_doc_relation in E. destruct (rels_root_app (check [] (lex s)) XMLNS_R (rels g)) as (l' & A).
  destruct (rels_root _ _ _) as ((ns, l), st). cbn [fst snd] in A. subst l. destruct st; try discriminate.
  destruct (max_id _ (rid g)) as [m|] eqn:M; [|discriminate]. injection E as <-. cbn [rels rid].
  pose proof (max_id_inv _ _ _ M) as F. destruct (max_id_some _ (rid g) F) as (k & K1 & _ & K2 & K3). rewrite M in K1. injection K1 as <-.
  split; [exact K2|]. destruct K3 as [->|K3]; [|now right]. destruct LG as [->|(r & I & K)]; [now left|]. right. exists r. split; [apply in_app_iff; now left|assumption].
Qed.
Lemma unpack_largest : forall f a d, unpack f a = Ok d -> largest_id (rels (d_reg d)) (rid (d_reg d)).
Proof.
  intros f a d E. unfold unpack in E. apply bind_ok in E. destruct E as (d1 & E & E2). injection E2 as <-. cbn [d_reg set_d_reg set_imgid rels rid].
  assert (K : forall l d d', unpack_entries f d l = Ok d' -> largest_id (rels (d_reg d)) (rid (d_reg d)) -> largest_id (rels (d_reg d')) (rid (d_reg d'))).
  { clear. induction l as [|e l IH]; intros d d' E LG; cbn [unpack_entries] in E; [now injection E as <-|]. apply bind_ok in E. destruct E as (d1 & E1 & E).
    apply (IH d1 d' E). clear - E1 LG. unfold unpack_entry in E1.
    destruct (String.eqb (fst e) RELS_PART); [destruct (read_entry e) as [s|]; [|discriminate]; apply bind_ok in E1; destruct E1 as (g & P & E1); injection E1 as <-; exact (parse_rel_largest _ _ _ P LG)|].
    destruct (String.eqb (fst e) DOC_PART); [destruct (read_entry e) as [s|]; [|discriminate]; unfold parse_doc_part in E1; destruct (root _ _ _) as (x, st); destruct st; try discriminate; injection E1 as <-; exact LG|].
    destruct (has_prefix MEDIA_FOLDER (fst e)); [destruct (read_entry e) as [s|]; [|discriminate]; injection E1 as <-; exact LG|]. injection E1 as <-. exact LG. }
  apply (K _ _ _ E). split; [intros ? ? []|now left].
Qed.

Lemma parse_inv : forall a w w1, parse a w = Ok w1 -> exists d0, w1 = (w ++ [d0])%list /\ unpack (length w) a = Ok d0.
Proof. intros a w w1 E. unfold parse in E. apply bind_ok in E. destruct E as (d & U & E). injection E as <-. eauto. Qed.

Lemma largest_bound : forall l m (k : N), largest_id l m -> (k < two63)%N -> (forall r n, In r l -> id_num (rel_id r) n -> (n + k < two63)%N) -> (m + k < two63)%N.
Proof. intros l m k (_ & [->|(r & I & K)]) B A; [lia|eauto]. Qed.
Lemma no_resolve : forall l id, ~ In id (map rel_id l) -> refer_target_in l id = Err ERR_REFID.
Proof.
  induction l as [|r l IH]; intros id N; [reflexivity|]. cbn [refer_target_in map In] in *. destruct (String.eqb_spec (rel_id r) id); [exfalso; auto|]. apply IH. auto.
Qed.
Lemma new_resolve : forall l r, NoDup (map rel_id l) -> In r l -> refer_target_in l (rel_id r) = Ok (rel_target r).
Proof.
  induction l as [|x l IH]; intros r N I; [destruct I|]. inversion N as [|? ? NI N']; subst. cbn [refer_target_in]. destruct I as [->|I]; [now rewrite seqb_refl|].
  destruct (String.eqb_spec (rel_id x) (rel_id r)) as [E|]; [|auto]. exfalso. apply NI. rewrite E. now apply in_map.
Qed.

Lemma parsed_ids : forall a w0 w1 d0 l w d, parse a w0 = Ok w1 -> nth_error w1 (length w0) = Some d0 ->
  run_ops l w1 = Some w -> nth_error w (length w0) = Some d ->
  exists new, rels (d_reg d) = (rels (d_reg d0) ++ new)%list /\
    (forall id t, refer_target (d_reg d0) id = Ok t -> refer_target (d_reg d) id = Ok t) /\
    ((N.of_nat (length new) < two63)%N -> (forall r n, In r (rels (d_reg d0)) -> id_num (rel_id r) n -> (n + N.of_nat (length new) < two63)%N) ->
     NoDup (map rel_id new) /\ (forall r, In r new -> ~ In (rel_id r) (map rel_id (rels (d_reg d0))) /\ refer_target (d_reg d) (rel_id r) = Ok (rel_target r))).
Proof.
  intros a w0 w1 d0 l w d P N0 R N. apply parse_inv in P. destruct P as (d0' & -> & U).
  rewrite nth_error_app2, Nat.sub_diag in N0 by lia. injection N0 as ->.
  pose proof (from_start _ _ _ _ _ R N) as S. destruct (steps_rels _ _ S) as (new & E & Q). exists new. split; [assumption|].
  split; [intros id t; apply steps_refer; assumption|]. intros B1 B2. pose proof (largest_bound _ _ _ (unpack_largest _ _ _ U) B1 B2) as B.
  destruct (unpack_inv _ _ _ U) as (_ & _ & _ & NB & _). destruct (Q B) as (_ & I).
  assert (ND : NoDup (map rel_id new)) by (rewrite I; apply ids_from_nodup). split; [assumption|].
  intros r IN. assert (F : ~ In (rel_id r) (map rel_id (rels (d_reg d0)))).
  { apply (in_map rel_id) in IN. rewrite I in IN. apply ids_from_in in IN. destruct IN as (m & -> & M). apply numbered_fresh; [assumption|]. unfold two63 in *. lia. }
  split; [assumption|]. unfold refer_target. rewrite E, refer_app_new by assumption. now apply new_resolve.
Qed.

Lemma parsed_link : forall a w0 w1 d0 l1 w j b t link w2 x p l2 w3 d3, parse a w0 = Ok w1 -> nth_error w1 (length w0) = Some d0 ->
  run_ops l1 w1 = Some w ->
  nth_error w j = Some x -> get_para (d_items x) b = Some p -> para_file p = Some (length w0) ->
  exec (OPara j b (OLink t link)) w = Ok w2 -> run_ops l2 w2 = Some w3 -> nth_error w3 (length w0) = Some d3 ->
  (N.of_nat (length (rels (d_reg d3)) - length (rels (d_reg d0))) < two63)%N ->
  (forall r n, In r (rels (d_reg d0)) -> id_num (rel_id r) n -> (n + N.of_nat (length (rels (d_reg d3)) - length (rels (d_reg d0))) < two63)%N) ->
  exists x1 id r, nth_error w2 j = Some x1 /\
    get_para (d_items x1) b = Some (mk_para (para_ppr p) (para_children p ++ [PLink id r])%list (para_file p)) /\
    runR_instr r = t /\ refer_target (d_reg d3) id = Ok link.
Proof.
  intros a w0 w1 d0 l1 w j b t link w2 x p l2 w3 d3 P Z R Nj G F E R2 N2 L1 L2. apply parse_inv in P. destruct P as (d0' & -> & U).
  rewrite nth_error_app2, Nat.sub_diag in Z by lia. injection Z as ->. destruct (unpack_inv _ _ _ U) as (_ & _ & _ & NB & _).
  assert (N0 : exists e, nth_error w (length w0) = Some e).
  { apply run_ops_grows in R. destruct (R (length w0) d0) as [e [K _]]; [|eauto]. rewrite nth_error_app2 by lia. now rewrite Nat.sub_diag. }
  destruct N0 as [e N0]. eapply (hyperlink_keeps (d_reg d0) (length w0)); eauto.
  - eapply from_start; eauto.
  - exact (largest_bound _ _ _ (unpack_largest _ _ _ U) L1 L2).
Qed.

Lemma itoa_neg : forall n, (two63 <= n < B64)%N -> exists s, itoa_u n = String "-" s.
Proof.
  intros n B. unfold two63 in B. unfold itoa_u, int_of_u, i64_of, wrap64. cbn [iv].
  assert (E : ((Z.of_N n + 9223372036854775808) mod 18446744073709551616 = Z.of_N n - 9223372036854775808)%Z).
  { symmetry. apply (Z.mod_unique_pos _ _ 1); lia. }
  rewrite E. destruct (Z.of_N n - 9223372036854775808 - 9223372036854775808)%Z eqn:K; [lia|lia|]. eexists. reflexivity.
Qed.
Lemma neg_no_num : forall r s, rel_id r = "rId" ++ String "-" s -> ~ has_num r.
Proof.
  intros r s E (n & x & A & K). rewrite E in A. apply sapp_inv_head in A. subst x. apply parse_uint_spec in K.
  assert (Z : parse_uint (String "-" s) = None) by reflexivity. congruence.
Qed.
Lemma skip_stops : forall f ar d d', unpack_entries f d ar = Ok d' -> forall s, In (RELS_PART, Some s) ar ->
  exists g g', parse_doc_relation s g = Ok g'.
Proof.
  induction ar as [|e ar IH]; intros d d' E s I; [destruct I|]. cbn [unpack_entries] in E. apply bind_ok in E. destruct E as (d1 & E1 & E).
  destruct I as [->|I]; [|eauto]. unfold unpack_entry in E1. cbn [fst] in E1. change (String.eqb RELS_PART RELS_PART) with true in E1. cbn iota in E1.
  unfold read_entry in E1. cbn [fst snd] in E1. change (ends_slash RELS_PART) with false in E1. cbn [andb] in E1. apply bind_ok in E1. destruct E1 as (g & P & _). eauto.
Qed.
Lemma rels_root_any : forall g ns l0 k, rels_root ns l0 (toks (m_rels g) ++ k)%list = (relns g, (l0 ++ rels g)%list, SOk).
Proof.
  intros g ns l0 k. unfold m_rels. cbn [toks app rels_root]. fold (ftoks (map m_rel (rels g))). rewrite <- app_assoc. cbn [app].
  rewrite (rels_written (rels g) l0); [reflexivity|]. rewrite app_length. cbn [length].
  assert (LL : (length (rels g) <= length (ftoks (map m_rel (rels g))))%nat).
  { induction (rels g) as [|r l IH]; [cbn; lia|]. unfold ftoks in *. cbn [map flat_map]. unfold m_rel at 1. cbn [toks flat_map app length]. lia. }
  lia.
Qed.
Lemma bad_rels_rejected : forall g r g0, xml_rels g -> In r (rels g) -> ~ has_num r -> parse_doc_relation (write_xml (m_rels g)) g0 = Err ERR_RELID.
Proof.
  intros g r g0 X I N. unfold parse_doc_relation. rewrite lex_write; [|unfold m_rels; eauto|apply ok_rels|now apply rels_values].
  cbn [check]. rewrite <- (app_nil_r (toks (m_rels g))), RoundTrip2.check_tree. cbn [rels_root]. rewrite rels_root_any.
  destruct (max_id _ _) as [m|] eqn:M; [|reflexivity]. apply max_id_inv in M. apply Forall_app in M. destruct M as (_ & M). rewrite Forall_forall in M. exfalso. auto.
Qed.
Lemma bad_rels_unpack : forall d ar r f d', writes d (Ok ar) -> xml_rels (d_reg d) -> In r (rels (d_reg d)) -> ~ has_num r -> unpack f ar <> Ok d'.
Proof.
  intros d ar r f d' W X I N U. unfold unpack in U. apply bind_ok in U. destruct U as (d1 & U & _).
  destruct (skip_stops _ _ _ _ U (write_xml (m_rels (d_reg d)))) as (g & g' & P).
  - destruct (written_parts d ar W) as (_ & G). apply G. eexists. split; [reflexivity|apply part_rels].
  - rewrite (bad_rels_rejected _ r g X I N) in P. discriminate.
Qed.

Lemma overflow : forall a w0 w1 d0 j b t link x p w2 d2, parse a w0 = Ok w1 -> nth_error w1 (length w0) = Some d0 ->
  (exists r n, In r (rels (d_reg d0)) /\ id_num (rel_id r) n /\ (two63 - 1 <= n)%N) ->
  (forall r n, In r (rels (d_reg d0)) -> id_num (rel_id r) n -> (n < 18446744073709551615)%N) ->
  nth_error w1 j = Some x -> get_para (d_items x) b = Some p -> para_file p = Some (length w0) ->
  exec (OPara j b (OLink t link)) w1 = Ok w2 -> nth_error w2 (length w0) = Some d2 ->
  (exists r s, In r (rels (d_reg d2)) /\ rel_id r = "rId-" ++ s /\ rel_target r = link) /\
  (forall ar f d', xml_rels (d_reg d2) -> writes d2 (Ok ar) -> unpack f ar <> Ok d').
Proof.
  intros a w0 w1 d0 j b t link x p w2 d2 P N0 (r0 & n0 & I0 & K0 & B0) LT Nj G F E N2.
  apply parse_inv in P. destruct P as (d0' & -> & U). pose proof N0 as N0'. rewrite nth_error_app2, Nat.sub_diag in N0' by lia. injection N0' as ->.
  destruct (unpack_largest _ _ _ U) as (LG1 & LG2).
  assert (RB : (two63 <= rid (d_reg d0) + 1 < B64)%N).
  { specialize (LG1 r0 n0 I0 K0). assert (rid (d_reg d0) < 18446744073709551615)%N by (destruct LG2 as [->|(r & I & K)]; [lia|eauto]). unfold two63 in *. lia. }
  destruct (exec_para_inv _ _ _ _ _ E) as [x' [p' [w' [q [A1 [A2 [A3 [y [A4 [A5 A6]]]]]]]]]].
  rewrite Nj in A1. injection A1 as <-. rewrite G in A2. injection A2 as <-.
  cbn [exec_pop] in A3. destruct (add_link_inv _ _ _ _ _ _ A3) as [i' [d [B1 [B2 [B3 B4]]]]].
  rewrite F in B1. injection B1 as <-. rewrite N0 in B2. injection B2 as <-.
  destruct (nth_regs w' j y (set_d_items (put_para (d_items x) b q) y) (length w0) (set_d_reg (snd (add_link_relation link (d_reg d0))) d0)) as [e [C1 C2]]; auto.
  { rewrite B3. apply set_nth_same. eapply nth_lt; eauto. }
  rewrite <- A6, N2 in C1. injection C1 as <-. cbn [d_reg set_d_reg] in C2.
  unfold add_link_relation, add_rel in C2. cbn [snd] in C2.
  rewrite uadd1_small in C2 by lia. destruct (itoa_neg _ RB) as (s & S). rewrite S in C2.
  set (r := mk_rel ("rId" ++ String "-" s) REL_HYPERLINK link REL_TARGETMODE) in *.
  assert (IN : In r (rels (d_reg d2))) by (rewrite C2; cbn [rels set_rid set_rels]; apply in_app_iff; right; now left).
  split; [exists r, s; auto|]. intros ar f d' X W. eapply bad_rels_unpack; eauto. eapply neg_no_num. reflexivity.
Qed.

(** ** pictures *)
Lemma parsed_fresh : forall f a d, unpack f a = Ok d -> low_images (media (d_reg d)) -> img_fresh (d_reg d).
Proof.
  intros f a d U LI m n fmt I E. destruct (unpack_inv _ _ _ U) as (_ & _ & _ & _ & -> & _). exact (LI m n fmt I E).
Qed.
Lemma parsed_media : forall a w0 w1 d0 l w d, parse a w0 = Ok w1 -> nth_error w1 (length w0) = Some d0 ->
  run_ops l w1 = Some w -> nth_error w (length w0) = Some d -> low_images (media (d_reg d0)) ->
  exists new, media (d_reg d) = (media (d_reg d0) ++ new)%list /\
    ((100000 + N.of_nat (length new) < two63)%N ->
      NoDup (map fst new) /\ (forall m, In m new -> ~ In (fst m) (map fst (media (d_reg d0)))) /\
      (forall n, In n (map fst (media (d_reg d0))) -> media_of (d_reg d) n = media_of (d_reg d0) n) /\
      (forall ar, writes d (Ok ar) -> (forall n m, last_media (media (d_reg d0)) n m -> In ("word/media/" ++ n, Some (snd m)) ar) /\
         (forall m, In m new -> In ("word/media/" ++ fst m, Some (snd m)) ar))).
Proof.
  intros a w0 w1 d0 l w d P N0 R N LI. apply parse_inv in P. destruct P as (d0' & -> & U).
  rewrite nth_error_app2, Nat.sub_diag in N0 by lia. injection N0 as ->.
  pose proof (from_start _ _ _ _ _ R N) as S. destruct (steps_media _ _ S) as (new & E & _ & Q). exists new. split; [assumption|].
  intros B. destruct (unpack_inv _ _ _ U) as (_ & _ & MO & _ & IM & _). rewrite IM in Q. destruct (Q B) as (_ & NF).
  assert (ND : NoDup (map fst new)) by (eapply names_from_nodup; eauto).
  assert (FR : forall m, In m new -> ~ In (fst m) (map fst (media (d_reg d0)))).
  { intros m I J. apply in_map_iff in J. destruct J as (m' & EM & J). destruct (names_from_in _ _ _ NF I) as (k & fmt & EK & BK).
    rewrite EK in EM. specialize (LI m' k fmt J EM). lia. }
  split; [assumption|]. split; [assumption|].
  assert (OLD : forall n, In n (map fst (media (d_reg d0))) -> ~ In n (map fst new)).
  { intros n I J. apply in_map_iff in J. destruct J as (m & <- & J). exact (FR m J I). }
  split.
  - intros n I. rewrite (steps_media_ok _ _ S MO n), (MO n), E, last_named_app. now rewrite (last_named_none n new) by auto.
  - intros ar W. destruct (written_parts d ar W) as (_ & G). split.
    + intros n m LM. apply G. eexists. split; [reflexivity|]. apply part_media. destruct LM as (u & v & EU & EN & AV).
      exists u, (v ++ new)%list. rewrite E, EU, <- app_assoc. split; [reflexivity|]. split; [assumption|]. intros y I. apply in_app_iff in I. destruct I as [I|I]; [auto|].
      intros EY. apply (FR y I). rewrite EY, <- EN, EU, map_app. apply in_app_iff. right. now left.
    + intros m I. apply G. eexists. split; [reflexivity|]. apply part_media. apply (last_media_in _ m ND) in I. destruct I as (u & v & EU & _ & AV).
      exists (media (d_reg d0) ++ u)%list, v. rewrite E, EU, <- app_assoc. auto.
Qed.
Lemma parsed_picture : forall a w0 w1 d0 l1 w j b anch data w2 x p l2 w3 d3, parse a w0 = Ok w1 -> nth_error w1 (length w0) = Some d0 ->
  low_images (media (d_reg d0)) -> run_ops l1 w1 = Some w ->
  nth_error w j = Some x -> get_para (d_items x) b = Some p -> para_file p = Some (length w0) ->
  exec (OPara j b (ODrawing anch data)) w = Ok w2 -> run_ops l2 w2 = Some w3 -> nth_error w3 (length w0) = Some d3 ->
  (100000 + N.of_nat (length (rels (d_reg d3))) < two63)%N ->
  (forall r n, In r (rels (d_reg d0)) -> id_num (rel_id r) n -> (n + N.of_nat (length (rels (d_reg d3))) < two63)%N) ->
  exists x1 r c pc embed name, nth_error w2 j = Some x1 /\
    get_para (d_items x1) b = Some (mk_para (para_ppr p) (para_children p ++ [PRun r])%list (para_file p)) /\
    runR_children r = [c] /\ drawing_pics c = [pc] /\ pic_embed pc = Some embed /\
    refer_target (d_reg d3) embed = Ok ("media/" ++ name) /\
    media_of (d_reg d3) name = Ok (Some (name, data)).
Proof.
  intros a w0 w1 d0 l1 w j b anch data w2 x p l2 w3 d3 P Z LI R Nj G F E R2 N2 L1 L2. apply parse_inv in P. destruct P as (d0' & -> & U).
  rewrite nth_error_app2, Nat.sub_diag in Z by lia. injection Z as ->. destruct (unpack_inv _ _ _ U) as (_ & _ & MO & NB & IM & _).
  assert (N0 : exists e, nth_error w (length w0) = Some e).
  { apply run_ops_grows in R. destruct (R (length w0) d0) as [e [K _]]; [|eauto]. rewrite nth_error_app2 by lia. now rewrite Nat.sub_diag. }
  destruct N0 as [e N0]. eapply (picture_keeps (d_reg d0) (length w0)); eauto.
  - eapply parsed_fresh; eauto.
  - eapply from_start; eauto.
  - apply (largest_bound _ _ _ (unpack_largest _ _ _ U)); [unfold two63 in *; lia|]. intros r n I K. specialize (L2 r n I K). unfold two63 in *. lia.
  - rewrite IM. assert (S : reg_steps (d_reg d0) (d_reg d3)).
    { assert (R3 : run_ops (l1 ++ [OPara j b (ODrawing anch data)] ++ l2)%list (w0 ++ [d0])%list = Some w3).
      { clear - R E R2. revert R. generalize (w0 ++ [d0])%list. induction l1 as [|o l IH]; cbn; intros u R.
        - injection R as ->. cbn in E. rewrite E. exact R2.
        - destruct (exec o u); auto. discriminate. }
      exact (from_start _ _ _ _ _ R3 N2). }
    destruct (steps_media _ _ S) as (new & EM & LE & _). rewrite EM, app_length. unfold two63 in *. lia.
Qed.
End WithLib.
