(** Reading a package, writing it and reading it again. *)
From Coq Require Import String Ascii List Bool Arith NArith ZArith Lia Permutation.
From Verif Require Import GoStr Num Lib Types XmlTok Marshal Unmarshal Reload Docx Text Api Copy Keep History Lex Rels Pack SpecLex SpecNum SpecApi SpecEdit SpecPack SpecStable
  RegFacts IdFacts ApiFacts HistFacts LexFacts LexFacts2 RelsFacts PackFacts PackFacts2 PackFacts3 PackFacts4 StableFacts ValFacts ValFacts2 StableFacts2.
Import ListNotations.
Local Open Scope list_scope.
Local Open Scope string_scope.

(** ** the strings of loaded relationships are XML strings *)
Definition xml_rel (r : rel) : Prop := Forall xml_string (rel_strings r).
Lemma rel_attr_xml : forall r a, xml_rel r -> xml_string (snd a) -> xml_rel (rel_attr r a).
Proof.
  intros [i t g m] ((p, n), v) F V. cbn [snd fst] in *. unfold xml_rel, rel_strings, rel_attr in *. cbn [rel_id rel_type rel_target rel_mode snd fst] in *.
  repeat match goal with F : Forall _ (_ :: _) |- _ => inversion F; clear F; subst end.
  repeat match goal with |- context [if ?b then _ else _] => destruct b end; cbn [rel_id rel_type rel_target rel_mode]; repeat (apply Forall_cons; [assumption|]); apply Forall_nil.
Qed.
Lemma u_rel_xml : forall a, va xml_string a -> xml_rel (u_rel a).
Proof.
  unfold u_rel. intros a F. assert (G : xml_rel (mk_rel "" "" "" "")) by (repeat constructor; apply xml_nil). revert G. generalize (mk_rel "" "" "" "").
  induction F as [|x a X F IH]; intros r G; [exact G|]. cbn [fold_left]. apply IH. now apply rel_attr_xml.
Qed.
Lemma rels_n_xml : forall n l ts, vts xml_string xml_string ts -> Forall xml_rel l -> Forall xml_rel (fst (rels_n n l ts)).
Proof.
  induction n as [|n IH]; intros l ts V F; [exact F|]. cbn [rels_n]. destruct ts as [|t ts]; [exact F|]. inversion V as [|? ? V1 V2]; subst.
  destruct t; try exact F; try (now apply IH). pose proof (skip_v xml_string xml_string ts 0 V2) as K. unfold skip. destruct (skip_from 0 ts) as (st, ts'). destruct st; try exact F.
  apply IH; [exact K|]. destruct (String.eqb _ _); [|exact F]. apply Forall_app. split; [exact F|]. constructor; [|constructor]. now apply u_rel_xml.
Qed.
Lemma ns_xml : forall a ns, va xml_string a -> xml_string ns -> xml_string (fold_left ns_attr a ns).
Proof.
  intros a ns F. revert ns. induction F as [|x a X F IH]; intros ns N; [exact N|]. cbn [fold_left]. apply IH. unfold ns_attr. destruct (String.eqb _ _); assumption.
Qed.
Lemma rels_root_xml : forall ts ns l, vts xml_string xml_string ts -> xml_string ns -> Forall xml_rel l ->
  xml_string (fst (fst (rels_root ns l ts))) /\ Forall xml_rel (snd (fst (rels_root ns l ts))).
Proof.
  induction ts as [|t ts IH]; intros ns l V N F; [split; assumption|]. inversion V as [|? ? V1 V2]; subst. cbn [rels_root]. destruct t; try (now apply IH); try (split; assumption).
  pose proof (rels_n_xml (S (length ts)) l ts V2 F) as K. destruct (rels_n _ l ts) as (l', st). split; [now apply ns_xml|exact K].
Qed.
Lemma parse_rel_xml : forall s g g', parse_doc_relation s g = Ok g' -> Forall xml_rel (rels g) -> xml_rels g'.
Proof.
  intros s g g' E F. unfold parse_doc_relation in E.
  destruct (rels_root_xml (check [] (lex s)) XMLNS_R (rels g)) as (A & B); [apply check_v, lex_xml|apply (legal_xml _ _ (le_n _)); vm_compute; reflexivity|exact F|].
  destruct (rels_root _ _ _) as ((ns, l), st). destruct st; try discriminate. destruct (max_id l (rid g)); [|discriminate]. injection E as <-. cbn [fst snd] in *.
  split; [exact A|]. intros r I. rewrite Forall_forall in B. exact (B r I).
Qed.

Section WithLib.
Context `{GoLib}.
(** ** what is known of the body and the relationships of a parsed document *)
Definition loaded_body (f : nat) (l : list item) : Prop := exists s, l = fst (parse_document (Some f) (lex s)).
Definition loaded_rels (g : reg) : Prop := xml_rels g /\ Forall has_num (rels g).
Lemma part_loaded : forall f s d d', parse_doc_part f s d = Ok d' -> d_items d = [] -> loaded_body f (d_items d').
Proof.
  intros f s d d' E N. unfold parse_doc_part in E. rewrite N in E. exists s. unfold parse_document.
  change (u_document_from (Some f) []) with (u_document (Some f)) in E. destruct (root _ _ _) as (l, st). destruct st; try discriminate. injection E as <-. reflexivity.
Qed.
Lemma unpack_entry_body : forall f d e d', unpack_entry f d e = Ok d' -> (fst e = DOC_PART /\ (d_items d = [] -> loaded_body f (d_items d'))) \/ (fst e <> DOC_PART /\ d_items d' = d_items d).
Proof.
  intros f d e d' E. unfold unpack_entry in E. destruct (String.eqb_spec (fst e) RELS_PART) as [R|R].
  { right. split; [rewrite R; discriminate|]. destruct (read_entry e); [|discriminate]. apply bind_ok in E. destruct E as (g & _ & E). now injection E as <-. }
  destruct (String.eqb_spec (fst e) DOC_PART) as [D|D].
  { left. split; [exact D|]. destruct (read_entry e); [|discriminate]. intros N0. exact (part_loaded _ _ _ _ E N0). }
  right. split; [exact D|]. destruct (has_prefix _ _); [destruct (read_entry e); [|discriminate]|]; now injection E as <-.
Qed.
Lemma unpack_body : forall f l d d', NoDup (map fst l) -> unpack_entries f d l = Ok d' ->
  (d_items d = [] \/ ~ In DOC_PART (map fst l)) -> d_items d' = d_items d \/ loaded_body f (d_items d').
Proof.
  intros f. induction l as [|e l IH]; intros d d' N E K; cbn [unpack_entries] in E; [left; now injection E as <-|]. apply bind_ok in E. destruct E as (d1 & E1 & E).
  inversion N as [|? ? N1 N2]; subst. destruct (unpack_entry_body _ _ _ _ E1) as [(D & B)|(D & B)].
  - destruct K as [K|K]; [|exfalso; apply K; left; exact D]. destruct (IH d1 d' N2 E) as [->|X]; [right; rewrite <- D; exact N1|right; now apply B|now right].
  - destruct (IH d1 d' N2 E) as [->|X]; [|now left; rewrite B|now right]. rewrite B. destruct K as [K|K]; [now left|right]. intros I. apply K. now right.
Qed.
Lemma unpack_entry_rels : forall f d e d', unpack_entry f d e = Ok d' -> loaded_rels (d_reg d) -> loaded_rels (d_reg d').
Proof.
  intros f d e d' E K. unfold unpack_entry in E.
  destruct (String.eqb (fst e) RELS_PART); [destruct (read_entry e) as [s|]; [|discriminate]; apply bind_ok in E; destruct E as (g & P & E); injection E as <-; cbn [d_reg set_d_reg]|].
  { split; [apply (parse_rel_xml _ _ _ P); apply Forall_forall; intros r I; exact (proj2 (proj1 K) r I)|exact (proj2 (proj2 (proj2 (proj2 (proj2 (proj2 (parse_rel_same _ _ _ P)))))))]. }
  destruct (String.eqb (fst e) DOC_PART); [destruct (read_entry e) as [s|]; [|discriminate]; unfold parse_doc_part in E; destruct (root _ _ _) as (x, st); destruct st; try discriminate; injection E as <-; exact K|].
  destruct (has_prefix MEDIA_FOLDER (fst e)); [destruct (read_entry e) as [s|]; [|discriminate]; injection E as <-; exact K|]. injection E as <-. exact K.
Qed.
Lemma unpack_loaded : forall f a d, NoDup (map fst a) -> unpack f a = Ok d -> loaded_body f (d_items d) /\ loaded_rels (d_reg d).
Proof.
  intros f a d N E. unfold unpack in E. apply bind_ok in E. destruct E as (d1 & E & E2). injection E2 as <-. split.
  - destruct (unpack_body f a _ d1 N E) as [K|K]; [now left| |exact K]. cbn [d_items set_d_reg] in *. rewrite K. exists "". reflexivity.
  - assert (K : loaded_rels (d_reg d1)); [|exact K]. revert E. match goal with |- unpack_entries f ?x a = _ -> _ => assert (I : loaded_rels (d_reg x)); [|generalize dependent x] end.
    { split; [split; [apply xml_nil|intros r []]|constructor]. }
    clear N. induction a as [|e a IH]; intros x I E; cbn [unpack_entries] in E; [now injection E as <-|]. apply bind_ok in E. destruct E as (d2 & E1 & E).
    apply (IH d2); [|exact E]. eapply unpack_entry_rels; eassumption.
Qed.

(** ** the parts of a written package *)
Lemma other_parts : forall f a d ar, ordinary a -> unpack f a = Ok d -> writes d (Ok ar) ->
  forall n c, n <> RELS_NAME -> n <> DOC_NAME -> (In (n, c) ar <-> In (n, c) a).
Proof.
  intros f a d ar O U W n c NR ND. destruct (unpack_inv f a d U) as (T & M & _ & _ & _ & RD). destruct (written_parts d ar W) as (N & G). rewrite G.
  assert (MN : NoDup (map fst (media (d_reg d)))) by (rewrite M; apply media_entries_nodup; exact (proj1 O)).
  assert (RE : forall k s, In (k, Some s) a -> read_entry (k, Some s) = Some s).
  { intros k s I. unfold read_entry. cbn [fst snd]. destruct (proj2 O _ _ I) as (P & _). now rewrite plain_no_slash. }
  split.
  - intros (s & -> & P). inversion P as [A B|A B|n' y LM A B|n' c' LM F X1 X2 X3 A B]; subst; try contradiction.
    + destruct LM as (l1 & l2 & E & Q & _). subst n'. assert (IN : In y (media (d_reg d))) by (rewrite E; apply in_app_iff; right; now left).
      rewrite M in IN. apply media_entry_in in IN. destruct IN as (c & IN & R). destruct c as [s|]; [|exfalso; exact (proj2 (proj2 (proj2 O _ _ IN)) eq_refl)].
      rewrite RE in R by exact IN. injection R as <-. exact IN.
    + rewrite T in LM, F. cbn [t_list t_fs] in *. unfold tmpl_path in F. cbn [t_name String.eqb] in F. apply filter_In in LM. destruct LM as (LM & _).
      apply in_map_iff in LM. destruct LM as ((k, c) & Q & IN). cbn [fst] in Q. subst k. destruct c as [s'|]; [|exfalso; exact (proj2 (proj2 (proj2 O _ _ IN)) eq_refl)].
      rewrite (zip_open_plain a n s' O IN) in F. injection F as <-. exact IN.
  - intros IN. destruct c as [s|]; [|exfalso; exact (proj2 (proj2 (proj2 O _ _ IN)) eq_refl)]. exists s. split; [reflexivity|].
    destruct (has_prefix MEDIA_FOLDER n) eqn:HP.
    + destruct (has_prefix_drop _ _ HP) as (t & D & E). rewrite E. change MEDIA_FOLDER with "word/media/". change s with (snd (t, s)). apply part_media.
      change t with (fst (t, s)) at 1. apply last_media_in; [exact MN|]. rewrite M. apply in_flat_map. exists (n, Some s). split; [exact IN|].
      unfold media_entry. cbn [fst]. rewrite D, HP, RE by exact IN. now left.
    + apply part_tmpl; try assumption.
      * rewrite T. cbn [t_list]. apply filter_In. split; [apply in_map_iff; exists (n, Some s); split; [reflexivity|exact IN]|].
        unfold is_rest. rewrite HP. destruct (String.eqb_spec n RELS_PART); [contradiction|]. destruct (String.eqb_spec n DOC_PART); [contradiction|]. reflexivity.
      * rewrite T. unfold tmpl_path. cbn [t_name String.eqb t_fs]. now apply zip_open_plain.
      * intros x m E. exfalso. rewrite E in HP. change "word/media/" with MEDIA_FOLDER in HP. rewrite has_prefix_app in HP. discriminate.
Qed.

Lemma largest_fun : forall l m m', largest_id l m -> largest_id l m' -> m = m'.
Proof.
  intros l m m' (A & B) (A' & B').
  assert (X : (m <= m')%N) by (destruct B as [->|(r & I & K)]; [lia|eauto]). assert (Y : (m' <= m)%N) by (destruct B' as [->|(r & I & K)]; [lia|eauto]). lia.
Qed.
Lemma package_cycle : forall f a d r, ordinary a -> unpack f a = Ok d -> writes d r ->
  exists ar d', r = Ok ar /\ unpack f ar = Ok d' /\
    d_items d' = map reflag_item (d_items d) /\
    rels (d_reg d') = rels (d_reg d) /\ relns (d_reg d') = relns (d_reg d) /\ rid (d_reg d') = rid (d_reg d) /\ imgid (d_reg d') = imgid (d_reg d) /\
    Permutation (media (d_reg d')) (media (d_reg d)) /\ (forall n, media_of (d_reg d') n = media_of (d_reg d) n) /\
    (forall n, In n (t_list (d_tmpl d')) <-> In n (t_list (d_tmpl d))) /\
    (forall n c, In n (t_list (d_tmpl d)) -> (t_fs (d_tmpl d') n = FData c <-> t_fs (d_tmpl d) n = FData c)).
Proof.
  intros f a d r O U W. destruct (rewrite_ok f a d r O U W) as (ar & ->). exists ar. destruct (unpack_inv f a d U) as (T & M & MO & _ & IM & _).
  destruct (unpack_loaded f a d (proj1 O) U) as ((s & B) & XR & HN).
  assert (XD : xml_docx d) by (split; [rewrite B; apply loaded_xml|exact XR]).
  assert (MN : NoDup (map fst (media (d_reg d)))) by (rewrite M; apply media_entries_nodup; exact (proj1 O)).
  assert (NM : no_media_tmpl d).
  { intros n I. rewrite T in I. cbn [t_list] in I. apply filter_In in I. destruct I as (_ & I). unfold is_rest in I.
    change "word/media/" with MEDIA_FOLDER. destruct (has_prefix MEDIA_FOLDER n); [|reflexivity]. rewrite !orb_true_r in I. discriminate. }
  assert (PN : plain_names d).
  { split.
    - intros n I. rewrite T in I. cbn [t_list] in I. apply filter_In in I. destruct I as (I & _). apply in_map_iff in I. destruct I as ((k, c) & Q & IN). cbn [fst] in Q. subst k.
      exact (proj1 (proj2 O _ _ IN)).
    - intros m I. rewrite M in I. apply media_entry_in in I. destruct I as (c & IN & _). exact (proj1 (proj2 O _ _ IN)). }
  destruct (write_read f d ar W XD HN MN NM) as (d' & U' & I1 & I2 & I3 & I4 & I5 & I6 & I7 & I8 & I9 & I10). exists d'.
  destruct (unpack_inv f ar d' U') as (T' & M' & MO' & _ & IM' & _).
  split; [reflexivity|]. split; [exact U'|]. split; [rewrite I1, B; apply parsed_reload|]. split; [exact I2|]. split; [exact I3|].
  split; [apply (largest_fun (rels (d_reg d))); [exact I4|apply (unpack_largest f a d U)]|]. split; [congruence|]. split; [exact I5|].
  assert (TL : forall n, In n (t_list (d_tmpl d')) <-> In n (t_list (d_tmpl d))).
  { intros n. rewrite I8. split; [tauto|]. intros K. split; [exact K|]. rewrite T in K. cbn [t_list] in K. apply filter_In in K. destruct K as (_ & K). unfold is_rest in K.
    split; intros ->; discriminate K. }
  split; [|split; [exact TL|]].
  - intros n. rewrite (MO n). destruct (last_named n (media (d_reg d))) as [m|] eqn:E.
    + apply last_named_spec in E. destruct E as (u & v & E & <- & _). apply I6. rewrite E. apply in_app_iff. right. now left.
    + rewrite (MO' n). f_equal. apply last_named_none_iff. apply last_named_none_iff in E. intros I. apply E. apply (Permutation_in _ (Permutation_map fst I5) I).
  - intros n c I. rewrite (I10 PN n c) by (now apply TL). rewrite T. reflexivity.
Qed.

(** ** editing keeps the template *)
Definition tmpl_stays (i : nat) (w w' : world) : Prop := forall d, nth_error w i = Some d -> exists d', nth_error w' i = Some d' /\ d_tmpl d' = d_tmpl d.
Lemma stays_refl : forall i w, tmpl_stays i w w.
Proof. intros i w d E. eauto. Qed.
Lemma stays_trans : forall i a b c, tmpl_stays i a b -> tmpl_stays i b c -> tmpl_stays i a c.
Proof. intros i a b c A B d E. destruct (A d E) as (d1 & E1 & T1). destruct (B d1 E1) as (d2 & E2 & T2). exists d2. split; [exact E2|congruence]. Qed.
Lemma stays_set : forall i k w x y, nth_error w k = Some x -> d_tmpl y = d_tmpl x -> tmpl_stays i w (set_nth w k y).
Proof.
  intros i k w x y E T d I. destruct (Nat.eq_dec k i) as [->|N].
  - exists y. rewrite set_nth_same by (eapply nth_lt; eauto). split; [reflexivity|congruence].
  - exists d. rewrite set_nth_other by auto. auto.
Qed.
Lemma stays_items : forall i w w', same_items w w' -> tmpl_stays i w w'.
Proof.
  intros i w w' S d E. specialize (S i). unfold items_at in S. rewrite E in S. destruct (nth_error w' i) as [d'|]; [|discriminate]. cbn [option_map] in S. injection S as _ S. eauto.
Qed.
Lemma stays_olds : forall i w w', olds (length w) w w' -> tmpl_stays i w w'.
Proof. intros i w w' (_ & O) d E. exists d. split; [|reflexivity]. rewrite O; [exact E|]. eapply nth_lt; eauto. Qed.
Lemma stays_doc : forall i w k g w', on_doc w k g = Ok w' -> (forall d d', g d = Ok d' -> d_tmpl d' = d_tmpl d) -> tmpl_stays i w w'.
Proof.
  intros i w k g w' E G. unfold on_doc in E. destruct (nth_error w k) as [x|] eqn:Q; [|discriminate]. bok E. inversion E; subst. eapply stays_set; eauto.
Qed.
Lemma stays_push : forall i to x w w', copy_push to x w = Ok w' -> tmpl_stays i w w'.
Proof.
  intros i to x w w' E. unfold copy_push in E. bok E. destruct v as [w1 y]. eapply stays_trans; [apply stays_items; eapply copy_item_frame; eauto|].
  unfold push_item in E. destruct (nth_error w1 to) as [d|] eqn:Q; inversion E; subst. eapply stays_set; eauto.
Qed.
Lemma stays_append : forall i to l w w', append_items to l w = Ok w' -> tmpl_stays i w w'.
Proof.
  intros i to. induction l as [|x l IH]; intros w w' E; cbn in E; [inversion E; apply stays_refl|]. bok E. eapply stays_trans; [eapply stays_push; eauto|eauto].
Qed.
Lemma stays_app : forall i w l, tmpl_stays i w (w ++ l)%list.
Proof. intros i w l d E. exists d. split; [|reflexivity]. rewrite nth_error_app1; [exact E|]. eapply nth_lt; eauto. Qed.
Lemma exec_tmpl : forall i o w w', exec o w = Ok w' -> no_template i o -> tmpl_stays i w w'.
Proof.
  intros i o w w' H0 NT. destruct o; cbn in H0.
  - inversion H0; subst; apply stays_app.
  - inversion H0; subst; apply stays_app.
  - destruct (nth_error w d) as [x|]; [|discriminate]. destruct (get_para (d_items x) a); [|discriminate].
    bok H0. destruct v as [w1 p1]. eapply stays_trans; [apply stays_items; eapply exec_pop_items; eauto|].
    eapply stays_doc; eauto. intros ? ? [=]; subst; auto.
  - bok H0. destruct v. inversion H0; subst. apply stays_items. eapply exec_pop_items; eauto.
  - eapply stays_doc; eauto. intros ? ? [=]; subst; auto.
  - eapply stays_doc; eauto. intros x x' E. cbn in E. destruct (get_cell _ _ _ _); inversion E; auto.
  - eapply stays_doc; eauto. intros x x' E. cbn in E. bok E. destruct v. inversion E; subst.
    unfold add_table in E0. destruct (_ <? _)%Z; [discriminate|].
    destruct (_ && _)%bool; [discriminate|]. destruct (use_colors col). inversion E0; auto.
  - eapply stays_doc; eauto. intros x x' [=]; subst. unfold add_table_twips. destruct (use_colors col). auto.
  - eapply stays_doc; eauto. intros x x' E. cbn in E. destruct (nth_error _ _) as [[]|]; try discriminate.
    bok E; inversion E; auto.
  - eapply stays_doc; eauto. intros x x' E. cbn in E. destruct (nth_error (d_items x) _) as [[]|]; try discriminate.
    destruct (nth_error _ _); try discriminate. bok E; inversion E; auto.
  - eapply stays_doc; eauto. intros x x' E. cbn in E. destruct (get_cell _ _ _ _); try discriminate. bok E; inversion E; auto.
  - eapply stays_doc; eauto. intros x x' [=]; subst. destruct a3; auto.
  - unfold on_doc in H0. destruct (nth_error w d) as [x|]; [|discriminate]. inversion H0; subst. intros e E. exists e. cbn in NT. rewrite set_nth_other by auto. auto.
  - eapply stays_doc; eauto. intros x x' [=]; subst. auto.
  - eapply stays_doc; eauto. intros x x' [=]; subst. auto.
  - destruct (nth_error w d); [|discriminate]. unfold append_file in H0. destruct (nth_error w from); [|discriminate]. eapply stays_append; eauto.
  - apply stays_olds. eapply split_olds; eauto.
  - unfold parse in H0. bok H0. inversion H0; subst. apply stays_app.
Qed.
Lemma run_tmpl : forall i l w w', run_ops l w = Some w' -> Forall (no_template i) l -> tmpl_stays i w w'.
Proof.
  intros i. induction l as [|o l IH]; intros w w' R F; cbn in R; [inversion R; apply stays_refl|]. inversion F as [|? ? F1 F2]; subst.
  destruct (exec o w) eqn:E; [|eauto|discriminate]. eapply stays_trans; [eapply exec_tmpl; eauto|eauto].
Qed.

(** files that are not made from the document are written as they were read *)
Lemma edited_parts : forall a w0 w1 l w d ar, ordinary a -> parse a w0 = Ok w1 -> run_ops l w1 = Some w -> Forall (no_template (length w0)) l ->
  nth_error w (length w0) = Some d -> writes d (Ok ar) ->
  forall n c, n <> RELS_NAME -> n <> DOC_NAME -> has_prefix "word/media/" n = false -> (In (n, c) ar <-> In (n, c) a).
Proof.
  intros a w0 w1 l w d ar O P R F N W n c NR ND NM. apply parse_inv in P. destruct P as (d0 & -> & U).
  assert (N0 : nth_error (w0 ++ [d0])%list (length w0) = Some d0) by (rewrite nth_error_app2, Nat.sub_diag by lia; reflexivity).
  destruct (run_tmpl _ _ _ _ R F d0 N0) as (d' & N' & T). rewrite N in N'. injection N' as <-.
  destruct (unpack_inv _ _ _ U) as (T0 & _). rewrite T0 in T. destruct (written_parts d ar W) as (_ & G). rewrite G. split.
  - intros (s & -> & Q). inversion Q as [A B|A B|n' y LM A B|n' c' LM FD X1 X2 X3 A B]; subst; try contradiction.
    + change "word/media/" with MEDIA_FOLDER in NM. rewrite has_prefix_app in NM. discriminate.
    + rewrite T in LM, FD. cbn [t_list t_fs] in *. unfold tmpl_path in FD. cbn [t_name String.eqb] in FD. apply filter_In in LM. destruct LM as (LM & _).
      apply in_map_iff in LM. destruct LM as ((k, c) & Q' & IN). cbn [fst] in Q'. subst k. destruct c as [s'|]; [|exfalso; exact (proj2 (proj2 (proj2 O _ _ IN)) eq_refl)].
      rewrite (zip_open_plain a n s' O IN) in FD. injection FD as <-. exact IN.
  - intros IN. destruct c as [s|]; [|exfalso; exact (proj2 (proj2 (proj2 O _ _ IN)) eq_refl)]. exists s. split; [reflexivity|]. apply part_tmpl; try assumption.
    * rewrite T. cbn [t_list]. apply filter_In. split; [apply in_map_iff; exists (n, Some s); split; [reflexivity|exact IN]|].
      unfold is_rest. change MEDIA_FOLDER with "word/media/". rewrite NM. destruct (String.eqb_spec n RELS_PART); [contradiction|]. destruct (String.eqb_spec n DOC_PART); [contradiction|]. reflexivity.
    * rewrite T. unfold tmpl_path. cbn [t_name String.eqb t_fs]. now apply zip_open_plain.
    * intros x m E. exfalso. rewrite E in NM. change "word/media/" with MEDIA_FOLDER in NM. rewrite has_prefix_app in NM. discriminate.
Qed.
(** and pictures, as long as none has a number above 100000 *)
Lemma edited_media : forall a w0 w1 l w d ar, ordinary a -> parse a w0 = Ok w1 -> run_ops l w1 = Some w ->
  nth_error w (length w0) = Some d -> writes d (Ok ar) ->
  (forall n fmt c, In ("word/media/" ++ picture_name n fmt, c) a -> (n <= 100000)%N) -> (100000 + N.of_nat (length (media (d_reg d))) < two63)%N ->
  forall n c, In ("word/media/" ++ n, c) a -> In ("word/media/" ++ n, c) ar.
Proof.
  intros a w0 w1 l w d ar O P R N W LI B n c IN. pose proof P as P'. apply parse_inv in P'. destruct P' as (d0 & E1 & U).
  assert (N0 : nth_error w1 (length w0) = Some d0) by (rewrite E1, nth_error_app2, Nat.sub_diag by lia; reflexivity).
  destruct (unpack_inv _ _ _ U) as (_ & M & _).
  assert (LM : low_images (media (d_reg d0))).
  { intros m k fmt I E. rewrite M in I. apply media_entry_in in I. destruct I as (c' & I & _). rewrite E in I. eapply LI. exact I. }
  destruct (parsed_media a w0 w1 d0 l w d P N0 R N LM) as (new & EM & K). destruct K as (_ & _ & _ & K); [rewrite EM, app_length in B; lia|].
  destruct (K ar W) as (K1 & _). destruct c as [s|]; [|exfalso; exact (proj2 (proj2 (proj2 O _ _ IN)) eq_refl)].
  change s with (snd (n, s)). apply K1. change n with (fst (n, s)) at 1. apply last_media_in; [rewrite M; apply media_entries_nodup; exact (proj1 O)|].
  rewrite M. apply in_flat_map. exists ("word/media/" ++ n, Some s). split; [exact IN|].
  unfold media_entry. cbn [fst]. change "word/media/" with MEDIA_FOLDER. rewrite has_prefix_app.
  destruct (has_prefix_drop MEDIA_FOLDER (MEDIA_FOLDER ++ n) (has_prefix_app _ _)) as (t & -> & E). apply media_inj in E. subst t.
  unfold read_entry. cbn [fst snd]. rewrite plain_no_slash by exact (proj1 (proj2 O _ _ IN)). now left.
Qed.
End WithLib.
