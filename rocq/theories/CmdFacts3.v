(** What the program prints, and when it comes to its end. *)
From Coq Require Import String Ascii List Bool Arith NArith ZArith Lia Permutation.
From Verif Require Import GoStr Num Lib Types Docx Api Keep Copy Text Pack Theme History SpecApi SpecEdit SpecCopy SpecPack SpecReopen SpecCmd Cmd
  PackFacts CopyFacts CopyFacts2 HistInv ReopenFacts HomeFacts Reload IdFacts ReopenFacts2 CmdFacts CmdFacts2.
Import ListNotations.
Local Open Scope list_scope.
Local Open Scope string_scope.

Section Tool.
Context `{GoLib}.
Variable x : assets.
Variable sys : system.
Variable fl : flags.

Definition kept (d : docx) : list item := if fl_clean fl then drop_drawing_of "NilPicture" (d_items d) else d_items d.
Lemma shown_left : forall d l' ls, left_of fl (drop_drawing_of "NilPicture") (d_items d) l' -> (shown [set_d_items l' d] l' ls <-> shown [d] (kept d) ls).
Proof.
  intros d l' ls (m & -> & E). fold (kept d) in E. apply shown_ext.
  - intros [[|[|i]]|]; destruct d; reflexivity.
  - destruct (fl_droppp fl).
    + clear -E. induction E; constructor; auto.
    + rewrite E. apply f2_same. auto.
Qed.
Lemma printed_lines : forall a es u, tool x sys fl a = (es, Some u) ->
  exists d ls, unpack 0 a = Ok d /\ shown [d] (kept d) ls /\ lines es = ("Plain text:" :: ls ++ ["End of main"])%list.
Proof.
  intros a es u E. destruct (finished _ _ _ _ _ _ E) as (d & l' & ls & eu & esp & w3 & ed & U & Lf & Eu & Sh & Es & Ed & ->).
  exists d, ls. split; [assumption|]. split; [now apply (shown_left d l')|].
  destruct (stands_some (fl_loc fl)) as (dir & base & S). destruct (unm_done _ _ _ _ _ _ S Eu) as (_ & _ & Lu & _).
  assert (Ls : lines esp = []) by (destruct (split_done _ _ _ _ _ _ _ S Es) as [(_ & -> & _)|(re & ps & ds & stem & ext & _ & _ & _ & _ & _ & _ & _ & Li & _)]; [reflexivity|exact Li]).
  assert (N3 : exists d1, nth_error w3 0 = Some d1) by (destruct (split_done _ _ _ _ _ _ _ S Es) as [(_ & _ & ->)|(re & ps & ds & stem & ext & _ & _ & -> & _)]; cbn; eauto).
  destruct N3 as (d1 & N3).
  assert (Ld : lines ed = []) by (destruct (dup_done _ _ _ _ _ _ _ _ S N3 Ed) as [(_ & ->)|(dn & new & _ & -> & _)]; reflexivity).
  rewrite !lines_app, Lu, Ls, Ld. cbn [lines flat_map app]. assert (Lp : forall l, lines (map EPrint l) = l) by (induction l as [|y l IH]; cbn; [reflexivity|]; now f_equal). fold (lines (map EPrint ls)). now rewrite Lp.
Qed.

(** any run *)
Lemma made_in : forall n es, In n (made es) <-> In (ECreate n) es.
Proof.
  intros n es. unfold made. rewrite in_flat_map. split.
  - intros ([s|m|m d] & I & J); cbn in J; intuition. now subst.
  - intros I. exists (ECreate n). cbn. auto.
Qed.
Lemma save_in : forall m d n, In (ECreate n) (fst (save sys m d)) -> n = m.
Proof.
  intros m d n I. unfold save in I. apply seqp_in in I as [I|([] & _ & I)]; unfold create, fill in I.
  - destruct (sys_create sys m); cbn in I; intuition congruence.
  - destruct (_ && _)%bool; cbn in I; intuition congruence.
Qed.
Lemma all_names : forall a n dir base, stands (fl_loc fl) dir base -> In n (made (fst (tool x sys fl a))) ->
  (fl_unm fl = true /\ n = dir ++ "unmarshal_" ++ base) \/
  (fl_split fl <> None /\ exists stem ext k, dotted base stem ext /\ n = part_name dir stem ext k) \/
  ((1 < fl_dup fl)%N /\ n = dup_at (fl_loc fl) dir base).
Proof.
  intros a n dir base S I. apply made_in in I. unfold tool in I.
  apply seqp_in in I as [I|(w0 & _ & I)]; [now apply lift_in in I|]. apply seqp_in in I as [I|(w1 & _ & I)]; [now rewrite quiet_clean in I|].
  apply seqp_in in I as [I|(w2 & _ & I)]; [now rewrite quiet_bare in I|].
  apply seqp_in in I as [I|([] & _ & I)].
  { left. unfold unm_step in I. destruct (fl_unm fl); [|destruct I]. split; [reflexivity|]. rewrite (unm_named _ _ _ S) in I. apply seqp_in in I as [I|(m & E & I)]; [destruct I|]. cbn in E. injection E as <-.
    apply seqp_in in I as [I|(d & _ & I)]; [unfold doc_of in I; destruct (nth_error w2 0); destruct I|]. now apply save_in in I. }
  apply seqp_in in I as [I|([] & _ & I)].
  { exfalso. unfold print_step in I. apply seqp_in in I as [I|([] & _ & I)]; [cbn in I; intuition discriminate|]. apply seqp_in in I as [I|(d & _ & I)]; [unfold doc_of in I; destruct (nth_error w2 0); destruct I|].
    apply each_in in I as (i & _ & I). destruct i as [p|t|s]; cbn [print_item] in I; [| |destruct I]; apply seqp_in in I as [I|(s & _ & I)]; try (now apply lift_in in I); cbn in I; intuition discriminate. }
  apply seqp_in in I as [I|(w3 & _ & I)].
  { right. left. unfold split_step in I. destruct (fl_split fl) as [[re|]|]; [|destruct I|destruct I]. split; [discriminate|].
    apply seqp_in in I as [I|(w' & _ & I)]; [now apply lift_in in I|]. apply seqp_in in I as [I|(w'' & _ & I)]; [|destruct I]. apply each_in in I as ((k, d) & _ & I). unfold part_step in I. cbn [fst snd] in I.
    destruct (dot_or_not base) as [U|(stem & ext & D)]; [rewrite (split_unnamed _ _ _ _ S U) in I; destruct I|]. rewrite (split_named _ _ _ _ _ _ S D) in I.
    apply seqp_in in I as [I|(m & E & I)]; [destruct I|]. cbn in E. injection E as <-. apply save_in in I. exists stem, ext, k. auto. }
  apply seqp_in in I as [I|([] & _ & I)].
  { right. right. unfold dup_step in I. destruct (1 <? fl_dup fl)%N eqn:Q; [|destruct I]. apply N.ltb_lt in Q. split; [assumption|]. rewrite (dup_named _ _ _ S) in I. fold (dup_at (fl_loc fl) dir base) in I.
    apply seqp_in in I as [I|(m & E & I)]; [destruct I|]. cbn in E. injection E as <-. apply seqp_in in I as [I|([] & _ & I)].
    - unfold create in I. destruct (sys_create _ _); cbn in I; intuition congruence.
    - apply seqp_in in I as [I|(w' & _ & I)]; [now apply lift_in in I|]. destruct (nth_error w' (length w3)); [|destruct I]. unfold fill in I. destruct (_ && _)%bool; cbn in I; intuition congruence. }
  cbn in I. intuition discriminate.
Qed.
Lemma longer : forall a n, In n (made (fst (tool x sys fl a))) -> String.length (fl_loc fl) < String.length n.
Proof.
  intros a n I. destruct (stands_some (fl_loc fl)) as (dir & base & S). destruct (all_names _ _ _ _ S I) as [(_ & ->)|[(_ & stem & ext & k & (-> & _) & ->)|(_ & ->)]].
  - destruct S as (-> & _). rewrite !slength_app. cbn. lia.
  - destruct S as (-> & _). unfold part_name. rewrite !slength_app. cbn [String.length]. rewrite ?slength_app. cbn. lia.
  - unfold dup_at. destruct (2 <=? _)%nat; [destruct S as (-> & _)|]; rewrite ?slength_app; cbn; rewrite ?slength_app; cbn; lia.
Qed.

Lemma fails : forall a, (forall es, tool x sys fl a <> (es, Some tt)) -> snd (tool x sys fl a) = None.
Proof. intros a E. destruct (tool x sys fl a) as (es, [[]|]); [|reflexivity]. now destruct (E es). Qed.
Lemma undotted : forall a d dir base re, stands (fl_loc fl) dir base -> count "." base = 0 -> fl_split fl = Some re -> unpack 0 a = Ok d -> d_items d <> [] -> snd (tool x sys fl a) = None.
Proof.
  intros a d dir base re S C F U NE. apply fails. intros es E. destruct (files _ _ _ _ _ _ _ _ S E) as (d0 & l' & parts & copies & stem & ext & U0 & (m & -> & Lf) & _ & _ & _ & D & P & _).
  rewrite U in U0. injection U0 as <-. unfold split_into in P. rewrite F in P. destruct re as [re|]; [|exact P]. destruct P as (ps & (PC & _) & Ln & _).
  destruct parts as [|p parts].
  - destruct ps; [|discriminate]. cbn in PC. subst l'. apply NE.
    assert (M : (if fl_clean fl then drop_drawing_of "NilPicture" (d_items d) else d_items d) = []) by (destruct (fl_droppp fl); [now inversion Lf|congruence]).
    destruct (fl_clean fl); [|assumption]. unfold drop_drawing_of in M. now apply map_eq_nil in M.
  - destruct D as (-> & _); [discriminate|]. rewrite !count_app in C. cbn in C. lia.
Qed.
Lemma uncopied : forall a dir base, stands (fl_loc fl) dir base -> 2 <= String.length dir -> (1 < fl_dup fl)%N -> sys_create sys (dir ++ "dup_/" ++ base) = false -> snd (tool x sys fl a) = None.
Proof.
  intros a dir base S L2 Q NC. apply fails. intros es E. destruct (finished _ _ _ _ _ _ E) as (d & l' & ls & eu & esp & w3 & ed & U & Lf & Eu & Sh & Es & Ed & ->).
  unfold dup_step in Ed. rewrite (proj2 (N.ltb_lt _ _) Q), (dup_named _ _ _ S), (proj2 (Nat.leb_le _ _) L2) in Ed. unfold create in Ed. cbn [lift ret seqp fst snd] in Ed. rewrite NC in Ed. discriminate.
Qed.

(** without -s and -d *)
Lemma bared_unique : forall y z, bared y z -> z = bare_item y.
Proof.
  assert (P : forall p q, bared_para p q -> q = bare_para p) by (intros [[a b c]] [[a' b' c']] (A & B & C); cbn in *; subst; reflexivity).
  assert (F : forall A (R : A -> A -> Prop) f, (forall p q, R p q -> q = f p) -> forall l l', Forall2 R l l' -> l' = map f l) by (intros A R f E l l' G; induction G as [|a b l l' G1 G2 IH]; cbn; [reflexivity|]; rewrite IH; f_equal; auto).
  assert (C : forall p q, bared_cell p q -> q = bare_cell p) by (intros [a b c] [a' b' c'] (A & B & G); unfold bare_cell; cbn in *; subst; f_equal; eapply F; eauto).
  assert (R : forall p q, bared_row p q -> q = bare_row p) by (intros [a b] [a' b'] (A & G); unfold bare_row; cbn in *; subst; f_equal; eapply F; eauto).
  intros [p|[a b c]|s] [q|[a' b' c']|r]; cbn; try tauto; [intros E; f_equal; auto| |congruence].
  intros (A & B & G). unfold bare_table. cbn. subst. do 2 f_equal. eapply F; eauto.
Qed.
Lemma plain_run : forall a dir base, stands (fl_loc fl) dir base -> fl_split fl = None -> (fl_dup fl <= 1)%N ->
  (snd (tool x sys fl a) = Some tt <->
   exists d l' ls, unpack 0 a = Ok d /\ left_of fl (drop_drawing_of "NilPicture") (d_items d) l' /\ shown [d] (kept d) ls /\
     (fl_unm fl = true -> sys_create sys (dir ++ "unmarshal_" ++ base) = true /\ sys_write sys (dir ++ "unmarshal_" ++ base) = true /\ exists ar, writes (set_d_items l' d) (Ok ar))).
Proof.
  intros a dir base S F Q. split.
  - intros E. destruct (tool x sys fl a) as (es, r) eqn:T. cbn in E. subst r. destruct (finished _ _ _ _ _ _ T) as (d & l' & ls & eu & esp & w3 & ed & U & Lf & Eu & Sh & _).
    exists d, l', ls. split; [assumption|]. split; [assumption|]. split; [now apply (shown_left d l')|]. intros V. unfold unm_step in Eu. rewrite V, (unm_named _ _ _ S) in Eu.
    cbn [lift seqp ret fst snd app doc_of nth_error] in Eu. rewrite <- surjective_pairing in Eu. apply save_done in Eu as (_ & A & B & C). rewrite <- packs_writes. auto.
  - intros (d & l' & ls & U & Lf & Sh & V). rewrite <- (shown_left d l') in Sh by assumption. unfold tool.
    assert (W0 : lift (parse a []) = ([], Some [d])) by (unfold parse; cbn [length]; rewrite U; reflexivity). rewrite (seqp_some _ _ _ _ _ _ W0).
    assert (W1 : clean_step fl [d] = ([], Some [set_d_items (kept d) d])) by (unfold clean_step, kept; destruct (fl_clean fl); [reflexivity|destruct d; reflexivity]). rewrite (seqp_some _ _ _ _ _ _ W1).
    assert (W2 : bare_step fl [set_d_items (kept d) d] = ([], Some [set_d_items l' d])).
    { destruct Lf as (m & -> & Lf). fold (kept d) in Lf. unfold bare_step. destruct (fl_droppp fl).
      - replace l' with (map bare_item (kept d)); [destruct d; reflexivity|]. symmetry. revert Lf. generalize (kept d). clear. intros l F. induction F as [|y z l k E F IH]; cbn; [reflexivity|]. now rewrite <- IH, (bared_unique _ _ E).
      - rewrite Lf. reflexivity. }
    rewrite (seqp_some _ _ _ _ _ _ W2).
    assert (W3 : exists e, unm_step sys fl [set_d_items l' d] = (e, Some tt)).
    { unfold unm_step. destruct (fl_unm fl); [|eexists; reflexivity]. destruct V as (A & B & C); [reflexivity|]. rewrite (unm_named _ _ _ S). apply packs_writes in C.
      cbn [lift seqp ret fst snd app doc_of nth_error]. rewrite (save_ok sys _ _ A B C). eexists. reflexivity. }
    destruct W3 as (e3 & W3). rewrite (seqp_some _ _ _ _ _ _ W3).
    assert (W4 : exists e, print_step [set_d_items l' d] = (e, Some tt)).
    { unfold print_step. cbn [emit seqp fst snd doc_of nth_error ret app]. replace (d_items (set_d_items l' d)) with l' by now destruct d. rewrite (printable _ _ _ Sh). eexists. reflexivity. }
    destruct W4 as (e4 & W4). rewrite (seqp_some _ _ _ _ _ _ W4). unfold split_step, dup_step. rewrite F, (proj2 (N.ltb_ge _ _) Q). reflexivity.
Qed.

(** no two files have the same name *)
Lemma sapp_tail : forall c a b : string, a ++ c = b ++ c -> a = b.
Proof.
  intros c a. induction a as [|x0 a IH]; intros [|y b] E; cbn in E; auto.
  - apply (f_equal String.length) in E. cbn in E. rewrite slength_app in E. lia.
  - apply (f_equal String.length) in E. cbn in E. rewrite slength_app in E. lia.
  - injection E as -> E. f_equal. auto.
Qed.
Lemma apart_names : forall loc dir base stem ext k, stands loc dir base -> dotted base stem ext ->
  dir ++ "unmarshal_" ++ base <> part_name dir stem ext k.
Proof. intros loc dir base stem ext k _ (-> & _) E. unfold part_name in E. apply sapp_inv_head in E. apply sapp_inv_head in E. apply sapp_inv_head in E. discriminate. Qed.
Lemma apart_parts : forall dir stem ext j k, part_name dir stem ext j = part_name dir stem ext k -> j = k.
Proof.
  intros dir stem ext j k E. unfold part_name in E. do 4 apply sapp_inv_head in E. apply sapp_tail in E. apply itoa_inj in E. lia.
Qed.
Lemma apart_dup : forall loc dir base r, stands loc dir base -> dup_at loc dir base <> dir ++ "unmarshal_" ++ r.
Proof.
  intros loc dir base r S E. unfold dup_at in E. destruct (2 <=? String.length dir)%nat eqn:D.
  - apply sapp_inv_head in E. discriminate.
  - apply Nat.leb_gt in D. destruct S as (-> & [->|(d & ->)] & _); [discriminate|]. rewrite slength_app in D. cbn in D. destruct d; [|cbn in D; lia]. discriminate.
Qed.
Lemma distinct : forall a es u, tool x sys fl a = (es, Some u) -> NoDup (made es).
Proof.
  intros a es u E. destruct (stands_some (fl_loc fl)) as (dir & base & S). destruct (files _ _ _ _ _ _ _ _ S E) as (d & l' & parts & copies & stem & ext & _ & _ & W & M & _ & D & _ & C).
  rewrite M, W, !map_app. assert (Q : forall A (f : nat -> A) (l : list docx) j, map fst (combine (map f (seq j (length l))) l) = map f (seq j (length l))) by (clear; induction l as [|y l IH]; intros j; cbn; [reflexivity|]; now rewrite IH).
  rewrite Q. assert (Cp : copies = [] \/ exists c, copies = [c]) by (unfold copied_into in C; destruct (1 <? _)%N; [right; destruct C as (c & new & -> & _); eauto|auto]).
  assert (NP : NoDup (map (part_name dir stem ext) (seq 0 (length parts)))).
  { assert (G : forall l, NoDup l -> NoDup (map (part_name dir stem ext) l)); [|apply G, seq_NoDup]. intros l Hl. induction Hl as [|k l A B IH]; cbn; constructor; auto. intros I. apply in_map_iff in I as (j & J & I). apply apart_parts in J. congruence. }
  assert (UN : forall n, In n (map (part_name dir stem ext) (seq 0 (length parts))) -> n <> dir ++ "unmarshal_" ++ base /\ n <> dup_at (fl_loc fl) dir base).
  { intros n I. assert (DD : dotted base stem ext) by (apply D; intros ->; destruct I). apply in_map_iff in I as (k & <- & _). split; intros J.
    - symmetry in J. exact (apart_names _ _ _ _ _ k S DD J).
    - symmetry in J. unfold part_name in J. exact (apart_dup _ _ _ _ S J). }
  assert (ND : NoDup (map (part_name dir stem ext) (seq 0 (length parts)) ++ map fst (map (pair (dup_at (fl_loc fl) dir base)) copies))).
  { destruct Cp as [->|(c & ->)]; cbn [map fst]; [now rewrite app_nil_r|]. apply NoDup_rev in NP. rewrite <- (rev_involutive (map _ _ ++ _)). apply NoDup_rev. rewrite rev_app_distr. cbn. constructor; [|assumption].
    rewrite <- in_rev. intros I. now destruct (UN _ I). }
  destruct (fl_unm fl); [|exact ND]. cbn [map fst app]. constructor; [|exact ND]. intros I. apply in_app_iff in I as [I|I]; [now destruct (UN _ I)|].
  destruct Cp as [->|(c & ->)]; cbn in I; [destruct I|]. destruct I as [I|[]]. exact (apart_dup _ _ _ _ S I).
Qed.
End Tool.

Section Again.
Context `{GoLib}.
Lemma shown_unique : forall w l a b, shown w l a -> shown w l b -> a = b.
Proof. intros w l a b S. revert b. induction S; intros b T; inversion T; subst; try reflexivity; [f_equal; [congruence|auto]|f_equal; [congruence|auto]|auto]. Qed.
Lemma again : forall x sys fl a es u dir base d d1 ar, stands (fl_loc fl) dir base -> tool x sys fl a = (es, Some u) -> fl_droppp fl = false -> legal_call (OParse a) ->
  unpack 0 a = Ok d -> (N.of_nat (length (rels (d_reg d))) < 2 ^ 62)%N -> no_media_tmpl d -> In (dir ++ "unmarshal_" ++ base, d1) (written es) -> writes d1 (Ok ar) ->
  forall sys2 fl2, fl_clean fl2 = false -> fl_unm fl2 = false -> fl_split fl2 = None -> (fl_dup fl2 <= 1)%N ->
  exists es2, tool x sys2 fl2 ar = (es2, Some tt) /\ lines es2 = lines es.
Proof.
  intros x sys fl a es u dir base d d1 ar S E DP Lg U B NM I W sys2 fl2 C2 U2 S2 D2.
  pose proof (distinct _ _ _ _ _ _ E) as ND. destruct (printed_lines _ _ _ _ _ _ E) as (d' & ls & U' & Sh & Li). rewrite U in U'. injection U' as <-.
  destruct (files _ _ _ _ _ _ _ _ S E) as (d0 & l' & parts & copies & stem & ext & U0 & Lf & Wr & M & _ & D & _ & C). rewrite U in U0. injection U0 as <-.
  assert (FU : fl_unm fl = true).
  { destruct (fl_unm fl) eqn:Q; [reflexivity|exfalso]. cbn [app] in Wr. rewrite Wr in I. apply in_app_iff in I as [I|I].
    - assert (DD : dotted base stem ext) by (apply D; intros ->; destruct I). apply in_combine_l in I. apply in_map_iff in I as (k & J & _). symmetry in J. exact (apart_names _ _ _ _ _ k S DD J).
    - apply in_map_iff in I as (c & J & _). injection J as J _. exact (apart_dup _ _ _ _ S J). }
  assert (D1 : d1 = set_d_items l' d).
  { rewrite FU in Wr. rewrite M in ND. rewrite Wr in I, ND. cbn [app map fst] in *. destruct I as [I|I]; [congruence|]. exfalso. inversion ND as [|? ? NI _]; subst. apply NI. apply in_map_iff. exists ((dir ++ "unmarshal_" ++ base)%string, d1). auto. }
  subst d1. assert (Kp : l' = kept fl d) by (destruct Lf as (m & -> & Lf); rewrite DP in Lf; exact Lf).
  set (l := OParse a :: (if fl_clean fl then [ODropAll 0 "NilPicture"] else [])).
  assert (R : run_ops l [] = Some [set_d_items l' d]).
  { subst l. cbn [run_ops exec]. unfold parse. cbn [length]. rewrite U. cbn [bind app]. rewrite Kp. unfold kept. destruct (fl_clean fl); destruct d; reflexivity. }
  assert (FL : Forall legal_call l).
  { subst l. constructor; [exact Lg|]. destruct (fl_clean fl); constructor; auto. split; [|exact Logic.I]. cbn. repeat constructor. }
  assert (B' : (N.of_nat (length (rels (d_reg (set_d_items l' d)))) < 2 ^ 62)%N) by (destruct d; exact B).
  assert (NM' : no_media_tmpl (set_d_items l' d)) by (destruct d; exact NM).
  destruct (reopen l _ 0 _ ar 0 FL R eq_refl B' NM' W) as (d2 & V & It & RE & _ & _ & Me).
  assert (HM : home [set_d_items l' d]) by (eapply run_home; [exact R|eapply Forall_impl; [|exact FL]; apply legal_home|intros k y K; destruct k; discriminate]).
  pose proof (history_media l _ 0 _ R eq_refl) as MO.
  assert (Med : forall n m, media_of (d_reg (set_d_items l' d)) n = Ok (Some m) -> media_of (d_reg d2) n = Ok (Some m)).
  { intros n m K. rewrite (MO n) in K. injection K as K. apply last_named_some in K. destruct K as (K & <-). now apply Me. }
  assert (I1 : d_items (set_d_items l' d) = l') by now destruct d.
  assert (Sh1 : shown [set_d_items l' d] l' ls) by (apply (shown_left fl); auto).
  assert (Sh2 : shown [d2] (d_items d2) ls).
  { rewrite It, I1. pose proof (HM 0 _ eq_refl) as HI. rewrite I1 in HI.
    assert (G : forall k ks, Forall (home_item 0) k -> shown [set_d_items l' d] k ks -> shown [d2] (map (reload_item (Some 0)) k) ks); [|now apply G].
    intros k ks Hk Sk. induction Sk as [|p s k ks X Sk IH|t s k ks X Sk IH|y k ks Sk IH]; inversion Hk; subst; cbn [map reload_item]; constructor; auto.
    - eapply (para_same [set_d_items (kept fl d) d] [d2] 0 0 _ d2 eq_refl eq_refl RE Med); eauto.
    - eapply (table_same [set_d_items (kept fl d) d] [d2] 0 0 _ d2 eq_refl eq_refl RE Med); eauto. }
  destruct (stands_some (fl_loc fl2)) as (dir2 & base2 & St2).
  assert (Fin : snd (tool x sys2 fl2 ar) = Some tt).
  { apply (plain_run _ _ _ _ _ _ St2 S2 D2). exists d2, (if fl_droppp fl2 then map bare_item (d_items d2) else d_items d2), ls. split; [assumption|]. split.
    - exists (d_items d2). rewrite C2. split; [reflexivity|]. destruct (fl_droppp fl2); [apply bare_all|reflexivity].
    - split; [unfold kept; now rewrite C2|]. rewrite U2. discriminate. }
  destruct (tool x sys2 fl2 ar) as (es2, r) eqn:T. cbn in Fin. subst r. exists es2. split; [reflexivity|].
  destruct (printed_lines _ _ _ _ _ _ T) as (d3 & ls3 & V3 & Sh3 & Li3). rewrite V in V3. injection V3 as <-. unfold kept in Sh3. rewrite C2 in Sh3. rewrite (shown_unique _ _ _ _ Sh2 Sh3) in Li. congruence.
Qed.
End Again.
