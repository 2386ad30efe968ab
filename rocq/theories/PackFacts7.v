(** Which parsed documents can be written again. *)
From Coq Require Import String Ascii List Bool Arith NArith ZArith Lia Permutation.
From Verif Require Import GoStr Num Lib Types XmlTok Docx Lex Rels Pack SpecLex SpecNum SpecApi SpecPack SpecClean SpecPath SpecError RegFacts IdFacts LexFacts LexFacts3 CleanFacts2
  PackFacts PackFacts2.
Import ListNotations.
Local Open Scope list_scope.
Local Open Scope string_scope.

Lemma utf8_ok : forall s, valid_utf8_go 0 s = true <-> utf8 s.
Proof.
  intros s. split.
  - remember (String.length s) as n eqn:E. assert (LE : String.length s <= n) by lia. clear E. revert s LE.
    induction n as [|n IH]; intros [|a s] LE V; try (exists []; split; [constructor|reflexivity]); cbn [String.length] in LE; [lia|].
    cbn [valid_utf8_go] in V. destruct (rune_at (String a s)) as [[r k]|] eqn:R; [|discriminate].
    pose proof (rune_is_scalar _ _ _ R) as SC. destruct (rune_inv _ _ _ R) as (s' & E & K & P).
    destruct (encode r) as [|b x] eqn:EN; [cbn in K; lia|]. cbn [append] in E. injection E as -> ->. cbn [String.length] in K. subst k. cbn [Nat.pred] in V.
    rewrite utf8_skip in V by reflexivity. rewrite slength_app in LE. destruct (IH s') as (l & F & ->); [lia|assumption|].
    exists (r :: l). split; [now constructor|]. cbn [map sconcat]. now rewrite EN.
  - intros (l & F & ->). induction F as [|r l C F IH]; [reflexivity|]. cbn [map sconcat].
    pose proof (rune_scalar r (sconcat (map encode l)) C) as R. destruct (encode r) as [|a x] eqn:E.
    { exfalso. revert E. unfold encode. repeat destruct (_ <? _)%N; discriminate. }
    cbn [append] in *. cbn [valid_utf8_go]. rewrite R. cbn [String.length Nat.pred]. now rewrite utf8_skip.
Qed.

(** ** paths *)
Lemma path_split : forall n, path n -> exists l, l <> [] /\ Forall plain_path_elem l /\ split "/" n = l /\ n = join "/" l /\ count "\" n = 0.
Proof.
  intros n (l & NE & F & E & _). exists l. split; [assumption|]. split; [assumption|]. subst n. split; [|split; [reflexivity|]].
  - apply split_join; [assumption|]. eapply Forall_impl; [|exact F]. intros x (_ & _ & _ & C & _). exact C.
  - apply count_join; [discriminate|]. eapply Forall_impl; [|exact F]. intros x (_ & _ & _ & _ & C). exact C.
Qed.
Lemma path_clean : forall n, path n -> to_valid n = n.
Proof.
  intros n P. destruct (path_split n P) as (l & NE & F & S & J & B). unfold to_valid. rewrite unbackslash_id, S by assumption.
  rewrite clean_plain by assumption. cbn [rev app]. destruct l as [|x l]; [congruence|]. rewrite cut_plain by assumption. now rewrite J.
Qed.
Lemma path_no_slash : forall n, path n -> ends_slash n = false.
Proof.
  intros n P. destruct (ends_slash n) eqn:E; [|reflexivity]. exfalso. apply ends_slash_spec in E. destruct E as (t & E).
  destruct (path_split n P) as (l & NE & F & S & J & B). destruct (split_last "/" t) as (I & _). rewrite <- E, S in I.
  rewrite Forall_forall in F. destruct (F _ I) as (Q & _). congruence.
Qed.
Lemma path_valid : forall n, path n -> valid_path n = true /\ String.eqb n "." = false.
Proof.
  intros n P. pose proof P as (l0 & _ & _ & _ & X). destruct (path_split n P) as (l & NE & F & S & J & B). unfold valid_path. rewrite (proj2 (utf8_ok n)) by assumption.
  assert (A : forallb plain_elem (split "/" n) = true).
  { rewrite S. clear - F. induction F as [|x l P F IH]; [reflexivity|]. cbn [forallb]. rewrite IH. unfold plain_elem. destruct (elem_facts x P) as (-> & -> & ->). reflexivity. }
  rewrite A, orb_true_r. split; [reflexivity|]. apply String.eqb_neq. intros ->. cbn in S. subst l. inversion F as [|? ? (_ & Q & _)]; subst. congruence.
Qed.
Lemma split_pieces : forall c s x, In x (split c s) -> count c x = 0.
Proof.
  intros c. induction s as [|a s IH]; intros x I; cbn [split] in I.
  - destruct I as [<-|[]]. reflexivity.
  - destruct (Ascii.eqb a c) eqn:E.
    + destruct I as [<-|I]; [reflexivity|auto].
    + destruct (split c s) as [|h t].
      * destruct I as [<-|[]]. cbn. now rewrite E.
      * destruct I as [<-|I]; [|apply IH; now right]. cbn [count]. rewrite E. apply IH. now left.
Qed.
Lemma split_none : forall c d s x, count d s = 0 -> In x (split c s) -> count d x = 0.
Proof.
  intros c d. induction s as [|a s IH]; intros x Z I; cbn [split] in I.
  - destruct I as [<-|[]]. reflexivity.
  - cbn [count] in Z. destruct (Ascii.eqb a d) eqn:D; [discriminate|]. destruct (Ascii.eqb a c) eqn:E.
    + destruct I as [<-|I]; [reflexivity|auto].
    + destruct (split c s) as [|h t].
      * destruct I as [<-|[]]. cbn. now rewrite D.
      * destruct I as [<-|I]; [|apply IH; [assumption|now right]]. cbn [count]. rewrite D. apply IH; [assumption|now left].
Qed.
Lemma unbackslash_none : forall s, count "\" (unbackslash s) = 0.
Proof. induction s as [|a s IH]; [reflexivity|]. cbn [unbackslash count]. destruct (Ascii.eqb a "\") eqn:E; [exact IH|now rewrite E]. Qed.
Lemma clean_from : forall r l out x, In x (clean_go r out l) -> In x out \/ In x l \/ x = "..".
Proof.
  intros r. induction l as [|y l IH]; intros out x I; cbn [clean_go] in I.
  - left. now apply in_rev.
  - destruct (String.eqb y "" || String.eqb y "."); [destruct (IH _ _ I) as [J|[J|J]]; auto; right; left; now right|].
    destruct (String.eqb y "..").
    + destruct out as [|z out].
      * destruct (IH _ _ I) as [J|[J|J]]; auto; [|right; left; now right]. destruct r; [destruct J|]. destruct J as [<-|[]]. auto.
      * destruct (String.eqb z ".."); destruct (IH _ _ I) as [J|[J|J]]; auto; try (right; left; now right); try (left; now right).
        destruct J as [<-|J]; auto.
    + destruct (IH _ _ I) as [[<-|J]|[J|J]]; auto; right; left; [now left|now right].
Qed.
Lemma cut_from : forall l x, In x (cut_up l) -> In x l.
Proof.
  induction l as [|y l IH]; intros x I; [destruct I|]. cbn [cut_up] in I. destruct l as [|z l]; [exact I|].
  destruct (String.eqb y ".."); [right; now apply IH|exact I].
Qed.
Lemma to_valid_backslash : forall n, count "\" (to_valid n) = 0.
Proof.
  intros n. unfold to_valid.
  assert (K : forall x, In x (clean_go (has_prefix "/" (unbackslash n)) [] (split "/" (unbackslash n))) -> count "\" x = 0).
  { intros x I. destruct (clean_from _ _ _ _ I) as [J|[J| ->]]; [destruct J| |reflexivity]. eapply split_none; [|exact J]. apply unbackslash_none. }
  destruct (clean_go _ _ _) as [|y l]; [now destruct (has_prefix _ _)|]. apply count_join; [discriminate|]. apply Forall_forall. intros x I. apply K. now apply cut_from.
Qed.
Lemma open_inv : forall a n s, zip_open a n = FData s -> path n /\ exists e, In e a /\ to_valid (fst e) = n /\ snd e = Some s.
Proof.
  intros a n s E. unfold zip_open in E. destruct (valid_path n) eqn:V; [|discriminate]. cbn [negb] in E. destruct (String.eqb_spec n ".") as [|ND]; [discriminate|].
  destruct (find (fun e : string * option string => String.eqb (to_valid (fst e)) n) a) as [e|] eqn:F; [|match type of E with (if ?b then _ else _) = _ => destruct b end; discriminate]. apply find_some in F. destruct F as (I & T). apply String.eqb_eq in T.
  destruct (ends_slash (fst e)); [discriminate|]. destruct (snd e) as [x|] eqn:X; [|discriminate]. injection E as ->. split; [|eauto].
  unfold valid_path in V. apply andb_true_iff in V. destruct V as (U & V). apply utf8_ok in U.
  apply orb_true_iff in V. destruct V as [V|V]; [apply String.eqb_eq in V; contradiction|].
  exists (split "/" n). split; [intros SP; pose proof (split_length "/" n) as Q; rewrite SP in Q; discriminate Q|].
  split; [|split; [symmetry; apply join_split|assumption]].
  apply Forall_forall. intros x IX. rewrite forallb_forall in V. specialize (V _ IX). unfold plain_elem in V.
  apply negb_true_iff, orb_false_iff in V. destruct V as (V & V3). apply orb_false_iff in V. destruct V as (V1 & V2).
  apply String.eqb_neq in V1, V2, V3. repeat (split; [assumption|]). split; [eapply split_pieces; exact IX|].
  eapply split_none; [|exact IX]. rewrite <- T. apply to_valid_backslash.
Qed.

Lemma rest_looked : forall n, is_rest n = true <-> ~ looked_at n.
Proof.
  intros n. unfold is_rest. rewrite negb_true_iff. split.
  - intros E [->|[->|[x ->]]]; [discriminate E|discriminate E|]. rewrite (proj2 (has_prefix_spec MEDIA_FOLDER _)) in E by eauto. rewrite orb_true_r in E. discriminate.
  - intros N. destruct (String.eqb_spec n RELS_PART) as [->|]; [elim N; now left|]. destruct (String.eqb_spec n DOC_PART) as [->|]; [elim N; right; now left|].
    destruct (has_prefix MEDIA_FOLDER n) eqn:E; [|reflexivity]. apply has_prefix_spec in E. destruct E as (x & ->). elim N. right. right. eauto.
Qed.
Lemma open_path : forall a n s, NoDup (map fst a) -> (forall m c, In (m, c) a -> path m) -> In (n, Some s) a -> zip_open a n = FData s.
Proof.
  intros a n s N O I. unfold zip_open. pose proof (O _ _ I) as P. destruct (path_valid n P) as (-> & ->). cbn [negb].
  assert (F : find (fun e => String.eqb (to_valid (fst e)) n) a = Some (n, Some s)).
  { clear P. induction a as [|(k, v) a IH]; [destruct I|]. inversion N as [|? ? NI N']; subst. cbn [find fst].
    rewrite (path_clean k) by (apply (O k v); now left). destruct (String.eqb_spec k n) as [->|D].
    - destruct I as [I|I]; [now rewrite I|]. exfalso. apply NI. apply in_map_iff. exists (n, Some s). auto.
    - destruct I as [I|I]; [congruence|]. apply IH; [assumption| |assumption]. intros n' c' I'. apply (O n' c'). now right. }
  rewrite F. cbn [fst snd]. now rewrite path_no_slash.
Qed.

Section A.
Context `{GoLib}.
Lemma written_opens : forall d ar k, writes d (Ok ar) -> In k (t_list (d_tmpl d)) -> is_rest k = true -> exists s, t_fs (d_tmpl d) (tmpl_path (d_tmpl d) k) = FData s.
Proof.
  intros d ar k W I R. unfold writes in W. destruct (pack_files d) as [m| |] eqn:P; try discriminate. destruct W as (o & PM & E).
  symmetry in E. apply write_entries_ok in E. destruct E as (-> & F). destruct (pack_files_get d m P) as (N & G).
  assert (NF : t_fs (d_tmpl d) (tmpl_path (d_tmpl d) k) <> FNone).
  { unfold pack_files in P. apply bind_ok in P. destruct P as (m0 & T & _). destruct (tmpl_files_ok _ _ _ _ T) as (_ & _ & _ & Q); [constructor|auto]. }
  destruct (t_fs (d_tmpl d) (tmpl_path (d_tmpl d) k)) as [|s|] eqn:E; [congruence|eauto|]. exfalso.
  assert (NP : forall s, ~ part_of d k s).
  { rewrite rest_looked in R. intros s Q. inversion Q as [A B|A B|n y LM A B|n c LM FD X1 X2 X3 A B]; subst.
    - apply R. now left.
    - apply R. right. now left.
    - apply R. right. right. eauto.
    - congruence. }
  assert (J : fget k m = Some None) by (apply G; right; auto). apply fget_in in J; [|assumption].
  rewrite Forall_forall in F. specialize (F _ (Permutation_in _ PM J)). unfold write_entry in F. cbn in F. destruct (65535 <? _)%N; discriminate.
Qed.
Lemma rewrite_exactly : forall f a d, NoDup (map fst a) -> (forall n c, In (n, c) a -> (N.of_nat (String.length n) <= 65535)%N) ->
  (forall x c, In ("word/media/" ++ x, c) a -> path ("word/media/" ++ x)) -> unpack f a = Ok d ->
  ((exists ar, writes d (Ok ar)) <-> forall n c, In (n, c) a -> ~ looked_at n -> path n /\ c <> None) /\
  (forall r, writes d r -> (exists ar, r = Ok ar) <-> exists ar, writes d (Ok ar)).
Proof.
  intros f a d ND LE MP U. destruct (unpack_inv f a d U) as (T & M & _ & _ & _ & RD).
  assert (OPN : forall k, In k (t_list (d_tmpl d)) <-> is_rest k = true /\ In k (map fst a)).
  { intros k. rewrite T. cbn [t_list]. rewrite filter_In. tauto. }
  assert (TF : forall k, t_fs (d_tmpl d) (tmpl_path (d_tmpl d) k) = zip_open a k) by (intros k; rewrite T; reflexivity).
  assert (A : (exists ar, writes d (Ok ar)) -> forall n c, In (n, c) a -> ~ looked_at n -> path n /\ c <> None).
  { intros (ar & W).
    assert (OP : forall n c, In (n, c) a -> ~ looked_at n -> exists s, zip_open a n = FData s).
    { intros n c I NL. apply rest_looked in NL. rewrite <- TF. eapply written_opens; eauto. apply OPN. split; [assumption|]. apply in_map_iff. exists (n, c). auto. }
    intros n c I NL. destruct (OP n c I NL) as (s & E). destruct (open_inv _ _ _ E) as (P & (n', c') & I' & TV & S). split; [assumption|]. cbn [fst snd] in *. subst c'.
    assert (n' = n).
    { destruct (is_rest n') eqn:R.
      - apply rest_looked in R. destruct (OP n' _ I' R) as (s' & E'). apply open_inv in E'. rewrite path_clean in TV by apply E'. exact TV.
      - exfalso. assert (Q : to_valid n' = n').
        { unfold is_rest in R. apply negb_false_iff in R. apply orb_true_iff in R. destruct R as [R|R].
          - apply orb_true_iff in R. destruct R as [R|R]; apply String.eqb_eq in R; subst n'; reflexivity.
          - apply has_prefix_spec in R. destruct R as (x & ->). apply path_clean. eapply MP. exact I'. }
        rewrite Q in TV. subst n'. apply rest_looked in NL. congruence. }
    subst n'. intros ->. assert (X := proj1 (fget_in n None a ND) I). assert (Y := proj1 (fget_in n (Some s) a ND) I'). congruence. }
  assert (B : (forall n c, In (n, c) a -> ~ looked_at n -> path n /\ c <> None) -> forall r, writes d r -> exists ar, r = Ok ar).
  { intros K r W.
    assert (AP : forall n c, In (n, c) a -> path n).
    { intros n c I. destruct (is_rest n) eqn:R; [apply rest_looked in R; now apply (K n c)|].
      unfold is_rest in R. apply negb_false_iff in R. apply orb_true_iff in R. destruct R as [R|R].
      - apply orb_true_iff in R. destruct R as [R|R]; apply String.eqb_eq in R; subst n.
        + exists ["word"; "_rels"; "document.xml.rels"]. split; [discriminate|]. split; [repeat constructor; try discriminate|]. split; [reflexivity|]. apply utf8_ok. reflexivity.
        + exists ["word"; "document.xml"]. split; [discriminate|]. split; [repeat constructor; try discriminate|]. split; [reflexivity|]. apply utf8_ok. reflexivity.
      - apply has_prefix_spec in R. destruct R as (x & ->). eapply MP. exact I. }
    assert (TD : forall k, In k (t_list (d_tmpl d)) -> exists s, t_fs (d_tmpl d) (tmpl_path (d_tmpl d) k) = FData s).
    { intros k I. apply OPN in I. destruct I as (R & I). apply in_map_iff in I. destruct I as ((k', c) & E & I). cbn in E. subst k'. rewrite TF.
      destruct (K k c I) as (_ & NN); [now apply rest_looked|]. destruct c as [s|]; [|congruence]. exists s. apply open_path; auto. }
    assert (X : exists m, pack_files d = Ok m).
    { unfold pack_files. destruct (tmpl_files_total _ _ [] TD) as (m & ->). cbn [bind]. eauto. }
    destruct X as (m & P). unfold writes in W. rewrite P in W. destruct W as (o & PM & ->).
    destruct (pack_files_get d m P) as (N & G). exists o. apply write_entries_all. apply Forall_forall. intros (k, v) I.
    assert (J : fget k m = Some v) by (apply fget_in; [assumption|]; eapply Permutation_in; [apply Permutation_sym; exact PM|exact I]).
    apply G in J. destruct J as [(s & -> & PT)|(-> & J & F & _)]; [|destruct (TD k J) as (s & E); congruence].
    assert (Q : (N.of_nat (String.length k) <= 65535)%N /\ ends_slash k = false).
    { inversion PT as [A1 B1|A1 B1|n y LM A1 B1|n c LM F X1 X2 X3 A1 B1]; subst.
      - split; [vm_compute; discriminate|reflexivity].
      - split; [vm_compute; discriminate|reflexivity].
      - destruct LM as (l1 & l2 & E & Q & _). assert (IN : In y (media (d_reg d))) by (rewrite E; apply in_app_iff; right; now left).
        rewrite M in IN. apply media_entry_in in IN. destruct IN as (c & IN & _). rewrite Q in IN.
        split; [exact (LE _ _ IN)|]. exact (path_no_slash _ (AP _ _ IN)).
      - apply OPN in LM. destruct LM as (_ & LM). apply in_map_iff in LM. destruct LM as ((k', c') & E & IN). cbn in E. subst k'.
        split; [exact (LE _ _ IN)|exact (path_no_slash _ (AP _ _ IN))]. }
    destruct Q as (Q1 & Q2). unfold write_entry. cbn [fst snd]. rewrite Q2. cbn [andb]. now rewrite (proj2 (N.ltb_ge _ _)). }
  assert (C : (forall n c, In (n, c) a -> ~ looked_at n -> path n /\ c <> None) -> exists ar, writes d (Ok ar)).
  { intros K. assert (W : exists r, writes d r).
    { unfold writes. destruct (pack_files d) as [m|e|]; [|eauto|eauto]. exists (write_entries m). exists m. split; [apply Permutation_refl|reflexivity]. }
    destruct W as (r & W). destruct (B K r W) as (ar & ->). eauto. }
  split; [split; auto|]. intros r W. split; [intros (ar & ->); eauto|]. intros X. apply (B (A X) r W).
Qed.
End A.
