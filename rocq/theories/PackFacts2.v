(** What Parse makes of a package. *)
From Coq Require Import String Ascii List Bool Arith NArith ZArith Lia Permutation.
From Verif Require Import GoStr Num Lib Types XmlTok Marshal Unmarshal Docx Lex Rels Pack SpecLex SpecNum SpecApi SpecPack RegFacts IdFacts ApiFacts LexFacts RelsFacts PackFacts.
Import ListNotations.
Local Open Scope list_scope.
Local Open Scope string_scope.

(** ** paths *)
Lemma split_one : forall c x, count c x = 0 -> split c x = [x].
Proof.
  intros c. induction x as [|a x IH]; intros H; [reflexivity|]. cbn [count] in H. cbn [split].
  destruct (Ascii.eqb a c); [discriminate H|]. now rewrite IH.
Qed.
Lemma split_app_sep : forall c x s, count c x = 0 -> split c (x ++ String c s) = x :: split c s.
Proof.
  intros c. induction x as [|a x IH]; intros s H; cbn [append split]; [now rewrite Ascii.eqb_refl|].
  cbn [count] in H. destruct (Ascii.eqb a c); [discriminate H|]. now rewrite IH.
Qed.
Lemma split_join : forall c l, l <> [] -> Forall (fun x => count c x = 0) l -> split c (join (String c "") l) = l.
Proof.
  intros c. induction l as [|x l IH]; intros N F; [congruence|]. inversion F; subst.
  destruct l as [|y l]; [now apply split_one|]. change (join (String c "") (x :: y :: l)) with (x ++ String c (join (String c "") (y :: l))). rewrite split_app_sep by assumption. f_equal. apply IH; [discriminate|assumption].
Qed.
Lemma count_join : forall c d l, d <> c -> Forall (fun x => count c x = 0) l -> count c (join (String d "") l) = 0.
Proof.
  intros c d l D. induction l as [|x l IH]; intros F; [reflexivity|]. inversion F; subst.
  destruct l as [|y l]; [assumption|]. change (join (String d "") (x :: y :: l)) with (x ++ String d (join (String d "") (y :: l))).
  rewrite count_app. cbn [count]. destruct (Ascii.eqb_spec d c); [contradiction|]. rewrite IH by assumption. lia.
Qed.
Lemma unbackslash_id : forall s, count "\" s = 0 -> unbackslash s = s.
Proof.
  induction s as [|a s IH]; intros H; [reflexivity|]. cbn [count] in H. cbn [unbackslash]. destruct (Ascii.eqb a "\"); [discriminate H|]. now rewrite IH.
Qed.
Lemma elem_facts : forall x, plain_path_elem x -> String.eqb x "" = false /\ String.eqb x "." = false /\ String.eqb x ".." = false.
Proof. intros x (A & B & C & _). repeat split; apply String.eqb_neq; assumption. Qed.
Lemma clean_plain : forall r l out, Forall plain_path_elem l -> clean_go r out l = (rev out ++ l)%list.
Proof.
  intros r. induction l as [|x l IH]; intros out F; cbn [clean_go]; [now rewrite app_nil_r|]. inversion F as [|? ? P F']; subst.
  destruct (elem_facts x P) as (-> & -> & ->). cbn [orb]. rewrite IH by assumption. cbn [rev]. now rewrite <- app_assoc.
Qed.
Lemma cut_plain : forall l, Forall plain_path_elem l -> cut_up l = l.
Proof.
  intros l F. destruct F as [|x l P F]; [reflexivity|]. cbn [cut_up]. destruct (elem_facts x P) as (_ & _ & ->). now destruct l.
Qed.
Lemma plain_split : forall n, plain_path n -> exists l, l <> [] /\ Forall plain_path_elem l /\ split "/" n = l /\ n = join "/" l /\ count "\" n = 0.
Proof.
  intros n (l & NE & F & E & _). exists l. split; [assumption|]. split; [assumption|]. subst n. split; [|split; [reflexivity|]].
  - apply split_join; [assumption|]. eapply Forall_impl; [|exact F]. intros x (_ & _ & _ & C & _). exact C.
  - apply count_join; [discriminate|]. eapply Forall_impl; [|exact F]. intros x (_ & _ & _ & _ & C). exact C.
Qed.
Lemma to_valid_plain : forall n, plain_path n -> to_valid n = n.
Proof.
  intros n P. destruct (plain_split n P) as (l & NE & F & S & J & B). unfold to_valid. rewrite unbackslash_id, S by assumption.
  rewrite clean_plain by assumption. cbn [rev app]. destruct l as [|x l]; [congruence|]. rewrite cut_plain by assumption. now rewrite J.
Qed.
Lemma utf8_skip : forall x k s, k = String.length x -> valid_utf8_go k (x ++ s) = valid_utf8_go 0 s.
Proof. induction x as [|a x IH]; intros k s E; subst k; [reflexivity|]. cbn [append String.length valid_utf8_go]. now apply IH. Qed.
Lemma utf8_xml : forall s, xml_string s -> valid_utf8_go 0 s = true.
Proof.
  intros s (l & F & ->). induction F as [|r l C F IH]; [reflexivity|]. cbn [map sconcat].
  assert (NE : exists a x, encode r = String a x) by (unfold encode; repeat destruct (_ <? _)%N; eauto).
  destruct NE as (a & x & E). pose proof (rune_encode r (sconcat (map encode l)) C) as R. rewrite E in *. cbn [append] in *.
  cbn [valid_utf8_go]. rewrite R. cbn [String.length Nat.pred]. now rewrite utf8_skip.
Qed.
Lemma valid_plain : forall n, plain_path n -> valid_path n = true /\ String.eqb n "." = false.
Proof.
  intros n P. pose proof P as (l0 & _ & _ & _ & X). destruct (plain_split n P) as (l & NE & F & S & J & B). unfold valid_path. rewrite utf8_xml by assumption.
  assert (A : forallb plain_elem (split "/" n) = true).
  { rewrite S. clear - F. induction F as [|x l P F IH]; [reflexivity|]. cbn [forallb]. rewrite IH. unfold plain_elem. destruct (elem_facts x P) as (-> & -> & ->). reflexivity. }
  rewrite A, orb_true_r. split; [reflexivity|]. apply String.eqb_neq. intros ->. cbn in S. subst l. inversion F as [|? ? (_ & Q & _)]; subst. congruence.
Qed.
Lemma ends_slash_spec : forall s, ends_slash s = true -> exists t, s = t ++ "/".
Proof.
  induction s as [|a s IH]; intros H; [discriminate H|]. cbn [ends_slash] in H. destruct s as [|b s].
  - apply Ascii.eqb_eq in H. subst a. now exists "".
  - destruct (IH H) as (t & E). rewrite E. now exists (String a t).
Qed.
Lemma split_last : forall c t, In "" (split c (t ++ String c "")) /\ 2 <= length (split c (t ++ String c "")) /\ last (split c (t ++ String c "")) "x" = "".
Proof.
  intros c t. assert (L : 2 <= length (split c (t ++ String c ""))).
  { rewrite split_length, count_app. cbn [count]. rewrite Ascii.eqb_refl. lia. }
  assert (K : last (split c (t ++ String c "")) "x" = "").
  { clear L. induction t as [|a t IH]; [cbn [append split]; now rewrite Ascii.eqb_refl|]. cbn [append split].
    pose proof (split_length c (t ++ String c "")) as L. rewrite count_app in L. cbn [count] in L. rewrite Ascii.eqb_refl in L.
    destruct (split c (t ++ String c "")) as [|x l]; [discriminate L|]. destruct l as [|y l]; [cbn in L; lia|].
    destruct (Ascii.eqb a c); exact IH. }
  split; [|auto]. destruct (exists_last (l := split c (t ++ String c ""))) as (l' & z & E); [intros E; rewrite E in L; cbn in L; lia|].
  rewrite E, last_last in K. subst z. rewrite E. apply in_app_iff. right. now left.
Qed.
Lemma plain_no_slash : forall n, plain_path n -> ends_slash n = false.
Proof.
  intros n P. destruct (ends_slash n) eqn:E; [|reflexivity]. exfalso. apply ends_slash_spec in E. destruct E as (t & E).
  destruct (plain_split n P) as (l & NE & F & S & J & B). destruct (split_last "/" t) as (I & _). rewrite <- E, S in I.
  rewrite Forall_forall in F. destruct (F _ I) as (Q & _). congruence.
Qed.
Lemma zip_open_plain : forall a n s, ordinary a -> In (n, Some s) a -> zip_open a n = FData s.
Proof.
  intros a n s (N & O) I. destruct (O _ _ I) as (P & _). unfold zip_open. destruct (valid_plain n P) as (-> & ->). cbn [negb].
  assert (F : find (fun e => String.eqb (to_valid (fst e)) n) a = Some (n, Some s)).
  { clear P. induction a as [|(k, v) a IH]; [destruct I|]. inversion N as [|? ? NI N']; subst. cbn [find fst].
    rewrite (to_valid_plain k) by (apply (O k v); now left). destruct (String.eqb_spec k n) as [->|D].
    - destruct I as [I|I]; [now rewrite I|]. exfalso. apply NI. apply in_map_iff. exists (n, Some s). auto.
    - destruct I as [I|I]; [congruence|]. apply IH; [assumption| |assumption]. intros n' c' I'. apply O. now right. }
  rewrite F. cbn [fst snd]. now rewrite plain_no_slash.
Qed.

(** ** reading the entries *)
Definition is_rest (n : string) : bool := negb (String.eqb n RELS_PART || String.eqb n DOC_PART || has_prefix MEDIA_FOLDER n).
Definition media_entry (e : entry) : list mediaT :=
  match drop (String.length MEDIA_FOLDER) (fst e), read_entry e with
  | Some n, Some s => if has_prefix MEDIA_FOLDER (fst e) then [(n, s)] else []
  | _, _ => []
  end.
Section WithLib.
Context `{GoLib}.
Lemma parse_rel_same : forall s g g', parse_doc_relation s g = Ok g' ->
  media g' = media g /\ midx g' = midx g /\ imgid g' = imgid g /\ docid g' = docid g /\ slow g' = slow g /\ numbered g' /\
  Forall has_num (rels g').
Proof.
  intros s g g' E. unfold parse_doc_relation in E. destruct (rels_root _ _ _) as ((ns, l), st). destruct st; try discriminate.
  destruct (max_id l (rid g)) as [m|] eqn:M; [|discriminate]. injection E as <-. cbn [media midx imgid docid slow rels rid].
  repeat (split; [reflexivity|]). pose proof (max_id_inv _ _ _ M) as F. split; [|assumption].
  destruct (max_id_some l (rid g) F) as (k & K1 & _ & K2 & _). rewrite M in K1. injection K1 as <-.
  intros r I. cbn [rels rid] in *. rewrite Forall_forall in F. destruct (F r I) as (n & NN). pose proof NN as (x & E & NE & D & B). exists x, n. split; [assumption|]. split; [now apply parse_uint_spec|]. eapply K2; eassumption.
Qed.
(** what one entry does *)
Lemma unpack_entry_inv : forall f d e d', unpack_entry f d e = Ok d' ->
  d_tmpl d' = mk_tmpl (if is_rest (fst e) then "" else t_name (d_tmpl d)) (t_fs (d_tmpl d)) (t_list (d_tmpl d) ++ if is_rest (fst e) then [fst e] else [])%list /\
  media (d_reg d') = (media (d_reg d) ++ media_entry e)%list /\
  (media_ok (d_reg d) -> media_ok (d_reg d')) /\ (numbered (d_reg d) -> numbered (d_reg d')) /\
  (is_rest (fst e) = false -> read_entry e <> None).
Proof.
  intros f d (name, c) d' E. unfold unpack_entry in E. cbn [fst] in *. unfold is_rest.
  assert (ME : forall b, name = b -> has_prefix MEDIA_FOLDER b = false -> media_entry (name, c) = []).
  { intros b -> HB. unfold media_entry. cbn [fst]. rewrite HB. destruct (drop _ _); [|reflexivity]. now destruct (read_entry _). }
  destruct (String.eqb_spec name RELS_PART) as [->|NR].
  { cbn [orb negb]. rewrite (ME RELS_PART eq_refl eq_refl), !app_nil_r. destruct (read_entry _) as [s|] eqn:R; [|discriminate].
    apply bind_ok in E. destruct E as (g & P & E). injection E as <-. destruct (parse_rel_same _ _ _ P) as (A & B & C & D & E & F & _).
    cbn [d_tmpl d_reg set_d_reg]. split; [now destruct (d_tmpl d)|]. split; [assumption|]. split; [intros M; eapply media_ok_ext; [symmetry; exact A|symmetry; exact B|exact M]|].
    split; [auto|]. discriminate. }
  destruct (String.eqb_spec name DOC_PART) as [->|ND].
  { cbn [orb negb]. rewrite (ME DOC_PART eq_refl eq_refl), !app_nil_r. destruct (read_entry _) as [s|] eqn:R; [|discriminate].
    unfold parse_doc_part in E. destruct (root _ _ _) as (l, st). destruct st; try discriminate. injection E as <-.
    cbn [d_tmpl d_reg]. split; [now destruct (d_tmpl d)|]. split; [reflexivity|]. split; [apply media_ok_ext; reflexivity|].
    split; [auto|]. discriminate. }
  destruct (has_prefix MEDIA_FOLDER name) eqn:HP.
  { cbn [orb negb]. rewrite app_nil_r. destruct (read_entry (name, c)) as [s|] eqn:R; [|discriminate]. injection E as <-. unfold parse_media, media_entry.
    cbn [fst]. rewrite R, HP. destruct (has_prefix_drop _ _ HP) as (n & -> & _). cbn [d_tmpl d_reg set_d_reg]. split; [now destruct (d_tmpl d)|].
    split; [reflexivity|]. split; [apply media_ok_add|]. split; [auto|discriminate]. }
  cbn [orb negb]. injection E as <-. rewrite (ME name eq_refl HP), app_nil_r. cbn [d_tmpl d_reg set_d_tmpl]. repeat (split; [auto|]). discriminate.
Qed.
Lemma unpack_entries_inv : forall f l d d', unpack_entries f d l = Ok d' ->
  (t_fs (d_tmpl d') = t_fs (d_tmpl d) /\ (t_name (d_tmpl d) = "" -> t_name (d_tmpl d') = "") /\
   t_list (d_tmpl d') = (t_list (d_tmpl d) ++ filter is_rest (map fst l))%list) /\
  media (d_reg d') = (media (d_reg d) ++ flat_map media_entry l)%list /\
  (media_ok (d_reg d) -> media_ok (d_reg d')) /\ (numbered (d_reg d) -> numbered (d_reg d')) /\
  (forall e, In e l -> is_rest (fst e) = false -> read_entry e <> None).
Proof.
  intros f. induction l as [|e l IH]; intros d d' E.
  - injection E as <-. cbn [map filter flat_map]. rewrite !app_nil_r. repeat (split; [auto|]). intros ? [].
  - cbn [unpack_entries] in E. apply bind_ok in E. destruct E as (d1 & E1 & E). apply unpack_entry_inv in E1. apply IH in E.
    destruct E1 as (T1 & M1 & O1 & N1 & R1). destruct E as ((T2 & T3 & T4) & M2 & O2 & N2 & R2). rewrite T1 in T2, T3, T4. cbn [t_fs t_name t_list] in T2, T3, T4.
    split; [split; [assumption|split; [|]]|split; [|split; [auto|split; [auto|]]]].
    + intros N. apply T3. now destruct (is_rest (fst e)).
    + rewrite T4, <- app_assoc. f_equal. cbn [map filter]. now destruct (is_rest (fst e)).
    + cbn [flat_map]. now rewrite M2, M1, <- app_assoc.
    + intros e' [<-|I]; auto.
Qed.
Lemma unpack_inv : forall f a d, unpack f a = Ok d ->
  d_tmpl d = mk_tmpl "" (zip_open a) (filter is_rest (map fst a)) /\ media (d_reg d) = flat_map media_entry a /\
  media_ok (d_reg d) /\ numbered (d_reg d) /\ imgid (d_reg d) = 100000%N /\
  (forall e, In e a -> is_rest (fst e) = false -> read_entry e <> None).
Proof.
  intros f a d E. unfold unpack in E. apply bind_ok in E. destruct E as (d1 & E & E2). injection E2 as <-.
  apply unpack_entries_inv in E. destruct E as ((T2 & T3 & T4) & M2 & O2 & N2 & R2). cbn [t_fs t_name t_list d_tmpl d_reg rels media set_d_reg imgid set_imgid app] in *.
  split; [specialize (T3 eq_refl); destruct (d_tmpl d1) as [u v x]; cbn [t_fs t_name t_list] in *; congruence|]. split; [assumption|].
  split; [eapply media_ok_ext; [| |apply O2]; try reflexivity; intros n; reflexivity|]. split; [intros r I; apply N2; [intros ? []|assumption]|]. auto.
Qed.

(** ** writing a parsed document again *)
Lemma media_entry_in : forall a x, In x (flat_map media_entry a) -> exists c, In (MEDIA_FOLDER ++ fst x, c) a /\ read_entry (MEDIA_FOLDER ++ fst x, c) = Some (snd x).
Proof.
  intros a x I. apply in_flat_map in I. destruct I as ((n, c) & I & J). unfold media_entry in J. cbn [fst] in J.
  destruct (drop _ n) as [m|] eqn:D; [|destruct J]. destruct (read_entry (n, c)) as [s|] eqn:R; [|destruct J].
  destruct (has_prefix MEDIA_FOLDER n) eqn:HP; [|destruct J]. destruct J as [<-|[]]. destruct (has_prefix_drop _ _ HP) as (t & D' & E).
  rewrite D in D'. injection D' as <-. cbn [fst snd]. rewrite <- E. eauto.
Qed.
Lemma tmpl_files_total : forall t l m, (forall k, In k l -> exists s, t_fs t (tmpl_path t k) = FData s) -> exists m', tmpl_files t l m = Ok m'.
Proof.
  intros t. induction l as [|n l IH]; intros m F; [eexists; reflexivity|]. cbn [tmpl_files]. fold (tmpl_path t n).
  destruct (F n (or_introl eq_refl)) as (s & ->). apply IH. intros k I. apply F. now right.
Qed.
Lemma rewrite_ok : forall f a d r, ordinary a -> unpack f a = Ok d -> writes d r -> exists ar, r = Ok ar.
Proof.
  intros f a d r O U W. destruct (unpack_inv f a d U) as (T & M & _ & _ & _ & RD).
  assert (TD : forall k, In k (t_list (d_tmpl d)) -> exists s, t_fs (d_tmpl d) (tmpl_path (d_tmpl d) k) = FData s).
  { rewrite T. unfold tmpl_path. cbn [t_list t_fs t_name String.eqb]. intros k I. apply filter_In in I. destruct I as (I & _).
    apply in_map_iff in I. destruct I as ((k', c) & <- & I). cbn [fst]. destruct (proj2 O _ _ I) as (_ & _ & NN). destruct c as [s|]; [|congruence].
    exists s. now apply zip_open_plain. }
  assert (X : exists m, pack_files d = Ok m).
  { unfold pack_files. destruct (tmpl_files_total _ _ [] TD) as (m & ->). cbn [bind]. eauto. }
  destruct X as (m & P). unfold writes in W. rewrite P in W. destruct W as (o & PM & ->).
  destruct (pack_files_get d m P) as (N & G). exists o. apply write_entries_all. apply Forall_forall. intros (k, v) I.
  assert (J : fget k m = Some v) by (apply fget_in; [assumption|]; eapply Permutation_in; [apply Permutation_sym; exact PM|exact I]).
  apply G in J. destruct J as [(s & -> & PT)|(-> & J & F & _)]; [|destruct (TD k J) as (s & E); congruence].
  assert (K : (N.of_nat (String.length k) <= 65535)%N /\ ends_slash k = false).
  { inversion PT as [A B|A B|n y LM A B|n c LM F X1 X2 X3 A B]; subst.
    - split; [vm_compute; discriminate|reflexivity].
    - split; [vm_compute; discriminate|reflexivity].
    - destruct LM as (l1 & l2 & E & Q & _). assert (IN : In y (media (d_reg d))) by (rewrite E; apply in_app_iff; right; now left).
      rewrite M in IN. apply media_entry_in in IN. destruct IN as (c & IN & _). rewrite Q in IN. destruct (proj2 O _ _ IN) as (PP & LE & _).
      split; [exact LE|]. exact (plain_no_slash _ PP).
    - rewrite T in LM. cbn [t_list] in LM. apply filter_In in LM. destruct LM as (LM & _).
      apply in_map_iff in LM. destruct LM as ((k', c) & <- & IN). cbn [fst]. destruct (proj2 O _ _ IN) as (PP & LE & _).
      split; [exact LE|now apply plain_no_slash]. }
  unfold write_entry. cbn [fst snd]. destruct K as (LE & ->). destruct (N.ltb_spec 65535 (N.of_nat (String.length k))); [lia|]. reflexivity.
Qed.
End WithLib.
