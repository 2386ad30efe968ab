(** Reading what was written. *)
From Coq Require Import String Ascii List Bool Arith NArith ZArith Lia Permutation.
From Verif Require Import GoStr Num Lib Types XmlTok Marshal Unmarshal Reload Docx Lex Rels Pack SpecLex SpecNum SpecApi SpecPack RegFacts IdFacts ApiFacts LexFacts LexFacts2 RelsFacts PackFacts PackFacts2.
Import ListNotations.
Local Open Scope list_scope.
Local Open Scope string_scope.

Section WithLib.
Context `{GoLib}.

Lemma part_written : forall f b l d, d_items d = [] -> Forall xml_string (values (m_document l)) ->
  parse_doc_part f (write_xml (m_document_of (if b : bool then doc_attrs else no_attrs) l)) d = Ok (mk_docx (map (reload_item (Some f)) l) (set_docid 100000 (d_reg d)) (d_tmpl d) true).
Proof.
  intros f b l d E V. unfold parse_doc_part. rewrite E.
  assert (V' : Forall xml_string (values (m_document_of (if b then doc_attrs else no_attrs) l))).
  { destruct b; [exact V|]. unfold m_document, m_document_of in *. rewrite values_elem in *. apply Forall_app in V. destruct V as (_ & V).
    apply Forall_app. split; [|exact V]. constructor; [|constructor]. exists []. split; [constructor|reflexivity]. }
  pose proof (read_document_of _ (Some f) b l V') as R. unfold parse_document in R.
  change (u_document_from (Some f) []) with (u_document (Some f)). now rewrite R.
Qed.

Lemma unpack_written_entries : forall f (b : bool) items g, Forall xml_string (values (m_document items)) -> xml_rels g -> Forall has_num (rels g) ->
  forall l d, NoDup (map fst l) -> (forall e, In e l -> exists s, read_entry e = Some s /\ snd e = Some s) ->
  (forall c, In (RELS_PART, c) l -> c = Some (write_xml (m_rels g))) -> (forall c, In (DOC_PART, c) l -> c = Some (write_xml (m_document_of (if b then doc_attrs else no_attrs) items))) ->
  (In RELS_PART (map fst l) -> rels (d_reg d) = [] /\ rid (d_reg d) = 0%N) -> (In DOC_PART (map fst l) -> d_items d = []) ->
  exists d', unpack_entries f d l = Ok d' /\
    (In DOC_PART (map fst l) -> d_items d' = map (reload_item (Some f)) items) /\ (~ In DOC_PART (map fst l) -> d_items d' = d_items d) /\
    (In RELS_PART (map fst l) -> rels (d_reg d') = rels g /\ relns (d_reg d') = relns g /\ largest_id (rels g) (rid (d_reg d'))) /\
    (~ In RELS_PART (map fst l) -> rels (d_reg d') = rels (d_reg d) /\ relns (d_reg d') = relns (d_reg d) /\ rid (d_reg d') = rid (d_reg d)).
Proof.
  intros f b items g V XR HN. induction l as [|(k, c) l IH]; intros d N R CR CD IR ID.
  { exists d. split; [reflexivity|]. cbn [map In]. intuition. }
  cbn [map fst] in *. inversion N as [|? ? NI N']; subst.
  assert (R' : forall e, In e l -> exists s, read_entry e = Some s /\ snd e = Some s) by (intros e I; apply R; now right).
  assert (CR' : forall c, In (RELS_PART, c) l -> c = Some (write_xml (m_rels g))) by (intros x I; apply CR; now right).
  assert (CD' : forall c, In (DOC_PART, c) l -> c = Some (write_xml (m_document_of (if b then doc_attrs else no_attrs) items))) by (intros x I; apply CD; now right).
  destruct (R (k, c) (or_introl eq_refl)) as (s & RE & SE). cbn [snd] in SE. subst c.
  cbn [unpack_entries]. unfold unpack_entry. cbn [fst]. rewrite RE.
  destruct (String.eqb_spec k RELS_PART) as [->|NR].
  { destruct IR as (I1 & I2); [now left|]. specialize (CR _ (or_introl eq_refl)). injection CR as ->.
    destruct (save_load_rels g (d_reg d) I1 I2 XR HN) as (m & -> & LG). cbn [bind].
    match goal with |- context [unpack_entries f ?x l] => destruct (IH x N' R' CR' CD') as (d' & E & A1 & A2 & A3 & A4) end.
    - intros I. contradiction.
    - intros I. apply ID. now right.
    - exists d'. split; [exact E|]. destruct (A4 NI) as (B1 & B2 & B3). cbn [d_reg set_d_reg rels relns rid d_items] in *.
      split; [intros [X|X]; [discriminate X|auto]|]. split; [intros X; apply A2; intros Y; apply X; now right|].
      split; [intros _; rewrite B1, B2, B3; auto|]. intros X. exfalso. apply X. now left. }
  destruct (String.eqb_spec k DOC_PART) as [->|ND].
  { specialize (CD _ (or_introl eq_refl)). injection CD as ->. rewrite part_written by (try assumption; apply ID; now left). cbn [bind].
    match goal with |- context [unpack_entries f ?x l] => destruct (IH x N' R' CR' CD') as (d' & E & A1 & A2 & A3 & A4) end.
    - intros I. apply IR. now right.
    - intros I. contradiction.
    - exists d'. split; [exact E|]. specialize (A2 NI). cbn [d_reg d_items set_docid rels relns rid] in *.
      split; [auto|]. split; [intros X; exfalso; apply X; now left|].
      split; [intros [X|X]; [discriminate X|auto]|]. intros X. apply A4. intros Y. apply X. now right. }
  assert (K : forall x, d_items x = d_items d -> rels (d_reg x) = rels (d_reg d) -> relns (d_reg x) = relns (d_reg d) -> rid (d_reg x) = rid (d_reg d) ->
    exists d', unpack_entries f x l = Ok d' /\
    (k = DOC_PART \/ In DOC_PART (map fst l) -> d_items d' = map (reload_item (Some f)) items) /\ (~ (k = DOC_PART \/ In DOC_PART (map fst l)) -> d_items d' = d_items d) /\
    (k = RELS_PART \/ In RELS_PART (map fst l) -> rels (d_reg d') = rels g /\ relns (d_reg d') = relns g /\ largest_id (rels g) (rid (d_reg d'))) /\
    (~ (k = RELS_PART \/ In RELS_PART (map fst l)) -> rels (d_reg d') = rels (d_reg d) /\ relns (d_reg d') = relns (d_reg d) /\ rid (d_reg d') = rid (d_reg d))).
  { intros x X1 X2 X3 X4. destruct (IH x N' R' CR' CD') as (d' & E & A1 & A2 & A3 & A4).
    - intros I. rewrite X2, X4. apply IR. now right.
    - intros I. rewrite X1. apply ID. now right.
    - rewrite X1 in A2. rewrite X2, X3, X4 in A4. exists d'. split; [exact E|]. split; [intros [Z|Z]; [contradiction|auto]|]. split; [intros Z; apply A2; intros Y; apply Z; now right|].
      split; [intros [Z|Z]; [contradiction|auto]|]. intros Z. apply A4. intros Y. apply Z. now right. }
  destruct (has_prefix MEDIA_FOLDER k); cbn [bind]; apply K; reflexivity.
Qed.

Lemma written_readable : forall d ar, writes d (Ok ar) -> forall e, In e ar -> exists s, read_entry e = Some s /\ snd e = Some s /\ (N.of_nat (String.length (fst e)) <= 65535)%N.
Proof.
  intros d ar W e I. unfold writes in W. destruct (pack_files d) as [m| |]; try discriminate. destruct W as (o & _ & E). symmetry in E.
  apply write_entries_ok in E. destruct E as (-> & F). rewrite Forall_forall in F. specialize (F e I). destruct e as (k, v). unfold write_entry in F. cbn [fst snd] in *.
  destruct (N.ltb_spec 65535 (N.of_nat (String.length k))); [discriminate|]. destruct v as [s|]; [|discriminate]. exists s. unfold read_entry. cbn [fst snd].
  destruct (_ && _); [discriminate|auto].
Qed.
Lemma written_tmpl : forall d ar n, writes d (Ok ar) -> In n (t_list (d_tmpl d)) -> n <> RELS_PART -> n <> DOC_PART -> has_prefix MEDIA_FOLDER n = false ->
  exists s, t_fs (d_tmpl d) (tmpl_path (d_tmpl d) n) = FData s /\ In (n, Some s) ar.
Proof.
  intros d ar n W I NR ND NM. destruct (written_parts d ar W) as (_ & G).
  assert (P : forall s, t_fs (d_tmpl d) (tmpl_path (d_tmpl d) n) = FData s -> In (n, Some s) ar).
  { intros s F. apply G. exists s. split; [reflexivity|]. apply part_tmpl; try assumption. intros x m -> _. change "word/media/" with MEDIA_FOLDER in NM. rewrite has_prefix_app in NM. discriminate. }
  destruct (t_fs (d_tmpl d) (tmpl_path (d_tmpl d) n)) as [|s|] eqn:F; [| eauto |]; exfalso.
  - unfold writes, pack_files in W. destruct (tmpl_files _ _ []) as [m| |] eqn:T; cbn [bind] in W; try discriminate.
    destruct (tmpl_files_ok _ _ _ _ T) as (_ & _ & _ & NF); [constructor|]. exact (NF n I F).
  - unfold writes in W. destruct (pack_files d) as [m| |] eqn:PF; try discriminate. destruct W as (o & PM & E). symmetry in E. apply write_entries_ok in E. destruct E as (-> & FA).
    destruct (pack_files_get d m PF) as (N & GG).
    assert (X : fget n m = Some None).
    { apply GG. right. repeat split; try assumption. intros s PT. inversion PT as [A B|A B|n' y LM A B|n' c LM F' X1 X2 X3 A B]; subst; [now apply NR|now apply ND| |congruence].
      change "word/media/" with MEDIA_FOLDER in NM. rewrite has_prefix_app in NM. discriminate. }
    apply fget_in in X; [|assumption]. eapply Permutation_in in X; [|exact PM]. rewrite Forall_forall in FA. specialize (FA _ X). unfold write_entry in FA. cbn in FA. destruct (65535 <? _)%N; discriminate.
Qed.
Lemma media_entries_nodup : forall l, NoDup (map fst l) -> NoDup (map fst (flat_map media_entry l)).
Proof.
  induction l as [|(k, c) l IH]; intros N; [constructor|]. inversion N as [|? ? NI N']; subst. specialize (IH N'). cbn [flat_map].
  unfold media_entry at 1. cbn [fst]. destruct (drop _ k) as [n|] eqn:D; [|exact IH]. destruct (read_entry (k, c)); [|exact IH].
  destruct (has_prefix MEDIA_FOLDER k) eqn:HP; [|exact IH]. cbn [map fst app]. constructor; [|exact IH].
  destruct (has_prefix_drop _ _ HP) as (t & D' & E). rewrite D in D'. injection D' as <-. intros I. apply in_map_iff in I. destruct I as (x & <- & I).
  apply media_entry_in in I. destruct I as (c' & I & _). apply NI. apply in_map_iff. exists (MEDIA_FOLDER ++ fst x, c'). cbn [fst] in *. auto.
Qed.
Lemma last_media_in : forall l x, NoDup (map fst l) -> (In x l <-> last_media l (fst x) x).
Proof.
  intros l x N. split.
  - intros I. apply in_split in I. destruct I as (a & b & ->). exists a, b. split; [reflexivity|]. split; [reflexivity|].
    intros y J E. rewrite map_app in N. cbn [map] in N. apply NoDup_remove_2 in N. apply N. apply in_app_iff. right. rewrite <- E. now apply in_map.
  - intros (a & b & -> & _). apply in_app_iff. right. now left.
Qed.
Lemma nodup_fst : forall (l : list mediaT), NoDup (map fst l) -> NoDup l.
Proof. induction l as [|x l IH]; intros N; [constructor|]. inversion N; subst. constructor; [|auto]. intros I. apply H2. now apply in_map. Qed.

Lemma rels_plain : plain_path RELS_PART.
Proof.
  exists ["word"; "_rels"; "document.xml.rels"]. split; [discriminate|]. split; [repeat constructor; discriminate|]. split; [reflexivity|].
  exists (map N_of_ascii (list_ascii_of_string RELS_PART)). split; [cbn; repeat (apply Forall_cons; [unfold xml_char; lia|]); apply Forall_nil|reflexivity].
Qed.
Lemma doc_plain : plain_path DOC_PART.
Proof.
  exists ["word"; "document.xml"]. split; [discriminate|]. split; [repeat constructor; discriminate|]. split; [reflexivity|].
  exists (map N_of_ascii (list_ascii_of_string DOC_PART)). split; [cbn; repeat (apply Forall_cons; [unfold xml_char; lia|]); apply Forall_nil|reflexivity].
Qed.
Lemma written_ordinary : forall d ar, writes d (Ok ar) -> plain_names d -> ordinary ar.
Proof.
  intros d ar W (PT & PM). destruct (written_parts d ar W) as (N & G). split; [exact N|]. intros n c I.
  destruct (written_readable d ar W _ I) as (s & _ & S & L). cbn [fst snd] in *. split; [|split; [assumption|congruence]].
  apply G in I. destruct I as (s' & _ & P). inversion P as [A B|A B|n' y LM A B|n' c' LM F' X1 X2 X3 A B]; subst; [exact rels_plain|exact doc_plain| |auto].
  destruct LM as (a & b & E & Q & _). rewrite <- Q. apply PM. rewrite E. apply in_app_iff. right. now left.
Qed.

Lemma write_read : forall f d ar, writes d (Ok ar) -> xml_docx d -> Forall has_num (rels (d_reg d)) -> NoDup (map fst (media (d_reg d))) -> no_media_tmpl d ->
  exists d', unpack f ar = Ok d' /\
    d_items d' = map (reload_item (Some f)) (d_items d) /\
    rels (d_reg d') = rels (d_reg d) /\ relns (d_reg d') = relns (d_reg d) /\ largest_id (rels (d_reg d)) (rid (d_reg d')) /\
    Permutation (media (d_reg d')) (media (d_reg d)) /\
    (forall m, In m (media (d_reg d)) <-> media_of (d_reg d') (fst m) = Ok (Some m)) /\
    NoDup (t_list (d_tmpl d')) /\
    (forall n, In n (t_list (d_tmpl d')) <-> In n (t_list (d_tmpl d)) /\ n <> RELS_NAME /\ n <> DOC_NAME) /\
    t_name (d_tmpl d') = "" /\
    (plain_names d -> forall n c, In n (t_list (d_tmpl d')) -> (t_fs (d_tmpl d') n = FData c <-> t_fs (d_tmpl d) (tmpl_path (d_tmpl d) n) = FData c)).
Proof.
  intros f d ar W (XD & XR) HN ND NM. destruct (written_parts d ar W) as (N & G). set (d0 := mk_docx [] (mk_reg [] "" [] [] 0 0 0 []) (mk_tmpl "" (zip_open ar) []) false).
  assert (PR : In (RELS_PART, Some (write_xml (m_rels (d_reg d)))) ar) by (apply G; eexists; split; [reflexivity|apply part_rels]).
  assert (PD : In (DOC_PART, Some (write_xml (m_docx d))) ar) by (apply G; eexists; split; [reflexivity|apply part_doc]).
  assert (U : forall k x y, In (k, x) ar -> In (k, y) ar -> x = y).
  { clear - N. induction ar as [|(a, b) ar IH]; intros k x y; [intros []|]. inversion N as [|? ? NI N']; subst. specialize (IH N').
    intros [E|I] [E'|I']; [congruence| | |eauto]; exfalso; apply NI; apply in_map_iff; [exists (k, y)|exists (k, x)]; cbn [fst]; split; congruence. }
  destruct (unpack_written_entries f (d_ns d) (d_items d) (d_reg d) XD XR HN ar d0 N) as (d1 & E & A1 & _ & A3 & _).
  - intros e I. destruct (written_readable d ar W e I) as (s & R & S & _). eauto.
  - intros c I. exact (U _ _ _ I PR).
  - intros c I. exact (U _ _ _ I PD).
  - intros _. split; reflexivity.
  - intros _. reflexivity.
  - assert (IR : In RELS_PART (map fst ar)) by (apply in_map_iff; eexists; split; [|exact PR]; reflexivity).
    assert (ID : In DOC_PART (map fst ar)) by (apply in_map_iff; eexists; split; [|exact PD]; reflexivity).
    specialize (A1 ID). destruct (A3 IR) as (B1 & B2 & B3). set (d' := set_d_reg (set_imgid 100000 (d_reg d1)) d1).
    assert (UN : unpack f ar = Ok d') by (unfold unpack; fold d0; rewrite E; reflexivity).
    destruct (unpack_inv f ar d' UN) as (T & M & MO & _). exists d'. split; [exact UN|]. split; [exact A1|]. split; [exact B1|]. split; [exact B2|]. split; [exact B3|].
    assert (MI : forall x, In x (media (d_reg d')) <-> In x (media (d_reg d))).
    { intros x. rewrite M, (last_media_in _ x ND). split.
      - intros I. apply media_entry_in in I. destruct I as (c & I & R). pose proof I as I2. apply G in I2. destruct I2 as (s & -> & P).
        assert (s = snd x). { unfold read_entry in R. cbn [fst snd] in R. destruct (_ && _); congruence. } subst s.
        remember (MEDIA_FOLDER ++ fst x) as k eqn:K. inversion P as [A B|A B|n' y LM A B|n' c' LM F' X1 X2 X3 A B].
        + exfalso. rewrite K in A. discriminate A.
        + exfalso. rewrite K in A. discriminate A.
        + rewrite K in A. apply media_inj in A. subst n'. assert (y = x) by (destruct LM as (? & ? & _ & Q & _); destruct x, y; cbn [fst snd] in *; congruence). subst y. exact LM.
        + subst n' c'. apply NM in LM. rewrite K in LM. change "word/media/" with MEDIA_FOLDER in LM. rewrite has_prefix_app in LM. discriminate.
      - intros LM. assert (I : In (MEDIA_FOLDER ++ fst x, Some (snd x)) ar) by (apply G; eexists; split; [reflexivity|exact (part_media d _ _ LM)]).
        apply in_flat_map. eexists. split; [exact I|]. destruct (written_readable d ar W _ I) as (s & R & S & _). cbn [snd] in S. injection S as <-.
        unfold media_entry. cbn [fst]. rewrite R, has_prefix_app, (drop_app MEDIA_FOLDER) by reflexivity. left. now destruct x. }
    assert (ND' : NoDup (map fst (media (d_reg d')))) by (rewrite M; now apply media_entries_nodup).
    split; [apply NoDup_Permutation; [now apply nodup_fst|now apply nodup_fst|exact MI]|].
    split. { intros m. rewrite (MO (fst m)), <- MI, (last_media_in _ m ND'), <- last_named_spec. split; [intros ->; reflexivity|intros X; now injection X]. }
    split; [rewrite T; cbn [t_list]; now apply NoDup_filter|].
    assert (TI : forall n, In n (t_list (d_tmpl d')) <-> In n (t_list (d_tmpl d)) /\ n <> RELS_NAME /\ n <> DOC_NAME).
    { intros n. rewrite T. cbn [t_list]. rewrite filter_In. unfold is_rest. rewrite negb_true_iff, !orb_false_iff, !String.eqb_neq. split.
      - intros (I & (NR & NDD) & HP). apply in_map_iff in I. destruct I as ((n', c) & <- & I). cbn [fst] in *. apply G in I. destruct I as (s & _ & P).
        inversion P as [A B|A B|m y LM A B|m c' LM F' X1 X2 X3 A B]; subst; [exfalso; now apply NR|exfalso; now apply NDD| |auto].
        change "word/media/" with MEDIA_FOLDER in HP. rewrite has_prefix_app in HP. discriminate.
      - intros (I & NR & NDD). pose proof (NM n I) as HP. destruct (written_tmpl d ar n W I NR NDD HP) as (s & _ & J).
        split; [apply in_map_iff; eexists; split; [|exact J]; reflexivity|]. auto. }
    split; [exact TI|]. split; [now rewrite T|]. intros PN n c I. pose proof I as I2. apply TI in I2. destruct I2 as (I2 & NR & NDD).
    destruct (written_tmpl d ar n W I2 NR NDD (NM n I2)) as (s & F & J). rewrite T, F. cbn [t_fs].
    rewrite (zip_open_plain ar n s (written_ordinary d ar W PN) J). reflexivity.
Qed.
End WithLib.
