(** What WriteTo puts into a package. *)
From Coq Require Import String Ascii List Bool Arith NArith ZArith Lia Permutation.
From Verif Require Import GoStr Num Lib Types XmlTok Marshal Unmarshal Docx Lex Rels Pack SpecLex SpecApi SpecPack RegFacts IdFacts ApiFacts.
Import ListNotations.
Local Open Scope list_scope.
Local Open Scope string_scope.

Fixpoint fget (k : string) (m : files) : option (option string) :=
  match m with [] => None | (k', v) :: m' => if String.eqb k k' then Some v else fget k m' end.
Lemma fget_put : forall k v m k', fget k' (put k v m) = if String.eqb k' k then Some v else fget k' m.
Proof.
  intros k v m k'. induction m as [|(a, b) m IH]; cbn [put fget]; [reflexivity|].
  destruct (String.eqb_spec k a) as [->|N]; cbn [fget].
  - destruct (String.eqb_spec k' a); reflexivity.
  - rewrite IH. destruct (String.eqb_spec k' a) as [->|M]; [|reflexivity]. destruct (String.eqb_spec a k); [congruence|reflexivity].
Qed.
Lemma put_keys : forall k v m x, In x (map fst (put k v m)) <-> x = k \/ In x (map fst m).
Proof.
  intros k v m x. induction m as [|(a, b) m IH]; cbn [put map fst In]; [intuition|].
  destruct (String.eqb_spec k a) as [->|N]; cbn [map fst In]; [intuition|]. rewrite IH. intuition.
Qed.
Lemma put_nodup : forall k v m, NoDup (map fst m) -> NoDup (map fst (put k v m)).
Proof.
  intros k v m. induction m as [|(a, b) m IH]; intros N; cbn [put map fst]; [constructor; [intros []|constructor]|].
  inversion N; subst. destruct (String.eqb_spec k a) as [->|D]; cbn [map fst]; [now constructor|].
  constructor; [|auto]. rewrite put_keys. intuition.
Qed.
Lemma fget_in : forall k v m, NoDup (map fst m) -> (In (k, v) m <-> fget k m = Some v).
Proof.
  intros k v m N. induction m as [|(a, b) m IH]; [split; [intros []|discriminate]|]. inversion N as [|? ? NI N']; subst. specialize (IH N'). cbn [fget In].
  destruct (String.eqb_spec k a) as [->|D].
  - split; [intros [E|I]; [injection E as ->; reflexivity|exfalso; apply NI; apply in_map_iff; exists (a, v); auto]|].
    intros E. injection E as ->. now left.
  - rewrite <- IH. split; [intros [E|I]; [injection E as -> _; congruence|assumption]|now right].
Qed.

(** the template files *)
Lemma tmpl_files_ok : forall t l m m', tmpl_files t l m = Ok m' -> NoDup (map fst m) -> NoDup (map fst m') /\
  (forall k, In k l -> fget k m' = match t_fs t (tmpl_path t k) with FData s => Some (Some s) | _ => Some None end) /\
  (forall k, ~ In k l -> fget k m' = fget k m) /\
  (forall k, In k l -> t_fs t (tmpl_path t k) <> FNone).
Proof.
  intros t. induction l as [|n l IH]; intros m m' E N.
  - injection E as <-. split; [assumption|]. split; [intros ? []|]. split; [auto|intros ? []].
  - cbn [tmpl_files] in E. fold (tmpl_path t n) in E.
    assert (K : forall v, (match t_fs t (tmpl_path t n) with FData s => Some s | _ => None end) = v -> t_fs t (tmpl_path t n) <> FNone ->
      tmpl_files t l (put n v m) = Ok m' -> NoDup (map fst m') /\
      (forall k, In k (n :: l) -> fget k m' = match t_fs t (tmpl_path t k) with FData s => Some (Some s) | _ => Some None end) /\
      (forall k, ~ In k (n :: l) -> fget k m' = fget k m) /\
      (forall k, In k (n :: l) -> t_fs t (tmpl_path t k) <> FNone)).
    { intros v V F T. destruct (IH _ _ T (put_nodup n v m N)) as (A & B & C & D). split; [assumption|].
      split; [|split].
      - intros k I. destruct (in_dec string_dec k l) as [J|J]; [auto|]. destruct I as [<-|I]; [|contradiction].
        rewrite C, fget_put, seqb_refl by assumption. subst v. now destruct (t_fs t (tmpl_path t n)).
      - intros k I. rewrite C by (intros J; apply I; now right). rewrite fget_put.
        destruct (String.eqb_spec k n) as [->|]; [exfalso; apply I; now left|reflexivity].
      - intros k [<-|I]; auto. }
    destruct (t_fs t (tmpl_path t n)) eqn:F; [discriminate E| |]; refine (K _ eq_refl _ E); discriminate.
Qed.

(** the media *)
Lemma media_inj : forall a b, MEDIA_FOLDER ++ a = MEDIA_FOLDER ++ b -> a = b.
Proof. intros a b. apply sapp_inv_head. Qed.
Lemma media_nodup : forall l m, NoDup (map fst m) -> NoDup (map fst (fold_left put_media l m)).
Proof. induction l; intros m N; cbn [fold_left]; [assumption|]. apply IHl. now apply put_nodup. Qed.
Lemma media_get : forall l m n, fget (MEDIA_FOLDER ++ n) (fold_left put_media l m) =
  match last_named n l with Some x => Some (Some (snd x)) | None => fget (MEDIA_FOLDER ++ n) m end.
Proof.
  induction l as [|x l IH]; intros m n; cbn [fold_left last_named]; [reflexivity|]. rewrite IH.
  destruct (last_named n l); [reflexivity|]. unfold put_media at 1. rewrite fget_put.
  destruct (String.eqb_spec (fst x) n) as [->|N]; [now rewrite seqb_refl|].
  destruct (String.eqb_spec (MEDIA_FOLDER ++ n) (MEDIA_FOLDER ++ fst x)) as [E|]; [apply media_inj in E; congruence|reflexivity].
Qed.
Lemma media_other : forall l m k, (forall n, k <> MEDIA_FOLDER ++ n) -> fget k (fold_left put_media l m) = fget k m.
Proof.
  induction l as [|x l IH]; intros m k D; cbn [fold_left]; [reflexivity|]. rewrite IH by assumption. unfold put_media. rewrite fget_put.
  destruct (String.eqb_spec k (MEDIA_FOLDER ++ fst x)) as [E|]; [exfalso; eapply D; exact E|reflexivity].
Qed.

(** the map of files *)
Lemma pack_files_get : forall d m, pack_files d = Ok m -> NoDup (map fst m) /\
  forall k v, fget k m = Some v <-> (exists s, v = Some s /\ part_of d k s) \/
     (v = None /\ In k (t_list (d_tmpl d)) /\ t_fs (d_tmpl d) (tmpl_path (d_tmpl d) k) = FNoRead /\ forall s, ~ part_of d k s).
Proof.
  intros d m E. unfold pack_files in E. apply bind_ok in E. destruct E as (m0 & T & E). injection E as <-.
  destruct (tmpl_files_ok _ _ _ _ T) as (N0 & GI & GN & NF); [constructor|].
  split; [apply media_nodup; now do 2 apply put_nodup|].
  set (t := d_tmpl d) in *. set (ms := media (d_reg d)).
  set (m1 := put DOC_PART _ _).
  assert (M1 : forall k, fget k m1 = if String.eqb k DOC_PART then Some (Some (write_xml (m_docx d)))
     else if String.eqb k RELS_PART then Some (Some (write_xml (m_rels (d_reg d)))) else fget k m0).
  { intros k. unfold m1. now rewrite !fget_put. }
  assert (MD : forall n, MEDIA_FOLDER ++ n <> DOC_PART) by (intros n; cbn; discriminate).
  assert (MR : forall n, MEDIA_FOLDER ++ n <> RELS_PART) by (intros n; cbn; discriminate).
  assert (BASE : forall k v, (forall x y, k = MEDIA_FOLDER ++ x -> ~ last_media ms x y) ->
     (fget k m1 = Some v <-> (exists s, v = Some s /\ part_of d k s) \/
     (v = None /\ In k (t_list t) /\ t_fs t (tmpl_path t k) = FNoRead /\ forall s, ~ part_of d k s))).
  { intros k v NM. rewrite M1. destruct (String.eqb_spec k DOC_PART) as [->|ND].
    - split; [intros X; injection X as <-; left; eexists; split; [reflexivity|apply part_doc]|].
      intros [(s & -> & P)|(-> & _ & _ & P)]; [|exfalso; eapply P; apply part_doc].
      f_equal. f_equal. inversion P; try reflexivity; exfalso; first [eapply MD; eassumption|auto].
    - destruct (String.eqb_spec k RELS_PART) as [->|NR].
      + split; [intros X; injection X as <-; left; eexists; split; [reflexivity|apply part_rels]|].
        intros [(s & -> & P)|(-> & _ & _ & P)]; [|exfalso; eapply P; apply part_rels].
        f_equal. f_equal. inversion P; try reflexivity; exfalso; first [eapply MR; eassumption|auto].
      + destruct (in_dec string_dec k (t_list t)) as [I|I].
        * rewrite (GI k I). specialize (NF k I).
          assert (U : forall s, part_of d k s -> t_fs t (tmpl_path t k) = FData s).
          { intros s P. inversion P as [A B|A B|n y LM A B|n c LM F X1 X2 X3 A B]; subst; [exfalso; auto|exfalso; auto|exfalso; eapply NM; [reflexivity|exact LM]|assumption]. }
          destruct (t_fs t (tmpl_path t k)) as [|c|] eqn:F; [congruence| |].
          -- split; [intros X; injection X as <-; left; exists c; split; [reflexivity|now apply part_tmpl]|].
             intros [(s & -> & P)|(-> & _ & Z & _)]; [apply U in P; injection P as ->; reflexivity|discriminate].
          -- split; [intros X; injection X as <-; right; repeat split; [assumption|intros s P; apply U in P; discriminate]|].
             intros [(s & -> & P)|(-> & _)]; [apply U in P; discriminate|reflexivity].
        * rewrite (GN k I). cbn [fget]. split; [discriminate|].
          intros [(s & -> & P)|(-> & J & _)]; [|contradiction].
          inversion P as [A B|A B|n y LM A B|n c LM F X1 X2 X3 A B]; subst; exfalso; [auto|auto|eapply NM; [reflexivity|exact LM]|contradiction]. }
  intros k v. destruct (has_prefix MEDIA_FOLDER k) eqn:HP.
  - apply has_prefix_spec in HP. destruct HP as (n & ->). rewrite media_get. destruct (last_named n ms) as [y|] eqn:LN.
    + pose proof (proj1 (last_named_spec _ _ _) LN) as LM.
      split; [intros X; injection X as <-; left; eexists; split; [reflexivity|exact (part_media d n y LM)]|].
      intros [(s & -> & P)|(-> & _ & _ & P)]; [|exfalso; eapply P; exact (part_media d n y LM)].
      f_equal. f_equal. inversion P as [A B|A B|n' y' LM' A B|n' c LM' F X1 X2 X3 A B]; subst; try discriminate.
      * apply last_named_spec in LM'. fold ms in LM'. congruence.
      * exfalso. eapply X3; [reflexivity|exact LM].
    + apply BASE. intros x y X LM. apply media_inj in X. subst x. apply last_named_spec in LM. congruence.
  - assert (NM : forall n, k <> MEDIA_FOLDER ++ n) by (intros n ->; rewrite has_prefix_app in HP; discriminate).
    rewrite media_other by assumption. apply BASE. intros x y X. exfalso. exact (NM x X).
Qed.

Lemma write_entries_ok : forall o ar, write_entries o = Ok ar -> ar = o /\ Forall (fun x => write_entry x = Ok x) o.
Proof.
  induction o as [|(k, v) o IH]; intros ar E; cbn [write_entries] in E; [injection E as <-; auto|].
  apply bind_ok in E. destruct E as (e & W & E). apply bind_ok in E. destruct E as (a & R & E). injection E as <-.
  destruct (IH _ R) as (-> & F).
  assert (X : e = (k, v)). { unfold write_entry in W. cbn [fst snd] in W. destruct (65535 <? _)%N; [discriminate|]. destruct v; [|discriminate]. destruct (_ && _); [discriminate|]. now injection W as <-. }
  subst e. auto.
Qed.
Lemma write_entries_all : forall o, Forall (fun x => write_entry x = Ok x) o -> write_entries o = Ok o.
Proof. induction 1 as [|x o E F IH]; cbn [write_entries]; [reflexivity|]. now rewrite E, IH. Qed.

Lemma written_parts : forall d ar, writes d (Ok ar) -> NoDup (map fst ar) /\
  forall n c, In (n, c) ar <-> exists s, c = Some s /\ part_of d n s.
Proof.
  intros d ar W. unfold writes in W. destruct (pack_files d) as [m| |] eqn:P; try discriminate.
  destruct W as (o & PM & E). symmetry in E. apply write_entries_ok in E. destruct E as (-> & F).
  destruct (pack_files_get d m P) as (N & G).
  split; [eapply Permutation_NoDup; [apply Permutation_map; exact PM|exact N]|].
  intros n c. split.
  - intros I. assert (J : In (n, c) m) by (eapply Permutation_in; [apply Permutation_sym; exact PM|exact I]).
    apply fget_in in J; [|assumption]. apply G in J. destruct J as [J|(-> & _)]; [assumption|].
    rewrite Forall_forall in F. specialize (F _ I). unfold write_entry in F. cbn in F. destruct (65535 <? _)%N; discriminate.
  - intros J. eapply Permutation_in; [exact PM|]. apply fget_in; [assumption|]. apply G. now left.
Qed.
