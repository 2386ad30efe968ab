(** Packages that were complete when they were opened. *)
From Coq Require Import String Ascii List Bool Arith NArith ZArith Lia Permutation.
From Verif Require Import GoStr Num Lib Types XmlTok Docx Api Keep Copy Marshal Lex Rels Pack History Theme SpecApi SpecLex SpecPack SpecOpc
  SpecEdit LexFacts LexFacts2 LexFacts3 RegFacts HistFacts HistFacts2 RelsFacts PackFacts PackFacts2 PackFacts3 PackFacts4 PackFacts5 IdFacts ApiFacts StableFacts2 CopyFacts NewFacts OpcFacts.
Import ListNotations.
Local Open Scope list_scope.
Local Open Scope string_scope.

(** ** relationships come from elements *)
Lemma skip_in : forall ts n st ts' t, skip_from n ts = (st, ts') -> In t ts' -> In t ts.
Proof.
  induction ts as [|x ts IH]; intros n st ts' t E I; cbn [skip_from] in E; [injection E as _ <-; exact I|].
  destruct x; try (right; eapply IH; eassumption); try (injection E as _ <-; cbn in *; now auto).
  destruct n; [injection E as _ <-; now right|right; eapply IH; eassumption].
Qed.
Lemma check_in : forall ts k q a, In (TStart q a) (check k ts) -> In (TStart q a) ts.
Proof.
  induction ts as [|x ts IH]; intros k q a I; cbn [check] in I; [destruct k; cbn in I; intuition discriminate|].
  destruct x as [q0 a0|q0|s| | |].
  - destruct I as [I|I]; [left; congruence|right; eauto].
  - destruct k as [|q' k]; [destruct I as [I|[]]; discriminate|]. destruct (_ && _); [destruct I as [I|I]; [discriminate|right; eauto]|destruct I as [I|[]]; discriminate].
  - destruct I as [I|I]; [discriminate|right; eauto].
  - destruct I as [I|I]; [discriminate|right; eauto].
  - destruct I as [I|[]]; discriminate.
  - right; eauto.
Qed.
Definition from_elem (ts : list token) (r : rel) : Prop := exists q a, In (TStart q a) ts /\ snd q = "Relationship" /\ r = u_rel a.
Lemma rels_n_from : forall n l ts r, In r (fst (rels_n n l ts)) -> In r l \/ from_elem ts r.
Proof.
  induction n as [|n IH]; intros l ts r I; cbn [rels_n] in I; [now left|]. destruct ts as [|t ts]; [now left|].
  assert (K : forall l' ts', (forall t, In t ts' -> In t ts) -> In r (fst (rels_n n l' ts')) -> In r l' \/ from_elem (t :: ts) r).
  { intros l' ts' S J. destruct (IH _ _ _ J) as [A|(q & a & A & B & C)]; [now left|right]. exists q, a. split; [right; auto|auto]. }
  destruct t; try (now left); try (eapply K; [|exact I]; auto; fail).
  unfold skip in I. destruct (skip_from 0 ts) as (st, ts') eqn:S. destruct st; try (now left).
  destruct (K _ _ (fun t => skip_in _ _ _ _ t S) I) as [A|A]; [|now right].
  destruct (String.eqb (snd q) "Relationship") eqn:Q; [|now left]. apply in_app_iff in A as [A|[<-|[]]]; [now left|]. right. exists q, a. split; [now left|]. split; [now apply String.eqb_eq|reflexivity].
Qed.
Lemma rels_root_from : forall ts ns l r, In r (snd (fst (rels_root ns l ts))) -> In r l \/ from_elem ts r.
Proof.
  induction ts as [|t ts IH]; intros ns l r I; cbn [rels_root] in I; [now left|].
  destruct t; try (now left); try (destruct (IH _ _ _ I) as [A|(q' & a' & A & B)]; [now left|right; exists q', a'; split; [now right|exact B]]).
  destruct (rels_n _ l ts) as (l', st) eqn:E. cbn [fst snd] in I. destruct (rels_n_from (S (length ts)) l ts r) as [A|(q' & a' & A & B)]; [now rewrite E|now left|].
  right. exists q', a'. split; [now right|exact B].
Qed.
Lemma parse_from : forall s g g' r, parse_doc_relation s g = Ok g' -> In r (rels g') -> In r (rels g) \/ exists a, In a (elems s "Relationship") /\ r = u_rel a.
Proof.
  intros s g g' r E I. unfold parse_doc_relation in E. pose proof (rels_root_from (check [] (lex s)) XMLNS_R (rels g) r) as K.
  destruct (rels_root _ _ _) as ((ns, l), st). destruct st; try discriminate. destruct (max_id l (rid g)); [|discriminate]. injection E as <-. cbn [rels fst snd] in *.
  destruct (K I) as [A|(q & a & A & B & C)]; [now left|right]. exists a. split; [|exact C]. apply check_in in A. unfold elems. apply in_flat_map. exists (TStart q a). split; [exact A|].
  apply String.eqb_eq in B. rewrite B. now left.
Qed.
Section L.
Context `{GoLib}.
Lemma entries_from : forall f l d d' r, unpack_entries f d l = Ok d' -> In r (rels (d_reg d')) ->
  In r (rels (d_reg d)) \/ exists s a, In (RELS_PART, Some s) l /\ In a (elems s "Relationship") /\ r = u_rel a.
Proof.
  intros f. induction l as [|e l IH]; intros d d' r E I; cbn [unpack_entries] in E; [injection E as <-; now left|]. apply bind_ok in E as (d1 & E1 & E).
  destruct (IH _ _ _ E I) as [A|(s & a & A & B)]; [|right; exists s, a; split; [now right|exact B]]. unfold unpack_entry in E1.
  destruct (String.eqb_spec (fst e) RELS_PART) as [R|R].
  - destruct e as (n, c). cbn [fst] in R. subst n. unfold read_entry in E1. cbn [fst snd] in E1. destruct c as [s|]; [|discriminate]. change (ends_slash RELS_PART) with false in E1. cbn [andb] in E1.
    apply bind_ok in E1 as (g & P & E1). injection E1 as <-. cbn [d_reg set_d_reg] in A. destruct (parse_from _ _ _ _ P A) as [B|(a & B & C)]; [now left|right; exists s, a; split; [now left|auto]].
  - left. destruct (String.eqb (fst e) DOC_PART); [destruct (read_entry e) as [s|]; [|discriminate]; unfold parse_doc_part in E1; destruct (root _ _ _) as (x, st); destruct st; try discriminate; injection E1 as <-; exact A|].
    destruct (has_prefix MEDIA_FOLDER (fst e)); [destruct (read_entry e); [|discriminate]|]; injection E1 as <-; exact A.
Qed.
Lemma loaded_from : forall f a d r, unpack f a = Ok d -> In r (rels (d_reg d)) -> exists s x, In (MAIN_RELS, Some s) a /\ In x (elems s "Relationship") /\ r = u_rel x.
Proof.
  intros f a d r E I. unfold unpack in E. apply bind_ok in E as (d1 & E & E2). injection E2 as <-. destruct (entries_from _ _ _ _ _ E I) as [[]|K]. exact K.
Qed.
End L.
Lemma fold_keeps : forall (P : rel -> string) l, (forall r x, snd (fst x) <> l -> P (rel_attr r x) = P r) ->
  forall a r, ~ In l (map (fun x : attr => snd (fst x)) a) -> P (fold_left rel_attr a r) = P r.
Proof.
  intros P l K. induction a as [|x a IH]; intros r N; [reflexivity|]. cbn [fold_left]. rewrite IH; [|intros J; apply N; now right]. apply K. intros J. apply N. now left.
Qed.
Lemma fold_takes : forall (P : rel -> string) l, (forall r x, snd (fst x) <> l -> P (rel_attr r x) = P r) -> (forall r x, snd (fst x) = l -> P (rel_attr r x) = snd x) ->
  forall a r v, names_differ a -> value l a = Some v -> P (fold_left rel_attr a r) = v.
Proof.
  intros P l K1 K2. induction a as [|x a IH]; intros r v N V; [discriminate|]. inversion N as [|? ? N1 N2]; subst. unfold value in V. cbn [find] in V. cbn [fold_left].
  destruct (String.eqb_spec (snd (fst x)) l) as [E|E]; [|now apply IH]. cbn in V. injection V as <-. rewrite (fold_keeps P l K1); [auto|now rewrite <- E].
Qed.
Lemma rel_mode_value : forall a v, names_differ a -> value "TargetMode" a = Some v -> rel_mode (u_rel a) = v.
Proof.
  intros a v. apply (fold_takes rel_mode "TargetMode").
  - intros r ((p, n), w) E. unfold rel_attr. cbn in *. apply String.eqb_neq in E. rewrite E. repeat match goal with |- context [if ?b then _ else _] => destruct b end; reflexivity.
  - intros r ((p, n), w) E. cbn in E. subst n. reflexivity.
Qed.
Lemma rel_target_value : forall a v, names_differ a -> value "Target" a = Some v -> rel_target (u_rel a) = v.
Proof.
  intros a v. apply (fold_takes rel_target "Target").
  - intros r ((p, n), w) E. unfold rel_attr. cbn in *. apply String.eqb_neq in E. rewrite E. repeat match goal with |- context [if ?b then _ else _] => destruct b end; reflexivity.
  - intros r ((p, n), w) E. cbn in E. subst n. reflexivity.
Qed.

(** ** growth *)
Definition fresh (g : reg) (r : rel) : Prop := rel_mode r = "External" \/ exists m, In m (media g) /\ rel_target r = "media/" ++ fst m.
Definition from_or_fresh (g0 g : reg) : Prop := (forall r, In r (rels g) -> In r (rels g0) \/ fresh g r) /\ (forall m, In m (media g0) -> In m (media g)).
Lemma steps_from : forall g0 g g', reg_steps g g' -> from_or_fresh g0 g -> from_or_fresh g0 g'.
Proof.
  intros g0 g g' S. induction S as [g|g g1 g2 S1 S IH]; auto. intros (A & B). apply IH.
  destruct S1 as [g|n g|l g|f d g].
  - split; auto.
  - split; auto.
  - split; [|exact B]. intros r I. cbn in I. apply in_app_iff in I as [I|[<-|[]]]; [exact (A r I)|]. right. left. reflexivity.
  - split; [|intros m I; cbn; apply in_app_iff; auto]. intros r I. cbn in I. apply in_app_iff in I as [I|[<-|[]]].
    + destruct (A r I) as [K|[K|(m & J & K)]]; [now left|right; now left|right; right]. exists m. split; [cbn; apply in_app_iff; now left|exact K].
    + right. right. eexists. split; [cbn; apply in_app_iff; right; left; reflexivity|reflexivity].
Qed.

Lemma xml_ascii : forall r s, (r < 128)%N -> xml_string (encode r ++ s) -> xml_string s.
Proof.
  intros r s L X. apply (xml_string_tail r s X). unfold encode. destruct (N.ltb_spec r 128); [|lia]. cbn [append rune_at String.length].
  rewrite N_ascii_embedding by lia. destruct (N.ltb_spec r 128); [reflexivity|lia].
Qed.
Lemma xml_media : forall n, xml_string ("word/media/" ++ n) -> xml_string n.
Proof.
  intros n X. cbn [append] in X.
  do 11 (match type of X with xml_string (String ?c ?s) => let k := eval vm_compute in (N_of_ascii c) in apply (xml_ascii k s) in X; [|reflexivity] end). exact X.
Qed.

(** ** the package after editing *)
Section E.
Context `{GoLib}.
Lemma edited_complete : forall a w0 w1 l w d ar, ordinary a -> parse a w0 = Ok w1 -> complete (files_of a) -> plain_rels a ->
  run_ops l w1 = Some w -> Forall (no_template (length w0)) l -> nth_error w (length w0) = Some d -> writes d (Ok ar) ->
  (forall m, In m (media (d_reg d)) -> (forall c, ~ files_of a ("word/media/" ++ fst m) c) -> xml_string (fst m)) ->
  exists ct, files_of a TYPES_NAME ct /\
    (complete (files_of ar) <-> forall m, In m (media (d_reg d)) -> (forall c, ~ files_of a ("word/media/" ++ fst m) c) -> exists ty, content_type ct ("word/media/" ++ fst m) ty).
Proof.
  intros a w0 w1 l w d ar O P CA PR R F N W XM'.
  assert (OLD : forall m, In m (media (d_reg d)) -> (exists c, files_of a ("word/media/" ++ fst m) c) \/ forall c, ~ files_of a ("word/media/" ++ fst m) c).
  { intros m _. destruct (in_dec string_dec ("word/media/" ++ fst m) (map fst a)) as [I|I].
    - left. apply in_map_iff in I as ((k, c) & E & I). cbn [fst] in E. subst k. destruct c as [c|]; [exists c; exact I|exfalso; exact (proj2 (proj2 (proj2 O _ _ I)) eq_refl)].
    - right. intros c J. apply I. apply in_map_iff. exists ("word/media/" ++ fst m, Some c). auto. }
  assert (XM : forall m, In m (media (d_reg d)) -> xml_string (fst m)).
  { intros m I. destruct (OLD m I) as [(c & J)|J]; [|auto]. apply xml_media. destruct (proj1 (proj2 O _ _ J)) as (? & _ & _ & _ & X). exact X. }
 pose proof P as P'. apply parse_inv in P'. destruct P' as (d0 & E1 & U).
  assert (N0 : nth_error w1 (length w0) = Some d0) by (rewrite E1, nth_error_app2, Nat.sub_diag by lia; reflexivity).
  destruct (unpack_inv _ _ _ U) as (T0 & M & _).
  pose proof (edited_parts a w0 w1 l w d ar O P R F N W) as EP.
  assert (G : from_or_fresh (d_reg d0) (d_reg d)).
  { apply (steps_from _ (d_reg d0)); [|split; auto]. destruct (run_ops_grows _ _ _ R _ _ N0) as (d' & A & B). congruence. }
  destruct G as (GR & GM).
  assert (KEEP : forall n c, files_of a n c -> exists c', files_of ar n c').
  { intros n c I. destruct (string_dec n RELS_NAME) as [->|NR]; [eexists; apply (rels_part d ar W)|]. destruct (string_dec n DOC_NAME) as [->|ND]; [apply (doc_part d ar W)|].
    destruct (has_prefix "word/media/" n) eqn:HP; [|exists c; now apply EP].
    apply has_prefix_spec in HP. destruct HP as (x & ->). apply (media_part d ar (x, c) W). apply GM. rewrite M. apply in_flat_map. exists ("word/media/" ++ x, Some c). split; [exact I|].
    unfold media_entry. cbn [fst]. change "word/media/" with MEDIA_FOLDER. rewrite has_prefix_app.
    destruct (has_prefix_drop MEDIA_FOLDER (MEDIA_FOLDER ++ x) (has_prefix_app _ _)) as (t & -> & E). apply media_inj in E. subst t.
    unfold read_entry. cbn [fst snd]. rewrite plain_no_slash by exact (proj1 (proj2 O _ _ I)). now left. }
  assert (FOUND : forall dir t, found (files_of a) dir t -> found (files_of ar) dir t).
  { intros dir t (n & n' & c & A & B & C). destruct (KEEP _ _ C) as (c' & C'). exists n, n', c'. auto. }
  assert (SAME : forall n c, n = TYPES_NAME \/ n = ROOT_RELS -> files_of a n c -> files_of ar n c).
  { intros n c [->| ->] I; apply EP; auto; discriminate. }
  destruct CA as [(ct & CT & CP & C1 & C2 & C3) (b & CB & CC & CM) (rb & cb & RB & _ & RC)]. exists ct. split; [exact CT|].
  rewrite (complete_iff d ar ct b W); auto.
  - unfold media_typed. split; intros K m I; [auto|]. destruct (OLD m I) as [(c & J)|J]; [|auto]. apply (CP _ c J). discriminate.
  - intros x I. destruct (CC x I) as [K|(t & A & B)]; [now left|right; eauto].
  - intros n c I NT NM. destruct (string_dec n RELS_NAME) as [->|NR]; [eauto|]. destruct (string_dec n DOC_NAME) as [->|ND]; [eauto|].
    destruct (has_prefix "word/media/" n) eqn:HP; [exfalso|apply (CP n c); [now apply EP|exact NT]].
    apply (proj2 (written_parts d ar W)) in I as (s & _ & Q). inversion Q as [A B|A B|n' y LM A B|n' c' LM FD X1 X2 X3 A B]; subst; try contradiction.
    + destruct LM as (l1 & l2 & E & E1 & _). apply (NM y); [rewrite E; apply in_app_iff; right; now left|congruence].
    + destruct (run_tmpl _ _ _ _ R F d0 N0) as (d' & N' & T). rewrite N in N'. injection N' as <-. rewrite T, T0 in LM. cbn [t_list] in LM. apply filter_In in LM as (_ & LM).
      unfold is_rest in LM. change MEDIA_FOLDER with "word/media/" in LM. rewrite HP in LM. rewrite !orb_true_r in LM. discriminate.
  - intros r I. destruct (GR r I) as [K|[K|(m & J & K)]]; [|now left|right].
    + destruct (loaded_from _ _ _ _ U K) as (s & x & A & B & E). subst r.
      assert (SB : s = rb) by (unfold files_of in RB; apply fget_in in RB; [|exact (proj1 O)]; apply fget_in in A; [|exact (proj1 O)]; congruence). subst s.
      pose proof (PR _ _ A B) as ND. destruct (RC x B) as [V|(t & V & FO)]; [left; now apply rel_mode_value|right].
      destruct (unpack_loaded _ _ _ (proj1 O) U) as (_ & (_ & XR) & _). specialize (XR _ K). unfold rel_strings in XR.
      inversion XR as [|? ? _ X1]; subst. inversion X1 as [|? ? _ X2]; subst. inversion X2 as [|? ? X3 _]; subst. split; [exact X3|].
      rewrite (rel_target_value x t ND V). now apply FOUND.
    + rewrite K. split; [apply xml_app; [apply (legal_xml _ _ (le_n _)); vm_compute; reflexivity|auto]|].
      destruct (media_part d ar m W J) as (c & C). exists ("word/" ++ "media/" ++ fst m), ("word/media/" ++ fst m), c. split; [constructor|split; [reflexivity|exact C]].
Qed.
(** saved as it is *)
Lemma saved_complete : forall f a d ar, ordinary a -> unpack f a = Ok d -> complete (files_of a) -> plain_rels a -> writes d (Ok ar) -> complete (files_of ar).
Proof.
  intros f a d ar O U C PR W. set (w0 := repeat d f). assert (LW : length w0 = f) by apply repeat_length.
  assert (P : parse a w0 = Ok (w0 ++ [d])%list) by (unfold parse; rewrite LW, U; reflexivity).
  assert (N : nth_error (w0 ++ [d])%list (length w0) = Some d) by (rewrite nth_error_app2, Nat.sub_diag by lia; reflexivity).
  assert (OLD : forall m, In m (media (d_reg d)) -> ~ forall c, ~ files_of a ("word/media/" ++ fst m) c).
  { intros m I K. destruct (unpack_inv _ _ _ U) as (_ & M & _). rewrite M in I. apply media_entry_in in I as (c & I & R). change MEDIA_FOLDER with "word/media/" in I.
    destruct c as [c|]; [|exact (proj2 (proj2 (proj2 O _ _ I)) eq_refl)]. exact (K c I). }
  destruct (edited_complete a w0 _ [] _ d ar O P C PR eq_refl (Forall_nil _) N W) as (ct & _ & E).
  - intros m I K. destruct (OLD m I K).
  - apply E. intros m I K. destruct (OLD m I K).
Qed.
End E.
(** without content types *)
Lemma no_types : forall d ar, writes d (Ok ar) -> ~ In TYPES_NAME (t_list (d_tmpl d)) -> ~ complete (files_of ar).
Proof.
  intros d ar W N [(ct & I & _) _ _]. apply (proj2 (written_parts d ar W)) in I as (s & _ & Q).
  inversion Q as [A B|A B|n' y LM A B|n' c' LM FD X1 X2 X3 A B]; subst; auto.
Qed.

(** ** ordinary archives, by computation *)
Definition plain_elemb (x : string) : bool :=
  negb (String.eqb x "" || String.eqb x "." || String.eqb x "..") && Nat.eqb (count "/" x) 0 && Nat.eqb (count "\" x) 0.
Definition ordinaryb (a : archive) : bool :=
  forallb (fun e => forallb plain_elemb (split "/" (fst e)) && legal (fst e) && (N.of_nat (String.length (fst e)) <=? 65535)%N && match snd e with Some _ => true | None => false end) a.
Lemma ordinary_by : forall a, NoDup (map fst a) -> ordinaryb a = true -> ordinary a.
Proof.
  intros a N B. split; [exact N|]. intros n c I. unfold ordinaryb in B. rewrite forallb_forall in B. specialize (B _ I). cbn [fst snd] in B.
  apply andb_prop in B as (B & B4). apply andb_prop in B as (B & B3). apply andb_prop in B as (B1 & B2). split; [|split; [now apply N.leb_le|destruct c; [discriminate|discriminate B4]]].
  exists (split "/" n). split; [destruct (split "/" n) eqn:E; [pose proof (split_length "/" n) as L; rewrite E in L; discriminate|discriminate]|].
  split; [|split; [symmetry; apply join_split|exact (legal_xml _ _ (le_n _) B2)]]. apply Forall_forall. intros x X. rewrite forallb_forall in B1. specialize (B1 _ X).
  unfold plain_elemb in B1. apply andb_prop in B1 as (B1 & C2). apply andb_prop in B1 as (B1 & C1). apply Nat.eqb_eq in C1, C2. apply negb_true_iff in B1. apply orb_false_elim in B1 as (B1 & D3). apply orb_false_elim in B1 as (D1 & D2).
  apply String.eqb_neq in D1, D2, D3. repeat split; auto.
Qed.
