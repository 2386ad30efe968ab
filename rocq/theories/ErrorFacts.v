(** Which calls return an error. *)
From Coq Require Import String Ascii List Bool Arith NArith ZArith Lia.
From Verif Require Import GoStr Num Lib Types XmlTok Unmarshal Docx Lex Rels Api Text Keep Copy Pack History SpecNum SpecLex SpecApi SpecPack SpecForm SpecSkip
  DecLemmas RoundTrip2 LexFacts RelsFacts CopyFacts2 PackFacts4 FormFacts SkipFacts SkipFacts2 SpecError.
Import ListNotations.
Local Open Scope list_scope.
Local Open Scope string_scope.

Section A.
Context `{L : GoLib}.

(** ** calls other than Parse *)
Ltac nv := repeat (first [apply ok_never|apply panic_never|apply bind_never|apply on_file_never|apply file_reg_never|intros [? ?]|intros]).
Lemma on_doc_never : forall w i k, (forall d, never_err (k d)) -> never_err (on_doc w i k).
Proof. intros w i k K. unfold on_doc. destruct (nth_error w i); [|apply panic_never]. apply bind_never; auto. intros. apply ok_never. Qed.
Lemma on_rpr_never : forall f r, never_err (on_rpr f r).
Proof. intros f r. unfold on_rpr. destruct (runR_rpr r); [apply ok_never|apply panic_never]. Qed.
Lemma rop_never : forall o r, never_err (exec_rop o r).
Proof.
  intros o r. destruct o; cbn [exec_rop]; try apply ok_never; try apply on_rpr_never.
  destruct (nth_error (runR_children r) k) as [c|]; [|apply panic_never]. apply bind_never; [|intros; apply ok_never].
  destruct c as [| | |i a]; destruct anch; try apply panic_never; destruct i, a; cbn; try apply ok_never; apply panic_never.
Qed.
Lemma pic_size_never : forall w h, never_err (pic_size w h).
Proof. intros w h. unfold pic_size. destruct (i64_eqb w i0); [apply panic_never|]. destruct (wide w h); apply ok_never. Qed.
Lemma pop_never : forall o w p, ~ no_picture o -> never_err (exec_pop o w p).
Proof.
  intros o w p N. destruct o; cbn [exec_pop]; try apply ok_never.
  - unfold add_link. nv.
  - cbn in N. unfold add_drawing. destruct (lib_imgsize data) as [[[sw sh] f]|]; [|now elim N].
    apply bind_never; [apply on_file_never|]. intros [[[idn id] r] w']. apply bind_never; [apply pic_size_never|]. intros [ew eh]. apply ok_never.
  - unfold add_shape. apply bind_never; [apply on_file_never|]. intros [[idn ids] w']. apply ok_never.
  - destruct (nth_error (para_children p) k) as [[r|id r|q]|]; try apply panic_never; (apply bind_never; [apply rop_never|intros; apply ok_never]).
Qed.
Lemma picture_fails : forall o w p, no_picture o -> exists e, exec_pop o w p = Err e.
Proof. intros o w p N. destruct o; cbn in N; try contradiction. cbn. unfold add_drawing. rewrite N. eauto. Qed.
Lemma append_items_never : forall to l w, never_err (append_items to l w).
Proof. intros to. induction l as [|x l IH]; intros w; cbn; [apply ok_never|]. apply bind_never; [apply copy_push_never|apply IH]. Qed.
Lemma split_never : forall t sep, (forall p e, sep p <> Err e) -> forall l cur fresh w, never_err (split_items t sep l cur fresh w).
Proof.
  intros t sep S. induction l as [|x l IH]; intros cur fresh w; cbn; [apply ok_never|].
  assert (K : forall cur w, never_err (bind (copy_push cur x w) (fun w' => split_items t sep l cur false w'))).
  { intros. apply bind_never; [apply copy_push_never|]. intros. apply IH. }
  destruct x; auto. apply bind_never; [intros e; apply S|]. intros [|]; cbn; destruct (negb fresh); auto.
Qed.

(** ** Parse *)
Lemma check_doc_from : forall f s d, (exists e, parse_doc_part f s d = Err e) \/ exists d', parse_doc_part f s d = Ok d' /\ d_reg d' = set_docid 100000 (d_reg d).
Proof. intros f s d. unfold parse_doc_part. destruct (root _ _ _) as [l []]; eauto. Qed.

(** rels and items before these parts are read *)
Definition clean_for (l : archive) (d : docx) : Prop :=
  (In RELS_PART (map fst l) -> rels (d_reg d) = [] /\ rid (d_reg d) = 0%N) /\ (In DOC_PART (map fst l) -> d_items d = []).
Definition blank (a : archive) : docx := mk_docx [] (mk_reg [] "" [] [] 0 0 0 []) (mk_tmpl "" (zip_open a) []) false.

Lemma entry_cases : forall f a e l d, clean_for (e :: l) d -> ~ In (fst e) (map fst l) ->
  (exists d', unpack_entry f d e = Ok d' /\ clean_for l d' /\ exists d0, unpack_entry f (blank a) e = Ok d0) \/
  (exists err err', unpack_entry f d e = Err err /\ unpack_entry f (blank a) e = Err err').
Proof.
  intros f a e l d [C1 C2] N. unfold unpack_entry.
  destruct (String.eqb (fst e) RELS_PART) eqn:E1.
  - apply String.eqb_eq in E1. cbn [map In] in C1. specialize (C1 (or_introl E1)). destruct C1 as [R I].
    destruct (read_entry e) as [s|]; [|right; do 2 eexists; split; reflexivity].
    unfold parse_doc_relation. rewrite R, I. cbn [blank d_reg rels rid].
    destruct (rels_root XMLNS_R [] (check [] (lex s))) as [[ns rl] st]. destruct st; try (right; do 2 eexists; split; reflexivity).
    destruct (max_id rl 0) as [m|]; [|right; do 2 eexists; split; reflexivity].
    left. eexists. split; [reflexivity|]. split; [|eexists; reflexivity]. split.
    + intros J. rewrite E1 in N. contradiction.
    + intros J. apply C2. now right.
  - destruct (String.eqb (fst e) DOC_PART) eqn:E2.
    + apply String.eqb_eq in E2. cbn [map In] in C2. specialize (C2 (or_introl E2)).
      destruct (read_entry e) as [s|]; [|right; do 2 eexists; split; reflexivity].
      unfold parse_doc_part. rewrite C2. cbn [blank d_items].
      destruct (root _ _ _) as [x []]; try (right; do 2 eexists; split; reflexivity).
      left. eexists. split; [reflexivity|]. split; [|eexists; reflexivity]. split.
      * intros J. apply C1. now right.
      * intros J. rewrite E2 in N. contradiction.
    + destruct (has_prefix MEDIA_FOLDER (fst e)) eqn:E3.
      * destruct (read_entry e) as [s|]; [|right; do 2 eexists; split; reflexivity].
        left. eexists. split; [reflexivity|]. split; [|eexists; reflexivity].
        split; intros J; [apply C1; now right|apply C2; now right].
      * left. eexists. split; [reflexivity|]. split; [|eexists; reflexivity].
        split; intros J; [apply C1; now right|apply C2; now right].
Qed.
Lemma alone : forall f e, unpack f [e] = bind (unpack_entry f (blank [e]) e) (fun d => Ok (set_d_reg (set_imgid 100000 (d_reg d)) d)).
Proof. intros f e. unfold unpack. cbn [unpack_entries]. unfold blank. now destruct (unpack_entry _ _ _). Qed.
Lemma refused_iff : forall w e, refused w e <-> exists err, unpack_entry (length w) (blank [e]) e = Err err.
Proof.
  intros w e. unfold refused, parse. rewrite alone. destruct (unpack_entry _ _ _) as [d|er|]; cbn; split; intros [x E]; try discriminate; eauto.
Qed.
Lemma entries_fail : forall w l d, NoDup (map fst l) -> clean_for l d ->
  ((exists d', unpack_entries (length w) d l = Ok d') /\ ~ exists e, In e l /\ refused w e) \/
  ((exists err, unpack_entries (length w) d l = Err err) /\ exists e, In e l /\ refused w e).
Proof.
  intros w. induction l as [|e l IH]; intros d ND C.
  - left. split; [eexists; reflexivity|]. intros [e [[] _]].
  - inversion ND as [|? ? N ND']; subst. cbn [unpack_entries].
    destruct (entry_cases (length w) [e] e l d C N) as [(d' & E & C' & d0 & E0)|(err & err' & E & E')].
    + rewrite E. cbn [bind]. destruct (IH d' ND' C') as [[A B]|[A B]].
      * left. split; auto. intros [x [[<-|I] R]]; [|now eauto]. apply (proj1 (refused_iff _ _)) in R. destruct R as [r R]. pose proof (eq_trans (eq_sym E0) R). discriminate.
      * right. split; auto. destruct B as [x [I R]]. exists x. split; [now right|auto].
    + right. rewrite E. cbn. split; [eauto|]. exists e. split; [now left|]. apply refused_iff. eauto.
Qed.
Lemma parse_fails : forall a w, NoDup (map fst a) -> ((exists err, parse a w = Err err) <-> exists e, In e a /\ refused w e).
Proof.
  intros a w ND. unfold parse, unpack.
  destruct (entries_fail w a (blank a) ND ltac:(split; intros; auto; split; reflexivity)) as [[[d' E] N]|[[r E] B]].
  - split; intros X; [|contradiction]. destruct X as [x X]. unfold blank in E. rewrite E in X. discriminate.
  - split; intros; auto. unfold blank in E. rewrite E. cbn. eauto.
Qed.
Lemma parse_no_panic : forall a w, parse a w <> Panic.
Proof.
  intros a w. unfold parse, unpack.
  assert (K : forall l d, unpack_entries (length w) d l <> Panic).
  { induction l as [|e l IH]; intros d; cbn; [discriminate|]. destruct (unpack_entry (length w) d e) as [x|x|] eqn:E; cbn; auto; try discriminate.
    exfalso. revert E. unfold unpack_entry, parse_doc_part, parse_doc_relation.
    destruct (String.eqb _ _); [destruct (read_entry e); [|discriminate]; destruct (rels_root _ _ _) as [[? ?] []]; try discriminate; destruct (max_id _ _); discriminate|].
    destruct (String.eqb _ _); [destruct (read_entry e); [|discriminate]; destruct (root _ _ _) as [? []]; discriminate|].
    destruct (has_prefix _ _); [destruct (read_entry e); discriminate|discriminate]. }
  specialize (K a (blank a)). unfold blank in K. destruct (unpack_entries _ _ _); cbn; congruence.
Qed.

Lemma err_iff : forall o w, decent o -> ((exists e, exec o w = Err e) <-> fails o w).
Proof.
  intros o w D.
  assert (Z : forall o, never_err (exec o w) -> ~ fails o w -> ((exists e, exec o w = Err e) <-> fails o w)).
  { intros o' A B. split; [intros [e E]; now elim (A e)|contradiction]. }
  destruct o; try (apply Z; [|now intros []]); cbn [exec fails].
  - apply ok_never.
  - apply ok_never.
  - destruct (nth_error w d) as [x|] eqn:Ex; [|split; [intros [e E]; discriminate|intros [(y & p & E & _) _]; discriminate]].
    destruct (get_para (d_items x) a) as [p|] eqn:Ep.
    2:{ split; [intros [e E]; discriminate|]. intros [(y & p & E & E') _]. injection E as <-. congruence. }
    split.
    + intros [e E]. split; [eauto|]. destruct o; cbn; try (exfalso; revert E; apply bind_never; [apply pop_never; auto|]; intros [w' p']; apply on_doc_never; intros; apply ok_never).
      destruct (lib_imgsize data) eqn:EI; auto. exfalso. revert E. apply bind_never; [apply pop_never; cbn; congruence|].
      intros [w' p']. apply on_doc_never; intros; apply ok_never.
    + intros [_ N]. destruct (picture_fails o w p N) as [e E]. exists e. now rewrite E.
  - split.
    + intros [e E]. destruct o; cbn; try (exfalso; revert E; apply bind_never; [apply pop_never; auto|]; intros [w' p']; apply ok_never).
      destruct (lib_imgsize data) eqn:EI; auto. exfalso. revert E. apply bind_never; [apply pop_never; cbn; congruence|].
      intros [w' p']. apply ok_never.
    + intros N. destruct (picture_fails o w p N) as [e E]. exists e. now rewrite E.
  - apply on_doc_never. intros. apply ok_never.
  - apply on_doc_never. intros x. destruct (get_cell _ _ _ _); [apply ok_never|apply panic_never].
  - apply on_doc_never. intros x. apply bind_never; [|intros [? ?]; apply ok_never]. unfold add_table.
    destruct (Z.ltb _ _); [apply panic_never|]. destruct (_ && _)%bool; [apply panic_never|]. destruct (use_colors col). apply ok_never.
  - apply on_doc_never. intros. apply ok_never.
  - apply on_doc_never. intros x. destruct (nth_error _ _) as [[]|]; try apply panic_never. apply bind_never; [|intros; apply ok_never].
    unfold table_justification. destruct (table_props _); [apply ok_never|apply panic_never].
  - apply on_doc_never. intros x. destruct (nth_error _ _) as [[]|]; try apply panic_never. destruct (nth_error _ _); [|apply panic_never].
    apply bind_never; [|intros; apply ok_never]. unfold row_justification. destruct (row_props _); [apply ok_never|apply panic_never].
  - apply on_doc_never. intros x. destruct (get_cell _ _ _ _); [|apply panic_never]. apply bind_never; [|intros; apply ok_never].
    unfold cell_shade. destruct (cell_props _); [apply ok_never|apply panic_never].
  - apply on_doc_never. intros. apply ok_never.
  - apply on_doc_never. intros. apply ok_never.
  - apply on_doc_never. intros. apply ok_never.
  - apply on_doc_never. intros. apply ok_never.
  - destruct (nth_error w d); [|apply panic_never]. unfold append_file. destruct (nth_error w from); [apply append_items_never|apply panic_never].
  - unfold split_by_paragraph. destruct (nth_error w d); [|apply panic_never]. destruct (d_items d0); [apply ok_never|]. apply split_never. exact D.
  - now apply parse_fails.
Qed.
End A.

(** ** the relationships *)
Lemma attr_id : forall a r, rel_id (rel_attr r a) = if String.eqb (snd (fst a)) "Id" then snd a else rel_id r.
Proof.
  intros [q v] r. unfold rel_attr. cbn [fst snd]. destruct (String.eqb (snd q) "Id"); auto.
  destruct (String.eqb (snd q) "Type"); auto. destruct (String.eqb (snd q) "Target"); auto. destruct (String.eqb (snd q) "TargetMode"); auto.
Qed.
Lemma given_id : forall a, given "Id" a (rel_id (u_rel a)).
Proof.
  intros a. unfold u_rel. induction a as [|x a IH] using rev_ind.
  - right. split; [reflexivity|]. intros y [].
  - rewrite fold_left_app. cbn [fold_left]. rewrite attr_id. destruct (String.eqb_spec (snd (fst x)) "Id") as [E|N].
    + left. exists a, x, []. repeat split; auto; intros y [].
    + destruct IH as [(a1 & y & a2 & E & E1 & E2 & K)|[E K]].
      * left. exists a1, y, (a2 ++ [x])%list. split; [now rewrite E, <- app_assoc|]. split; [exact E1|]. split; [exact E2|].
        intros z I. apply in_app_or in I. destruct I as [I|[<-|[]]]; auto.
      * right. split; auto. intros y I. apply in_app_or in I. destruct I as [I|[<-|[]]]; auto.
Qed.
Lemma given_fun : forall n a u v, given n a u -> given n a v -> u = v.
Proof.
  assert (K : forall (n : string) (a1 b1 a2 b2 : list attr) x y, (a1 ++ x :: a2 = b1 ++ y :: b2)%list -> snd (fst x) = n -> snd (fst y) = n ->
    (forall z, In z a2 -> snd (fst z) <> n) -> (forall z, In z b2 -> snd (fst z) <> n) -> x = y).
  { intros n. induction a1 as [|h a1 IH]; intros [|k b1] a2 b2 x y E X Y A B; cbn in E; injection E as E1 E2; subst; auto.
    - elim (A y); auto. apply in_or_app. right. now left.
    - elim (B x); auto. apply in_or_app. right. now left.
    - eapply IH; eauto. }
  intros n a u v [(a1 & x & a2 & E & E1 & <- & N)|[-> N]] [(b1 & y & b2 & F & F1 & <- & M)|[-> M]]; auto.
  - f_equal. apply (K n a1 b1 a2 b2); auto; congruence.
  - elim (M x); auto. rewrite E. apply in_or_app. right. now left.
  - elim (N y); auto. rewrite F. apply in_or_app. right. now left.
Qed.
Lemma numbered_iff : forall a, numbered a <-> has_num (u_rel a).
Proof.
  intros a. split.
  - intros (v & n & G & I). exists n. now rewrite (given_fun _ _ _ _ (given_id a) G).
  - intros [n I]. exists (rel_id (u_rel a)), n. split; auto. apply given_id.
Qed.
Definition rel_of (t : tree) : list rel := match t with Elem q a _ => if String.eqb (snd q) "Relationship" then [u_rel a] else [] | _ => [] end.
Lemma rels_forest : forall c acc n q k, (length c < n)%nat -> rels_n n acc (ftoks c ++ TEnd q :: k)%list = ((acc ++ flat_map rel_of c)%list, SOk).
Proof.
  induction c as [|t c IH]; intros acc n q k N; (destruct n as [|n]; [lia|]).
  - cbn. now rewrite app_nil_r.
  - rewrite ftoks_cons, <- app_assoc. cbn [length] in N. destruct t as [q0 a0 c0|s|].
    + rewrite toks_elem. cbn [rels_n flat_map rel_of].
      rewrite skip_forest. rewrite IH by lia. destruct (String.eqb (snd q0) "Relationship"); [now rewrite <- app_assoc|reflexivity].
    + cbn [toks app rels_n flat_map rel_of]. now rewrite IH by lia.
    + cbn [toks app rels_n flat_map rel_of]. now rewrite IH by lia.
Qed.
Lemma forest_length : forall c, (length c <= length (ftoks c))%nat.
Proof. induction c as [|t c IH]; [cbn; lia|]. rewrite ftoks_cons, app_length. destruct t; cbn [toks length]; lia. Qed.
Lemma rels_misc : forall pre ns ts, Forall misc pre -> rels_root ns [] (check [] (ftoks pre ++ ts)%list) = rels_root ns [] (check [] ts).
Proof. intros pre ns ts F. induction F as [|t pre M F IH]; auto. destruct t; [destruct M| |]; exact IH. Qed.
Lemma rels_accepted : forall (L : GoLib) pre q a c post s w, Forall misc pre ->
  list_spelling (pre ++ Elem q a c :: post)%list s ->
  ((exists w', parse [(RELS_PART, Some s)] w = Ok w') <->
   forall q' a' c', In (Elem q' a' c') c -> snd q' = "Relationship" -> numbered a').
Proof.
  intros L pre q a c post s w M S. pose proof (spelled_lex _ _ S) as E.
  assert (P : parse_doc_relation s (mk_reg [] "" [] [] 0 0 0 []) =
    match max_id (flat_map rel_of c) 0 with
    | Some m => Ok (mk_reg (flat_map rel_of c) (fold_left ns_attr a XMLNS_R) [] [] m 0 0 [])
    | None => Err ERR_RELID
    end).
  { unfold parse_doc_relation. rewrite E. unfold ftoks. rewrite flat_map_app. fold (ftoks pre). fold (ftoks (Elem q a c :: post)).
    cbn [rels]. rewrite rels_misc by assumption. rewrite ftoks_cons, check_tree, toks_elem. cbn [rels_root].
    rewrite (rels_forest c []); [reflexivity|]. rewrite app_length. pose proof (forest_length c). cbn [length]. lia. }
  assert (Q : (exists w', parse [(RELS_PART, Some s)] w = Ok w') <-> Forall has_num (flat_map rel_of c)).
  { unfold parse. rewrite alone. unfold unpack_entry. cbn [fst]. rewrite String.eqb_refl.
    change (read_entry (RELS_PART, Some s)) with (Some s). cbn [blank d_reg]. rewrite P.
    split.
    - intros [w' X]. destruct (max_id (flat_map rel_of c) 0) as [m|] eqn:EM; [|discriminate]. eapply max_id_inv; eauto.
    - intros F. destruct (max_id_some _ 0%N F) as (k & -> & _). cbn. eauto. }
  rewrite Q, Forall_forall. split.
  - intros F q' a' c' I N. apply numbered_iff, F, in_flat_map. exists (Elem q' a' c'). split; auto. cbn. rewrite N. now left.
  - intros F r I. apply in_flat_map in I. destruct I as [[q' a' c'|x|] [I J]]; try destruct J. cbn in J.
    destruct (String.eqb_spec (snd q') "Relationship") as [N|N]; [|destruct J]. destruct J as [<-|[]]. apply numbered_iff. eauto.
Qed.

(** ** the other parts *)
Lemma main_refused : forall (L : GoLib) s w, refused w (DOC_PART, Some s) <-> snd (parse_document (Some (length w)) (lex s)) <> SOk.
Proof.
  intros L s w. rewrite refused_iff. unfold unpack_entry. cbn [fst]. change (String.eqb DOC_PART RELS_PART) with false. rewrite String.eqb_refl.
  change (read_entry (DOC_PART, Some s)) with (Some s). unfold parse_doc_part, parse_document. cbn [blank d_items].
  change (u_document_from (Some (length w)) []) with (u_document (Some (length w))).
  destruct (root _ _ _) as [x st]. destruct st; cbn; split; intros X; eauto; try discriminate; try congruence; destruct X; discriminate.
Qed.
Lemma other_accepted : forall (L : GoLib) w n o, ~ looked_at n -> ~ refused w (n, o).
Proof.
  intros L w n o N R. rewrite refused_iff in R. destruct R as [e R]. revert R. unfold unpack_entry. cbn [fst].
  destruct (String.eqb_spec n RELS_PART) as [E|_]; [elim N; now left|].
  destruct (String.eqb_spec n DOC_PART) as [E|_]; [elim N; right; now left|].
  destruct (has_prefix MEDIA_FOLDER n) eqn:E; [|discriminate]. apply has_prefix_spec in E. destruct E as [x E]. elim N. right. right. eauto.
Qed.
Lemma media_refused : forall (L : GoLib) w x o, refused w ("word/media/" ++ x, o) <->
  (o = None \/ exists s, o = Some s /\ ends_slash ("word/media/" ++ x) = true /\ s <> "").
Proof.
  intros L w x o. rewrite refused_iff. unfold unpack_entry. cbn [fst].
  destruct (String.eqb_spec ("word/media/" ++ x) RELS_PART) as [E|_]; [discriminate|].
  destruct (String.eqb_spec ("word/media/" ++ x) DOC_PART) as [E|_]; [discriminate|].
  assert (P : has_prefix MEDIA_FOLDER ("word/media/" ++ x) = true) by (apply has_prefix_spec; eauto). rewrite P.
  unfold read_entry. cbn [fst snd]. destruct o as [s|].
  - destruct (ends_slash ("word/media/" ++ x)); cbn [andb].
    + destruct (String.eqb_spec s "") as [->|NS]; cbn [negb]; split.
      * intros [e E]; discriminate.
      * intros [E|(s & E & _ & K)]; [discriminate|]. injection E as <-. now elim K.
      * right. exists s. auto.
      * eauto.
    + split; [intros [e E]; discriminate|]. intros [E|(s' & _ & E & _)]; discriminate.
  - split; eauto.
Qed.
Lemma unreadable_refused : forall (L : GoLib) w n, looked_at n -> refused w (n, None).
Proof.
  intros L w n [->|[->|[x ->]]]; rewrite refused_iff.
  - eexists. reflexivity.
  - eexists. reflexivity.
  - rewrite <- refused_iff, media_refused. now left.
Qed.
Lemma without_parts : forall (L : GoLib) a w, NoDup (map fst a) -> (forall e, In e a -> ~ looked_at (fst e)) ->
  exists w' d, parse a w = Ok w' /\ w' = (w ++ [d])%list /\ d_items d = [].
Proof.
  intros L a w ND K. destruct (parse a w) as [w'|e|] eqn:E.
  - destruct (parse_inv _ _ _ E) as [d [-> U]]. do 2 eexists. split; [reflexivity|]. split; [reflexivity|].
    unfold unpack in U. destruct (unpack_entries (length w) _ a) as [d1|e|] eqn:E1; try discriminate. cbn in U. injection U as <-. cbn [d_items set_d_reg].
    assert (G : forall l d d', (forall e, In e l -> ~ looked_at (fst e)) -> unpack_entries (length w) d l = Ok d' -> d_items d' = d_items d).
    { clear. induction l as [|e l IH]; intros d d' K E; cbn in E; [now injection E as <-|].
      assert (N := K e (or_introl eq_refl)). unfold unpack_entry in E.
      destruct (String.eqb_spec (fst e) RELS_PART) as [X|_]; [elim N; now left|].
      destruct (String.eqb_spec (fst e) DOC_PART) as [X|_]; [elim N; right; now left|].
      destruct (has_prefix MEDIA_FOLDER (fst e)) eqn:X; [apply has_prefix_spec in X; destruct X as [x X]; elim N; right; right; eauto|].
      cbn [bind] in E. rewrite (IH _ _ (fun e I => K e (or_intror I)) E). reflexivity. }
    rewrite (G _ _ _ K E1). reflexivity.
  - exfalso. destruct (proj1 (parse_fails a w ND)) as [x [I R]]; [eauto|]. destruct x as [n o]. revert R. apply other_accepted. exact (K _ I).
  - exfalso. revert E. apply parse_no_panic.
Qed.
