(** What is left in the package of a document. *)
From Coq Require Import String Ascii List Bool Arith NArith ZArith Lia.
From Verif Require Import GoStr Num Lib Types XmlTok Marshal Docx Api Keep Copy Lex Rels Pack History SpecLex SpecApi SpecPack SpecOpc SpecLeft LexFacts LexFacts2 LexFacts3 DecLemmas RelsFacts
  RegFacts IdFacts HistFacts HistFacts2 DrawIds HistInv PackFacts PackFacts2 PackFacts3 CopyFacts StableFacts2 ReopenFacts HomeFacts OpcFacts LeftFacts.
Import ListNotations.
Local Open Scope list_scope.
Local Open Scope string_scope.

(** ** every media file has a relationship *)
Definition pointed (g : reg) : Prop := forall m, In m (media g) -> exists r, In r (rels g) /\ rel_target r = "media/" ++ fst m /\ rel_mode r = "".
Lemma step_pointed : forall g g', reg_step g g' -> pointed g -> pointed g'.
Proof.
  intros g g' S P. destruct S as [g|n g|l g|f d g]; try exact P.
  - intros m I. destruct (P m I) as (r & R & T). exists r. split; auto. cbn. apply in_or_app. now left.
  - intros m I. cbn in I. apply in_app_iff in I as [I|[<-|[]]].
    + destruct (P m I) as (r & R & T). exists r. split; auto. cbn. apply in_or_app. now left.
    + eexists. split; [cbn; apply in_or_app; right; left; reflexivity|split; reflexivity].
Qed.
Lemma steps_pointed : forall g g', reg_steps g g' -> pointed g -> pointed g'.
Proof. intros g g' S. induction S; auto. intros P. apply IHS. eapply step_pointed; eauto. Qed.
Lemma empty_pointed : pointed empty_reg. Proof. intros m []. Qed.
Definition JP (i : nat) (w : world) : Prop := forall d, nth_error w i = Some d -> pointed (d_reg d).
Lemma grows_JP : forall i w w', grows w w' -> length w' = length w -> JP i w -> JP i w'.
Proof.
  intros i w w' G L Q d N. destruct (nth_error w i) as [e|] eqn:E.
  - destruct (G i e E) as (e' & A & B). rewrite N in A. injection A as ->. eapply steps_pointed; eauto.
  - apply nth_error_None in E. apply nth_lt in N. lia.
Qed.
Lemma JP_app : forall i w x, JP i w -> pointed (d_reg x) -> JP i (w ++ [x])%list.
Proof.
  intros i w x Q U d N. destruct (lt_dec i (length w)) as [L|L]; [rewrite nth_error_app1 in N by lia; auto|].
  rewrite nth_error_app2 in N by lia. destruct (i - length w) as [|k]; [injection N as <-; exact U|destruct k; discriminate].
Qed.
Lemma parts_JP : forall i t ps w w', parts_of t ps w w' -> JP i w -> JP i w'.
Proof.
  induction 1 as [w|s ps w w1 w2 A P IH]; intros Q; [exact Q|]. apply IH. eapply grows_JP; [eapply append_items_grows; eauto|exact (proj1 (append_items_only _ _ _ _ A))|].
  apply JP_app; auto. exact empty_pointed.
Qed.
Section H.
Context `{GoLib}.
Lemma exec_JP : forall i o w w', exec o w = Ok w' -> adding i o -> JP i w -> JP i w'.
Proof.
  intros i o w w' E A R. pose proof (exec_grows _ _ _ E) as G. destruct o; cbn in E; try (destruct A; fail);
    try (apply (grows_JP i w); [exact G|eapply on_doc_length; exact E|exact R]).
  - injection E as <-. apply JP_app; auto. exact empty_pointed.
  - apply (grows_JP i w); [exact G| |exact R]. destruct (nth_error w d) as [x|]; [|discriminate]. destruct (get_para (d_items x) a); [|discriminate].
    bok E. destruct v as [w1 p1]. apply on_doc_length in E. rewrite E. now apply exec_pop_items in E0 as (_ & K & _).
  - apply (grows_JP i w); [exact G| |exact R]. bok E. destruct v as [w1 p1]. injection E as <-. now apply exec_pop_items in E0 as (_ & K & _).
  - apply (grows_JP i w); [exact G| |exact R]. destruct (nth_error w d); [|discriminate]. unfold append_file in E. destruct (nth_error w from); [|discriminate].
    exact (proj1 (append_items_only _ _ _ _ E)).
  - destruct (nth_error w d) as [x|] eqn:N; [|unfold split_by_paragraph in E; rewrite N in E; discriminate].
    destruct (split_parts _ _ _ _ _ N E) as (ps & _ & P). eapply parts_JP; eauto.
Qed.
Lemma run_JJ : forall i l w w', run_ops l w = Some w' -> Forall (adding i) l -> home w -> J i w -> JP i w -> J i w' /\ JP i w'.
Proof.
  intros i. induction l as [|o l IH]; intros w w' E F HM Q R; cbn in E; [injection E as <-; auto|]. inversion F; subst.
  destruct (exec o w) as [w1|e|] eqn:X; [|eauto|discriminate]. eapply IH; eauto.
  - eapply exec_home; eauto. destruct o; cbn in *; auto; contradiction.
  - eapply exec_J; eauto.
  - eapply exec_JP; eauto.
Qed.
End H.

(** ** from the body to the file *)
Inductive inside (x : tree) : tree -> Prop :=
| in_here : inside x x
| in_kid q a c k : In k c -> inside x k -> inside x (Elem q a c).
Lemma inside_trans : forall x y z, inside x y -> inside y z -> inside x z.
Proof. intros x y z A B. induction B; auto. eapply in_kid; eauto. Qed.
Lemma inside_cleaned : forall q a c t, inside (Elem q a c) t -> forall t', cleaned_tree t t' ->
  exists a', Forall2 (fun x y => fst x = fst y /\ cleaned (snd x) (snd y)) a a' /\ In (TStart q a') (toks t').
Proof.
  intros q a c t I. induction I as [|q1 a1 c1 k K I IH]; intros t' C; inversion C as [? ? a' ? c' A B|]; subst.
  - exists a'. split; auto. rewrite <- (app_nil_r (toks _)), toks_elem. now left.
  - assert (X : exists k', In k' c' /\ cleaned_tree k k').
    { clear -K B. induction B as [|x y l m XY B IHB]; [destruct K|]. destruct K as [->|K]; [exists y; split; [now left|auto]|]. destruct (IHB K) as (k' & L & M). exists k'. split; [now right|auto]. }
    destruct X as (k' & L & M). destruct (IH _ M) as (a2 & F & T). exists a2. split; auto. rewrite <- (app_nil_r (toks _)), toks_elem. right. apply in_or_app. left.
    clear -L T. induction c' as [|x l IHl]; [destruct L|]. rewrite ftoks_cons. apply in_or_app. destruct L as [->|L]; auto.
Qed.
Definition use_tree (u : use) (t : tree) : Prop :=
  match u with
  | Lnk id => exists c, inside (Elem ("w", "hyperlink") [(("r", "id"), id)] c) t
  | Pct id => exists a c, inside (Elem ("a", "blip") ((("r", "embed"), id) :: a) c) t
  end.
Lemma use_kid : forall u q a c k, In k c -> use_tree u k -> use_tree u (Elem q a c).
Proof. intros [id|id] q a c k I U; cbn in *; [destruct U as (c' & U)|destruct U as (a' & c' & U)]; eauto using in_kid. Qed.
Lemma g_tree : forall u og, In u (g_uses og) -> exists g, og = Some g /\ use_tree u (m_graphicR (m_gdataR m_shape m_canvas m_group) g).
Proof.
  intros u [g|] I; [|destruct I]. exists g. split; auto. destruct g as [xa [[uri [p|] sh ca gr]|]]; cbn in I; try (destruct I; fail).
  destruct (pic_blip p) as [b|] eqn:B; [|destruct I]. destruct I as [<-|[]].
  unfold m_graphicR. eapply use_kid; [now left|]. unfold m_gdataR. eapply use_kid; [now left|]. unfold m_pic. rewrite B.
  eapply use_kid; [apply in_or_app; right; apply in_or_app; left; now left|]. unfold m_picblip. eapply use_kid; [now left|].
  cbn. do 2 eexists. apply in_here.
Qed.
Lemma r_tree : forall u c, In u (r_uses c) -> use_tree u (m_rchild c).
Proof.
  intros u [t|t|t|i a] I; try destruct I. cbn [r_uses] in I. cbn [m_rchild]. apply in_app_or in I as [I|I].
  - destruct i as [x|]; [|destruct I]. cbn in I. apply g_tree in I as (g & E & U). eapply use_kid; [apply in_or_app; left; now left|]. destruct x; cbn in E; subst; cbn [el]; unfold m_inlineR; cbn [inlineR_graphic].
    eapply use_kid; [|exact U]. rewrite !in_app_iff. cbn. tauto.
  - destruct a as [x|]; [|destruct I]. cbn in I. apply g_tree in I as (g & E & U). eapply use_kid; [apply in_or_app; right; now left|]. destruct x; cbn in E; subst; cbn [el]; unfold m_anchorR; cbn [anchorR_graphic].
    eapply use_kid; [|exact U]. rewrite !in_app_iff. cbn. tauto.
Qed.
Lemma run_tree : forall u r, In u (run_uses r) -> use_tree u (m_runR m_rchild r).
Proof.
  intros u r I. unfold run_uses in I. apply in_flat_map in I as (c & I & K). unfold m_runR. eapply use_kid; [|apply r_tree; exact K].
  rewrite !in_app_iff. repeat right. now apply in_map.
Qed.
Lemma c_tree : forall u c, In u (c_uses c) -> use_tree u (m_pchild c).
Proof.
  intros u [r|id r|r] I; cbn [c_uses m_pchild] in *; [now apply run_tree| |destruct I].
  destruct I as [<-|I]; [cbn; eexists; apply in_here|]. eapply use_kid; [now left|now apply run_tree].
Qed.
Lemma p_tree : forall u p, In u (p_uses p) -> use_tree u (m_para p).
Proof.
  intros u [r] I. unfold p_uses in I. apply in_flat_map in I as (c & I & K). cbn [m_para]. unfold m_paraR. eapply use_kid; [|apply c_tree; exact K].
  rewrite !in_app_iff. right. now apply in_map.
Qed.
Lemma item_tree : forall u x, In u (item_uses x) -> use_tree u (m_item x).
Proof.
  intros u [p|t|s] I; cbn [item_uses m_item] in *; [now apply p_tree| |destruct I].
  apply in_flat_map in I as (r & I & K). unfold m_table. eapply use_kid; [rewrite !in_app_iff; repeat right; apply in_map; exact I|].
  unfold row_uses in K. apply in_flat_map in K as (c & K & M). unfold m_row. eapply use_kid; [rewrite !in_app_iff; repeat right; apply in_map; exact K|].
  unfold cell_uses in M. apply in_flat_map in M as (p & M & O). unfold m_cell. eapply use_kid; [rewrite !in_app_iff; repeat right; apply in_map; exact M|]. now apply p_tree.
Qed.
Lemma body_tree : forall u a l, In u (body_uses l) -> use_tree u (m_document_of a l).
Proof.
  intros u a l I. unfold body_uses in I. apply in_flat_map in I as (x & I & K). unfold m_document_of. eapply use_kid; [now left|]. eapply use_kid; [apply in_map; exact I|now apply item_tree].
Qed.

(** ** the package *)
Lemma doc_uses : forall d ar u, writes d (Ok ar) -> In u (body_uses (d_items d)) -> exists c, files_of ar MAIN_PART c /\
  match u with
  | Lnk id => exists b, In b (elems c "hyperlink") /\ exists v, value "id" b = Some v /\ cleaned id v
  | Pct id => exists b, In b (elems c "blip") /\ exists v, value "embed" b = Some v /\ cleaned id v
  end.
Proof.
  intros d ar u W I. set (t := m_document_of (if d_ns d then doc_attrs else no_attrs) (d_items d)). exists (write_xml t). split.
  { apply (proj2 (written_parts d ar W)). eexists. split; [reflexivity|apply part_doc]. }
  destruct (lex_write_any t) as (t' & C & L); [unfold t, m_document_of; eauto|apply ok_document_of|].
  pose proof (body_tree u (if d_ns d then doc_attrs else no_attrs) _ I) as U. fold t in U. destruct u as [id|id]; cbn [use_tree] in U.
  - destruct U as (c & U). destruct (inside_cleaned _ _ _ _ U _ C) as (a' & F & T). exists a'. split.
    + unfold elems. rewrite L. apply in_flat_map. exists (TStart ("w", "hyperlink") a'). split; [right; right; exact T|]. now left.
    + inversion F as [|? [q v] ? l1 (E1 & CL) F1]; subst. cbn in E1, CL. subst q. exists v. split; [reflexivity|exact CL].
  - destruct U as (a & c & U). destruct (inside_cleaned _ _ _ _ U _ C) as (a' & F & T). exists a'. split.
    + unfold elems. rewrite L. apply in_flat_map. exists (TStart ("a", "blip") a'). split; [right; right; exact T|]. now left.
    + inversion F as [|? [q v] ? l1 (E1 & CL) F1]; subst. cbn in E1, CL. subst q. exists v. split; [reflexivity|exact CL].
Qed.
(** the relationships, all of them *)
Lemma rels_written : forall g r, In r (rels g) -> exists a, In a (elems (write_xml (m_rels g)) "Relationship") /\
  Forall2 (fun x y => fst x = fst y /\ cleaned (snd x) (snd y)) (rel_attrs r) a.
Proof.
  intros g r I. destruct (lex_write_any (m_rels g)) as (t' & C & L); [unfold m_rels; eauto|apply ok_rels|].
  assert (U : inside (m_rel r) (m_rels g)) by (unfold m_rels; eapply in_kid; [apply in_map; exact I|apply in_here]).
  unfold m_rel in U. destruct (inside_cleaned _ _ _ _ U _ C) as (a' & F & T). exists a'. split; [|exact F].
  unfold elems. rewrite L. apply in_flat_map. eexists. split; [right; right; exact T|]. now left.
Qed.
Lemma rel_values : forall r a, Forall2 (fun x y => fst x = fst y /\ cleaned (snd x) (snd y)) (rel_attrs r) a ->
  (exists v, value "Id" a = Some v /\ cleaned (rel_id r) v) /\ (exists v, value "Target" a = Some v /\ cleaned (rel_target r) v) /\
  (forall v, value "TargetMode" a = Some v -> cleaned (rel_mode r) v).
Proof.
  intros [i t g m] a F. unfold rel_attrs, at_ in F. cbn [rel_id rel_type rel_target rel_mode app] in F.
  inversion F as [|? [q1 v1] ? l1 (E1 & C1) F1]; subst. inversion F1 as [|? [q2 v2] ? l2 (E2 & C2) F2]; subst. inversion F2 as [|? [q3 v3] ? l3 (E3 & C3) F3]; subst.
  cbn [fst snd] in *. subst. cbn [rel_id rel_target rel_mode]. split; [exists v1; split; auto|]. split; [exists v3; split; auto|].
  intros v V. unfold ato in F3. destruct (String.eqb m ""); [inversion F3; subst; discriminate V|].
  inversion F3 as [|? [q4 v4] ? l4 (E4 & C4) F4]; subst. inversion F4; subst. cbn [fst snd] in *. subst q4. injection V as <-. exact C4.
Qed.
Lemma clean_xml : forall v v', cleaned v v' -> xml_string v -> v' = v.
Proof. intros v v' (_ & C & _) X. auto. Qed.
Lemma media_xml : forall n, xml_string n -> xml_string ("media/" ++ n).
Proof. intros n X. apply xml_app; [|exact X]. apply (legal_xml _ _ (le_n _)). vm_compute. reflexivity. Qed.
Lemma media_app : forall n, "word/media/" ++ n = "word/" ++ ("media/" ++ n). Proof. reflexivity. Qed.
Theorem used_package : forall d ar, used d -> pointed (d_reg d) -> no_media_tmpl d -> writes d (Ok ar) -> nothing_left ar.
Proof.
  intros d ar U P NM W. pose proof (rels_part _ _ W) as RP. split.
  - intros n b F X. apply (proj2 (written_parts d ar W)) in F as (s & E & F). injection E as <-.
    assert (M : exists m, In m (media (d_reg d)) /\ fst m = n).
    { inversion F as [A B|A B|n' y LM A B|n' c' LM G X1 X2 X3 A B]; subst.
      - exists y. destruct LM as (l1 & l2 & E & K & _). rewrite E. split; [apply in_or_app; right; now left|exact K].
      - apply NM in LM. cbn in LM. discriminate LM. }
    destruct M as (m & M & <-). destruct (P m M) as (r & R & T & T0). destruct (U r R) as [BR|(XI & K)].
    { cbn in BR. destruct BR as [<-|[<-|[<-|[]]]]; discriminate T. }
    destruct K as [(MD & K)|(MD & K)].
    { rewrite T0 in MD. discriminate MD. }
    destruct (doc_uses _ _ _ W K) as (c & DC & bb & B1 & v & B2 & B3). destruct (rels_written _ _ R) as (a & A1 & A2). destruct (rel_values _ _ A2) as ((v1 & V1 & C1) & (v2 & V2 & C2) & _).
    apply clean_xml in C1; [|exact XI]. apply clean_xml in B3; [|exact XI]. apply clean_xml in C2; [|rewrite T; now apply media_xml]. subst.
    exists (write_xml (m_rels (d_reg d))), c, a, bb, (rel_target r), (rel_id r). split; [exact RP|]. split; [exact DC|]. split; [exact A1|]. split; [exact V1|]. split; [exact V2|].
    split; [|split; [exact B1|exact B2]]. rewrite media_app, T. constructor.
  - intros rf a t F A MO TG.
    assert (rf = write_xml (m_rels (d_reg d))) as -> by (eapply file_once; eauto).
    destruct (written_rels _ _ A) as (r & R & Q). destruct (rel_values _ _ Q) as ((v1 & V1 & C1) & _ & C3). specialize (C3 _ MO).
    assert (NE : rel_mode r <> "") by (intros E; rewrite E in C3; apply clean_xml in C3; [discriminate C3|apply (legal_xml _ _ (le_n _)); reflexivity]).
    destruct (U r R) as [BR|(XI & [(MD & K)|(MD & K)])].
    + cbn in BR. destruct BR as [<-|[<-|[<-|[]]]]; contradiction NE; reflexivity.
    + destruct (doc_uses _ _ _ W K) as (c & DC & bb & B1 & v & B2 & B3). apply clean_xml in C1; [|exact XI]. apply clean_xml in B3; [|exact XI]. subst.
      exists (write_xml (m_rels (d_reg d))), c, a, bb, (rel_id r). repeat (split; [assumption|]). exact B2.
    + now contradiction NE.
Qed.
