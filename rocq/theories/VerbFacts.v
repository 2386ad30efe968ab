(** Copies of what has neither links nor pictures. *)
From Coq Require Import String Ascii List Bool Arith NArith ZArith Lia Permutation.
From Verif Require Import GoStr Num Lib Types Docx Api Copy XmlTok Marshal Rels Lex Pack SpecApi SpecCopy SpecPack PackFacts SpecVerb CopyFacts.
Import ListNotations.
Local Open Scope list_scope.
Local Open Scope string_scope.

Section To.
Variable to : nat.
(** the copy *)
Definition own_para (p : para) : para := mk_para (para_ppr p) (para_children p) (Some to).
Definition own_cell (c : cell) : cell := mk_cell (cell_props c) (map own_para (cell_paras c)) (Some to).
Definition own_row (r : row) : row := mk_row (row_props r) (map own_cell (row_cells r)).
Definition own_item (x : item) : item :=
  match x with
  | IPara p => IPara (own_para p)
  | ITable t => ITable (mk_table (table_props t) (table_grid t) (map own_row (table_rows t)))
  | ISect s => ISect s
  end.
Lemma copy_each : forall A B (f : A -> world -> res (world * B)) (g : A -> B) l w, (forall x, In x l -> f x w = Ok (w, g x)) -> copy_list f l w = Ok (w, map g l).
Proof.
  intros A B f g. induction l as [|x l IH]; intros w K; cbn [copy_list map]; [reflexivity|]. rewrite (K x) by now left. cbn [bind].
  rewrite IH by (intros y I; apply K; now right). reflexivity.
Qed.
Lemma child_steady : forall c w, steady_child c -> copy_rchild to c w = Ok (w, c).
Proof.
  assert (G : forall f og w, figure og -> copy_graphic to f og w = Ok (w, CSame)).
  { intros f og w (g & d & -> & D & P & K). unfold copy_graphic. rewrite D, P. destruct (gdataR_shape d); [reflexivity|]. destruct (gdataR_canvas d); [reflexivity|]. destruct K as [K|K]; now destruct K. }
  intros [t|t|t|[x|] a] w S; cbn in *; auto.
  - destruct S as (S & ->). now rewrite (G _ _ _ S).
  - destruct a as [x|]; [|reflexivity]. cbn. now rewrite (G _ _ _ S).
Qed.
Lemma run_steady : forall r w, Forall steady_child (runR_children r) -> copy_run to r w = Ok (w, r).
Proof.
  intros r w F. unfold copy_run. rewrite (copy_each _ _ _ (fun c => c)) by (intros c I; apply child_steady; now rewrite Forall_forall in F; apply F).
  cbn [bind]. rewrite map_id. now destruct r.
Qed.
Lemma somes_map : forall A (l : list A), somes (map Some l) = l.
Proof. induction l as [|x l IH]; cbn; congruence. Qed.
Lemma para_steady : forall p w, steady_para p -> copy_para to p w = Ok (w, own_para p).
Proof.
  intros p w S. unfold copy_para. rewrite (copy_each _ _ _ Some).
  - cbn [bind]. now rewrite somes_map.
  - intros c I. specialize (S c I). destruct c as [r|id r|q]; cbn; [now rewrite run_steady|destruct S|reflexivity].
Qed.
Lemma item_steady : forall x w, Forall steady_para (item_paras x) -> copy_item to x w = Ok (w, own_item x).
Proof.
  intros [p|t|s] w F; cbn [copy_item own_item item_paras] in *; [|unfold copy_table|reflexivity].
  - rewrite para_steady; [reflexivity|]. now inversion F.
  - unfold table_paras in F. rewrite (copy_each _ _ _ own_row); [reflexivity|]. intros r I. unfold copy_row. rewrite (copy_each _ _ _ own_cell); [reflexivity|].
    intros c J. unfold copy_cell. rewrite (copy_each _ _ _ own_para); [reflexivity|]. intros p Q. apply para_steady. rewrite Forall_forall in F. apply F.
    apply in_flat_map. exists r. split; [assumption|]. apply in_flat_map. exists c. auto.
Qed.
Lemma own_xml : forall x, m_item (own_item x) = m_item x.
Proof.
  assert (P : forall p, m_para (own_para p) = m_para p) by (intros [[a b c]]; reflexivity).
  assert (C : forall c, m_cell (own_cell c) = m_cell c) by (intros [a b c]; unfold m_cell, own_cell; cbn; rewrite map_map; do 2 f_equal; now apply map_ext).
  assert (R : forall c, m_row (own_row c) = m_row c) by (intros [a b]; unfold m_row, own_row; cbn; rewrite map_map; do 2 f_equal; now apply map_ext).
  intros [p|t|s]; cbn [m_item own_item]; auto. unfold m_table. cbn. rewrite map_map. do 3 f_equal. now apply map_ext.
Qed.
Lemma push_ok : forall x w d, nth_error w to = Some d -> Forall steady_para (item_paras x) -> copy_push to x w = Ok (set_nth w to (add_item (own_item x) d)).
Proof. intros x w d N F. unfold copy_push. rewrite item_steady by assumption. cbn [bind]. unfold push_item. now rewrite N. Qed.
End To.

Lemma set_last : forall A (u : list A) x y, set_nth (u ++ [x]) (length u) y = (u ++ [y])%list.
Proof. induction u as [|a u IH]; intros x y; cbn; [reflexivity|now rewrite IH]. Qed.
Lemma set_twice : forall A (u : list A) i x y, set_nth (set_nth u i x) i y = set_nth u i y.
Proof. induction u as [|a u IH]; intros [|i] x y; cbn; auto. now rewrite IH. Qed.
Lemma set_same : forall A (u : list A) i x, nth_error u i = Some x -> set_nth u i x = u.
Proof. induction u as [|a u IH]; intros [|i] x E; cbn in *; try discriminate; [congruence|now rewrite IH]. Qed.
Lemma set_get : forall A (u : list A) i x y, nth_error u i = Some x -> nth_error (set_nth u i y) i = Some y.
Proof. induction u as [|a u IH]; intros [|i] x y E; cbn in *; try discriminate; auto. eapply IH; eauto. Qed.
Lemma set_other : forall A (u : list A) i j y, i <> j -> nth_error (set_nth u i y) j = nth_error u j.
Proof. induction u as [|a u IH]; intros [|i] [|j] y N; cbn; auto; try congruence. Qed.

Lemma items_steady : forall to l w d, nth_error w to = Some d -> steady l ->
  append_items to l w = Ok (set_nth w to (set_d_items (d_items d ++ map (own_item to) l) d)).
Proof.
  intros to. induction l as [|x l IH]; intros w d N S; cbn [append_items map].
  - rewrite app_nil_r. rewrite set_same; [reflexivity|]. now destruct d.
  - unfold steady, body_paras in S. cbn [flat_map] in S. apply Forall_app in S as (S1 & S2). rewrite (push_ok to x w d N S1). cbn [bind].
    rewrite (IH _ (add_item (own_item to x) d)); [|eapply set_get; eauto|assumption]. rewrite set_twice. unfold add_item. destruct d; cbn. now rewrite <- app_assoc.
Qed.
Lemma append_steady : forall to from w d s, nth_error w to = Some d -> nth_error w from = Some s -> steady (d_items s) ->
  append_file to from w = Ok (set_nth w to (set_d_items (d_items d ++ map (own_item to) (d_items s)) d)).
Proof. intros. unfold append_file. rewrite H0. now apply items_steady. Qed.

Definition xml_of (d : docx) : list tree := map m_item (d_items d).
Definition part_of_split (t : tmpl) (d : docx) : Prop := d_reg d = empty_reg /\ d_tmpl d = t /\ d_ns d = true.
Lemma split_steady : forall t sep l u e fresh, (forall p, In (IPara p) l -> exists b, sep p = Ok b) -> steady l -> part_of_split t e ->
  exists ds, split_items t sep l (length u) fresh (u ++ [e])%list = Ok (u ++ ds)%list /\ Forall (part_of_split t) ds /\
    concat (map xml_of ds) = (xml_of e ++ map m_item l)%list.
Proof.
  intros t sep. induction l as [|x l IH]; intros u e fresh Q S P; cbn [split_items].
  - exists [e]. cbn. rewrite !app_nil_r. repeat split; auto.
  - unfold steady, body_paras in S. cbn [flat_map] in S. apply Forall_app in S as (S1 & S2).
    assert (K : forall u e, part_of_split t e -> exists ds, bind (copy_push (length u) x (u ++ [e])%list) (fun w' => split_items t sep l (length u) false w') = Ok (u ++ ds)%list /\
      Forall (part_of_split t) ds /\ concat (map xml_of ds) = (xml_of e ++ m_item x :: map m_item l)%list).
    { clear u e fresh P. intros u e P. rewrite (push_ok _ x _ e); [|rewrite nth_error_app2, Nat.sub_diag by lia; reflexivity|assumption]. cbn [bind]. rewrite set_last.
      destruct (IH u (add_item (own_item (length u) x) e) false) as (ds & E & F & C); [intros p I; apply Q; now right|exact S2|now destruct e|].
      exists ds. split; [exact E|]. split; [exact F|]. rewrite C. unfold xml_of, add_item. destruct e; cbn. rewrite map_app. cbn. rewrite own_xml, <- app_assoc. reflexivity. }
    destruct x as [p|tb|s]; [|now apply K|now apply K].
    destruct (Q p) as (b & ->); [now left|]. cbn [bind]. destruct (b && negb fresh)%bool; [|now apply K].
    unfold new_part. destruct (K (u ++ [e])%list (mk_docx [] empty_reg t true)) as (ds & E & F & C); [repeat split|]. exists (e :: ds).
    rewrite E. rewrite <- app_assoc. split; [reflexivity|]. split; [now constructor|]. cbn. now rewrite C.
Qed.
Lemma split_ok : forall i sep w d, nth_error w i = Some d -> (forall p, In (IPara p) (d_items d) -> exists b, sep p = Ok b) -> steady (d_items d) ->
  exists ds, split_by_paragraph i sep w = Ok (w ++ ds)%list /\ Forall (part_of_split (d_tmpl d)) ds /\ concat (map xml_of ds) = xml_of d.
Proof.
  intros i sep w d N Q S. unfold split_by_paragraph. rewrite N. unfold xml_of at 2. destruct (d_items d) as [|x l] eqn:I; [exists []; rewrite app_nil_r; auto|]. unfold new_part.
  destruct (split_steady (d_tmpl d) sep (x :: l) w (mk_docx [] empty_reg (d_tmpl d) true) true) as (ds & E & F & C); auto; [repeat split|]. exists ds. auto.
Qed.

(** the texts *)
Lemma show_elem : forall q a c, show (Elem q a c) = "<" ++ show_name q ++ show_attrs a ++ ">" ++ shows c ++ "</" ++ show_name q ++ ">".
Proof.
  intros q a c. cbn [show]. do 4 f_equal. unfold shows. assert (E : forall l, (fix go (l : list tree) : string := match l with [] => "" | t :: l' => show t ++ go l' end) l = sconcat (map show l)).
  { induction l as [|x l IH]; cbn; [reflexivity|now rewrite IH]. } now rewrite E.
Qed.
Definition head_of (d : docx) : string := XML_HEADER ++ "<w:document" ++ show_attrs (if d_ns d then doc_attrs else no_attrs) ++ ">".
Lemma main_text : forall d, opens (head_of d) (shows (xml_of d)) (write_xml (m_document_of (if d_ns d then doc_attrs else no_attrs) (d_items d))).
Proof.
  intros d. split.
  - unfold write_xml, m_document_of, head_of. rewrite show_elem. unfold shows at 1. cbn [map sconcat]. rewrite show_elem. change (show_name (w "document")) with "w:document". change (show_name (w "body")) with "w:body".
    fold (xml_of d). rewrite <- !sapp_assoc. cbn [append show_attrs]. rewrite <- ?sapp_assoc. cbn [append]. reflexivity.
  - unfold head_of. destruct (d_ns d); vm_compute; reflexivity.
Qed.
Lemma opens_unique : forall s a b x y, opens a x s -> opens b y s -> a = b /\ x = y.
Proof.
  assert (K : forall a b n x y, count "<" a = n -> count "<" b = n -> a ++ String "<" x = b ++ String "<" y -> a = b /\ x = y).
  { induction a as [|c a IH]; intros [|e b] n x y A B E; cbn [append] in E.
    - injection E as E. auto.
    - injection E as E1 E2. subst e. cbn in A, B. subst n. discriminate.
    - injection E as E1 E2. subst c. cbn in A, B. subst n. discriminate.
    - injection E as E1 E2. subst e. cbn [count] in A, B. destruct (Ascii.eqb c "<").
      + destruct n as [|n]; [discriminate|]. injection A as A. injection B as B. destruct (IH _ _ _ _ A B E2) as (-> & ->). auto.
      + destruct (IH _ _ _ _ A B E2) as (-> & ->). auto. }
  intros s a b x y (E1 & A) (E2 & B). rewrite E1 in E2. destruct (K _ _ _ _ _ A B E2) as (-> & E). split; [reflexivity|].
  cbn in E. injection E as E. revert E. clear. revert y. induction x as [|c x IH]; intros y E.
  - destruct y as [|e y]; [reflexivity|]. exfalso. apply (f_equal String.length) in E. rewrite !slength_app in E. cbn in E. lia.
  - destruct y as [|e y]; [exfalso; apply (f_equal String.length) in E; rewrite !slength_app in E; cbn in E; lia|]. injection E as -> E. f_equal. auto.
Qed.
Lemma saved_main : forall d ar s, writes d (Ok ar) -> In (DOC_NAME, Some s) ar -> opens (head_of d) (shows (xml_of d)) s.
Proof.
  intros d ar s W I. destruct (written_parts _ _ W) as (ND & P). assert (J : In (DOC_NAME, Some (write_xml (m_document_of (if d_ns d then doc_attrs else no_attrs) (d_items d)))) ar) by (apply P; eexists; split; [reflexivity|constructor]).
  assert (E : Some s = Some (write_xml (m_document_of (if d_ns d then doc_attrs else no_attrs) (d_items d)))).
  { apply (fget_in _ _ _ ND) in I. apply (fget_in _ _ _ ND) in J. congruence. }
  injection E as ->. apply main_text.
Qed.

(** whether a document can be saved does not depend on its items *)
Definition twin (x y : string * option string) : Prop := x = y \/ (fst x = DOC_PART /\ fst y = DOC_PART /\ snd x <> None /\ snd y <> None).
Lemma twin_put : forall k v m m', Forall2 twin m m' -> Forall2 twin (put k v m) (put k v m').
Proof.
  intros k v m m' F. induction F as [|x y m m' T F IH]; cbn [put]; [repeat constructor|]. destruct x as (a, b), y as (a', b').
  assert (E : a = a') by (destruct T as [T|(T1 & T2 & _)]; cbn in *; congruence). subst a'. destruct (String.eqb k a); constructor; auto. now left.
Qed.
Lemma twin_refl : forall m, Forall2 twin m m.
Proof. induction m as [|x m IH]; constructor; auto. now left. Qed.
Lemma twin_doc : forall a b m, Forall2 twin (put DOC_PART (Some a) m) (put DOC_PART (Some b) m).
Proof.
  intros a b. assert (T : twin (DOC_PART, Some a) (DOC_PART, Some b)) by (right; repeat split; discriminate).
  induction m as [|(k, v) m IH]; cbn [put]; [constructor; auto|]. destruct (String.eqb DOC_PART k); constructor; auto using twin_refl. now left.
Qed.
Lemma twin_media : forall l m m', Forall2 twin m m' -> Forall2 twin (fold_left put_media l m) (fold_left put_media l m').
Proof. induction l as [|x l IH]; intros m m' F; cbn [fold_left]; auto. apply IH. now apply twin_put. Qed.
Lemma twin_ok : forall m m', Forall2 twin m m' -> Forall (fun x => write_entry x = Ok x) m -> Forall (fun x => write_entry x = Ok x) m'.
Proof.
  intros m m' T. induction T as [|x y m m' T1 T IH]; intros F; [constructor|]. inversion F as [|? ? F1 F2]; subst.
  constructor; [|now apply IH]. destruct T1 as [<-|(A & B & C & D)]; [assumption|]. destruct y as (a, [s|]); cbn in *; [|now destruct D]. subst a. reflexivity.
Qed.
Lemma saved_with : forall d l ar, writes d (Ok ar) -> exists ar', writes (set_d_items l d) (Ok ar').
Proof.
  intros d l ar W. unfold writes, pack_files in *. destruct d as [it g t ns]. cbn [set_d_items d_tmpl d_reg d_items d_ns] in *. destruct (tmpl_files t (t_list t) []) as [m|e|]; cbn [bind] in *; try discriminate.
  destruct W as (o & PM & E). symmetry in E. apply write_entries_ok in E as (-> & F). apply (Permutation_Forall (Permutation_sym PM)) in F. clear PM.
  pose proof (twin_media (media g) _ _ (twin_doc (write_xml (m_docx (mk_docx it g t ns))) (write_xml (m_docx (mk_docx l g t ns))) (put RELS_PART (Some (write_xml (m_rels g))) m))) as T.
  eexists. eexists. split; [apply Permutation_refl|]. symmetry. apply write_entries_all. eapply twin_ok; eauto.
Qed.
Lemma items_saved : forall d l, (exists ar, writes (set_d_items l d) (Ok ar)) <-> (exists ar, writes d (Ok ar)).
Proof.
  intros d l. split; intros (ar & W); [|eapply saved_with; exact W]. apply (saved_with _ (d_items d)) in W. now destruct d.
Qed.

(** ** the two calls *)
Lemma shows_app : forall a b, shows (a ++ b)%list = shows a ++ shows b.
Proof. intros a b. unfold shows. now rewrite map_app, sconcat_app. Qed.
Lemma other_parts : forall d l ar ar', writes d (Ok ar) -> writes (set_d_items l d) (Ok ar') -> forall n c, n <> DOC_NAME -> (In (n, c) ar' <-> In (n, c) ar).
Proof.
  intros d l ar ar' W W' n c N. rewrite (proj2 (written_parts _ _ W)), (proj2 (written_parts _ _ W')).
  assert (K : forall s, part_of (set_d_items l d) n s <-> part_of d n s).
  { intros s. destruct d as [it g t ns]. split; (intros P; inversion P; subst; [exact (part_rels _)|now destruct N|refine (part_media _ _ _ _); assumption|apply part_tmpl; assumption]). }
  split; intros (s & E & P); exists s; (split; [assumption|]); now apply K.
Qed.
Lemma appended_text : forall to from w d s, nth_error w to = Some d -> nth_error w from = Some s -> steady (d_items s) ->
  exists w' d', append_file to from w = Ok w' /\ length w' = length w /\ (forall i, i <> to -> nth_error w' i = nth_error w i) /\ nth_error w' to = Some d' /\
    ((exists ar', writes d' (Ok ar')) <-> (exists ar, writes d (Ok ar))) /\
    forall ar ars ar' x y z, writes d (Ok ar) -> writes s (Ok ars) -> writes d' (Ok ar') -> In (DOC_NAME, Some x) ar -> In (DOC_NAME, Some y) ars -> In (DOC_NAME, Some z) ar' ->
      (exists start bd start2 bs, opens start bd x /\ opens start2 bs y /\ opens start (bd ++ bs) z) /\
      (forall n c, n <> DOC_NAME -> (In (n, c) ar' <-> In (n, c) ar)).
Proof.
  intros to from w d s Nt Nf S. eexists. eexists. split; [apply (append_steady _ _ _ _ _ Nt Nf S)|]. split.
  { clear. generalize (set_d_items (d_items d ++ map (own_item to) (d_items s)) d). intros v. revert w. induction to as [|k IH]; intros [|a w]; cbn; auto. }
  split; [intros i NE; apply set_other; congruence|]. split; [eapply set_get; eauto|]. split; [apply items_saved|].
  intros ar ars ar' x y z W Ws W' I Is I'. split; [|eapply other_parts; eauto].
  pose proof (saved_main _ _ _ W I) as X. pose proof (saved_main _ _ _ Ws Is) as Y. pose proof (saved_main _ _ _ W' I') as Z.
  exists (head_of d), (shows (xml_of d)), (head_of s), (shows (xml_of s)). split; [exact X|]. split; [exact Y|].
  replace (head_of (set_d_items (d_items d ++ map (own_item to) (d_items s)) d)) with (head_of d) in Z by now destruct d.
  replace (xml_of (set_d_items (d_items d ++ map (own_item to) (d_items s)) d)) with (xml_of d ++ xml_of s)%list in Z; [now rewrite shows_app in Z|].
  unfold xml_of. destruct d. cbn. rewrite map_app, map_map. f_equal. apply map_ext. intros a. symmetry. apply own_xml.
Qed.
Lemma split_text : forall i sep w d, nth_error w i = Some d -> (forall p, In (IPara p) (d_items d) -> exists b, sep p = Ok b) -> steady (d_items d) ->
  exists ds, split_by_paragraph i sep w = Ok (w ++ ds)%list /\
    forall ar x, writes d (Ok ar) -> In (DOC_NAME, Some x) ar ->
      exists start body bs, opens start body x /\ body = sconcat bs /\
        Forall2 (fun e b => forall are z, writes e (Ok are) -> In (DOC_NAME, Some z) are -> exists st, opens st b z) ds bs.
Proof.
  intros i sep w d N Q S. destruct (split_ok i sep w d N Q S) as (ds & E & F & C). exists ds. split; [exact E|]. intros ar x W I.
  exists (head_of d), (shows (xml_of d)), (map (fun e => shows (xml_of e)) ds). split; [now apply (saved_main _ ar)|]. split.
  - rewrite <- C. clear. induction ds as [|e ds IH]; cbn [map concat sconcat]; [reflexivity|]. now rewrite shows_app, IH.
  - clear. induction ds as [|e ds IH]; cbn; constructor; auto. intros are z W I. exists (head_of e). now apply (saved_main _ are).
Qed.
