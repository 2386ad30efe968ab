(** Copies with hyperlinks and pictures. *)
From Coq Require Import String Ascii List Bool Arith NArith ZArith Lia Permutation.
From Verif Require Import GoStr Num Lib Types Docx Api Copy XmlTok Marshal Rels Lex Pack History SpecApi SpecCopy SpecPack PackFacts SpecLex LexFacts LexFacts3 SpecBreak SpecVerb SpecAlike
  RegFacts IdFacts HistFacts CopyFacts CopyFacts2 HomeFacts BreakFacts VerbFacts.
Import ListNotations.
Local Open Scope list_scope.
Local Open Scope string_scope.

(** ** texts *)
Lemma alike_refl : forall s, alike s s.
Proof. induction s; constructor; auto. Qed.
Lemma alike_app : forall a a' b b', alike a a' -> alike b b' -> alike (a ++ b) (a' ++ b').
Proof.
  intros a a' b b' A B. induction A as [|c s t A IH|m v v' s t M Q Q' A IH|m x x' s t M Q Q' A IH]; auto.
  - cbn [append]. now constructor.
  - rewrite <- !GoStr.sapp_assoc. now constructor.
  - rewrite <- !GoStr.sapp_assoc. now constructor.
Qed.
Lemma count_sapp : forall c a b, count c (a ++ b) = count c a + count c b.
Proof. intros c. induction a as [|x a IH]; intros b; cbn; [reflexivity|]. rewrite IH. destruct (Ascii.eqb x c); lia. Qed.
Lemma escape_quoteless : forall v, quoteless (escape v).
Proof.
  intros v. destruct (clean_exists _ v (le_n _)) as (v' & -> & [(l & F & ->) _] & _). unfold quoteless. induction l as [|r l IH]; [reflexivity|].
  inversion F as [|? ? F1 F2]; subst. cbn [map sconcat]. rewrite escape_encode by assumption. rewrite count_sapp, IH by assumption. rewrite Nat.add_0_r.
  unfold escape1. repeat match goal with |- context [(r =? ?k)%N] => destruct (N.eqb_spec r k) as [->|?]; [reflexivity|] end.
  assert (K : forall n t, (n < 256)%N -> n <> 34%N -> count """" (String (ascii_of_N n) t) = count """" t).
  { intros k t L NE. cbn [count]. destruct (Ascii.eqb_spec (ascii_of_N k) """") as [E|E]; [|reflexivity]. exfalso. apply NE.
    rewrite <- (N_ascii_embedding k L), E. reflexivity. }
  assert (M : forall k, (k mod 64 < 64)%N) by (intros k; apply N.mod_lt; lia).
  assert (U : (r <= 1114111)%N) by (destruct F1; lia).
  unfold encode. destruct (N.ltb_spec r 128); [rewrite K by lia; reflexivity|].
  destruct (N.ltb_spec r 2048); [rewrite !K; [reflexivity|..]; try (specialize (M r); lia); assert (r / 64 < 32)%N by (apply N.div_lt_upper_bound; lia); lia|].
  destruct (N.ltb_spec r 65536).
  - rewrite !K; [reflexivity|..]; try (pose proof (M r); pose proof (M (r / 64)%N); lia); assert (r / 4096 < 16)%N by (apply N.div_lt_upper_bound; lia); lia.
  - rewrite !K; [reflexivity|..]; try (pose proof (M r); pose proof (M (r / 64)%N); pose proof (M (r / 4096)%N); lia); assert (r / 262144 < 5)%N by (apply N.div_lt_upper_bound; lia); lia.
Qed.

Definition near (t t' : tree) : Prop := alike (show t) (show t').
Lemma near_refl : forall t, near t t.
Proof. intros t. apply alike_refl. Qed.
Lemma near_shows : forall l l', Forall2 near l l' -> alike (shows l) (shows l').
Proof. intros l l' F. induction F; cbn; [constructor|]. now apply alike_app. Qed.
Lemma near_same : forall l, Forall2 near l l.
Proof. induction l; constructor; auto using near_refl. Qed.
Lemma near_elem : forall q a c c', Forall2 near c c' -> near (Elem q a c) (Elem q a c').
Proof.
  intros q a c c' F. unfold near. rewrite !show_elem. do 4 (apply alike_app; [apply alike_refl|]). apply alike_app; [now apply near_shows|apply alike_refl].
Qed.
Lemma near_el : forall A (f g : A -> tree) x y, match x, y with Some a, Some b => near (f a) (g b) | None, None => True | _, _ => False end -> Forall2 near (el f x) (el g y).
Proof. intros A f g [a|] [b|] K; cbn; try tauto; repeat constructor; auto. Qed.
Ltac nears := repeat first [apply near_same | apply Forall2_app].

Lemma link_near : forall id id' t t', near t t' -> near (Elem (w "hyperlink") (at_ (r_ "id") id) [t]) (Elem (w "hyperlink") (at_ (r_ "id") id') [t']).
Proof.
  intros id id' t t' N. unfold near. rewrite !show_elem.
  assert (E : forall i r, "<" ++ show_name (w "hyperlink") ++ show_attrs (at_ (r_ "id") i) ++ r = "<w:hyperlink r:id=""" ++ escape i ++ """" ++ r).
  { intros i r. cbn [at_ show_attrs]. rewrite <- ?GoStr.sapp_assoc. change (show_name (w "hyperlink")) with "w:hyperlink". change (show_name (r_ "id")) with "r:id". cbn [append]. rewrite <- ?GoStr.sapp_assoc. reflexivity. }
  rewrite !E. apply alike_id; auto using escape_quoteless. apply alike_app; [apply alike_refl|]. apply alike_app; [|apply alike_refl].
  apply near_shows. repeat constructor. exact N.
Qed.
Lemma blip_near : forall b rid, ablip_alpha b = None -> near (m_ablip b) (m_ablip (mk_ablip rid (ablip_cstate b) None)).
Proof.
  intros [e c al] rid K. cbn in K. subst al. unfold near, m_ablip. cbn [ablip_embed ablip_cstate ablip_alpha el]. rewrite !show_elem.
  assert (E : forall i r, "<" ++ show_name (a_ "blip") ++ show_attrs (at_ (r_ "embed") i ++ ato (nn "cstate") c)%list ++ r = "<a:blip r:embed=""" ++ escape i ++ """" ++ show_attrs (ato (nn "cstate") c) ++ r).
  { intros i r. cbn [at_ app show_attrs]. rewrite <- ?GoStr.sapp_assoc. change (show_name (a_ "blip")) with "a:blip". change (show_name (r_ "embed")) with "r:embed". cbn [append]. rewrite <- ?GoStr.sapp_assoc. reflexivity. }
  rewrite !E. apply alike_id; auto using escape_quoteless, alike_refl.
Qed.
Lemma docpr_near : forall x y, near (m_docpr x) (m_docpr y).
Proof.
  intros x y. unfold near, m_docpr. rewrite !show_elem. change (show_name (wp "docPr")) with "wp:docPr".
  assert (E : forall r, "<" ++ "wp:docPr" ++ r = "<wp:docPr" ++ r) by reflexivity. rewrite !E. clear E.
  assert (K : forall z, id_and_name (show_attrs (ati (nn "id") (nonvis_id z) ++ ato (nn "name") (nonvis_name z))%list)).
  { intros z. unfold ati, ato. exists (escape (itoa (iv (nonvis_id z)))), (escape (nonvis_name z)). split; [apply escape_quoteless|]. split; [apply escape_quoteless|].
    destruct (String.eqb (nonvis_name z) ""); [left|right]; cbn [app show_attrs]; change (show_name (nn "id")) with "id"; change (show_name (nn "name")) with "name"; cbn [append]; reflexivity. }
  apply alike_name; auto using alike_refl.
Qed.
Lemma cnvpr_near : forall x y, near (m_nonvis (pic_ "cNvPr") x) (m_nonvis (pic_ "cNvPr") y).
Proof.
  intros x y. unfold near, m_nonvis. rewrite !show_elem. change (show_name (pic_ "cNvPr")) with "pic:cNvPr".
  assert (E : forall r, "<" ++ "pic:cNvPr" ++ r = "<pic:cNvPr" ++ r) by reflexivity. rewrite !E. clear E.
  assert (K : forall z, id_and_name (show_attrs (ati (nn "id") (nonvis_id z) ++ at_ (nn "name") (nonvis_name z))%list)).
  { intros z. unfold ati, at_. exists (escape (itoa (iv (nonvis_id z)))), (escape (nonvis_name z)). split; [apply escape_quoteless|]. split; [apply escape_quoteless|].
    right; cbn [app show_attrs]; change (show_name (nn "id")) with "id"; change (show_name (nn "name")) with "name"; cbn [append]; reflexivity. }
  apply alike_name; auto using alike_refl.
Qed.
Lemma pic_near : forall id rid b n p, pic_blip p = Some b -> pic_nvpic p = Some n -> ablip_alpha (picblip_blip b) = None -> near (m_pic p) (m_pic (copied_pic id rid b n p)).
Proof.
  intros id rid b n [xp nv bl sp] B N A. cbn in B, N. subst nv bl. unfold m_pic, copied_pic. cbn [pic_xmlpic pic_nvpic pic_blip pic_sp el]. apply near_elem.
  apply Forall2_app; [|apply Forall2_app; [|apply near_same]]; (apply Forall2_cons; [apply near_elem|apply Forall2_nil]).
  - apply Forall2_cons; [|apply near_same]. apply cnvpr_near.
  - apply Forall2_cons; [|apply near_same]. now apply blip_near.
Qed.

Lemma graphic_near : forall g d p b n id rid, graphicR_data g = Some d -> gdataR_pic d = Some p -> pic_blip p = Some b -> pic_nvpic p = Some n -> ablip_alpha (picblip_blip b) = None ->
  near (m_graphicR (m_gdataR m_shape m_canvas m_group) g)
       (m_graphicR (m_gdataR m_shape m_canvas m_group) (set_graphicR_data (Some (set_gdataR_pic (Some (copied_pic id rid b n p)) d)) g)).
Proof.
  intros [xa da] [u pc sh ca gr] p b n id rid D P B N A. cbn in D, P. subst da pc. unfold m_graphicR. cbn [graphicR_xmla graphicR_data set_graphicR_data el]. apply near_elem.
  apply Forall2_cons; [|apply Forall2_nil]. unfold m_gdataR. cbn. apply near_elem. apply Forall2_cons; [now apply pic_near|]. apply near_same.
Qed.

(** ** copying *)
Section C.
Variable w : world.
Variable S0 : sound w.
Variable P : option nat -> Prop.
Variable to : nat.
Hypothesis Pto : ~ P (Some to).

Definition copies {A B} (f : A -> world -> res (world * B)) (R : A -> B -> Prop) (x : A) : Prop :=
  forall v, sofar w P to v -> exists v' y, f x v = Ok (v', y) /\ frame to v v' /\ R x y.
Lemma sofar_frame : forall v v', sofar w P to v -> frame to v v' -> sofar w P to v'.
Proof. intros v v' Q (F & _). eapply sofar_only; eauto. Qed.
Lemma list_copies : forall A B (f : A -> world -> res (world * B)) R l, Forall (copies f R) l -> copies (copy_list f) (Forall2 R) l.
Proof.
  intros A B f R. induction l as [|x l IH]; intros F v Q; cbn [copy_list].
  - exists v, []. split; [reflexivity|]. split; [apply frame_refl|constructor].
  - inversion F as [|? ? F1 F2]; subst. destruct (F1 v Q) as (v1 & y & E1 & K1 & R1). destruct (IH F2 v1 (sofar_frame _ _ Q K1)) as (v2 & ys & E2 & K2 & R2).
    exists v2, (y :: ys). rewrite E1. cbn [bind]. rewrite E2. cbn [bind]. split; [reflexivity|]. split; [eapply frame_trans; eauto|]. now constructor.
Qed.
Lemma graphic_copies : forall f dp og v, sofar w P to v -> (picture_in og -> P f) -> portable_graphic w f dp og ->
  exists v' r, copy_graphic to f og v = Ok (v', r) /\
    (r = CSame \/ exists dn g g', r = CNew dn g' /\ og = Some g /\ dp <> None /\ near (m_graphicR (m_gdataR m_shape m_canvas m_group) g) (m_graphicR (m_gdataR m_shape m_canvas m_group) g')).
Proof.
  intros f dp og v Q U [(g & d & -> & D & Pc & K)|(g & d & p & b & n & x & pre & name & -> & D & Pc & B & N & Dp & A & O & PT & L6 & ST)].
  - exists v, CSame. unfold copy_graphic. rewrite D, Pc. split; [|auto]. destruct (gdataR_shape d); [reflexivity|]. destruct (gdataR_canvas d); [reflexivity|]. destruct K as [K|K]; now destruct K.
  - assert (Pf : P f). { apply U. exists g, d. repeat split; auto. rewrite Pc. discriminate. }
    unfold copy_graphic. rewrite D, Pc, B, file_reg_owner, (proj2 Q f Pf), O. cbn [bind]. rewrite (proj2 (refer_points _ _ _) PT).
    destruct (on_file_to _ v to inc_docid (proj1 Q)) as (n1 & w1 & -> & O1). cbn [bind]. pose proof (sofar_only _ _ _ Pto _ _ Q O1) as Q1.
    destruct (on_file_to _ w1 to (increase_id TUPIAN) (proj1 Q1)) as (n2 & w2 & -> & O2). cbn [bind]. pose proof (sofar_only _ _ _ Pto _ _ Q1 O2) as Q2.
    assert (DS : drop 6 (pre ++ name) = Some name) by (apply drop_some; eauto). rewrite DS, file_reg_owner, (proj2 Q2 f Pf), O. cbn [bind].
    assert (M : media_ok (d_reg x)). { destruct f as [i|]; [|discriminate]. exact (S0 i x O). }
    rewrite M. cbn [bind]. destruct (last_named name (media (d_reg x))) as [[mn data]|] eqn:LN; [|exfalso; apply last_named_stores in LN; contradiction].
    destruct (on_file_to _ w2 to (add_image (target_format (pre ++ name)) data) (proj1 Q2)) as (n3 & w3 & -> & O3). cbn [bind]. rewrite N.
    eexists. eexists. split; [reflexivity|]. right. do 3 eexists. split; [reflexivity|]. split; [reflexivity|]. split; [assumption|]. eapply graphic_near; eauto.
Qed.
Lemma child_copies : forall c, child_uses P c -> portable_child w c -> copies (copy_rchild to) (fun x y => near (m_rchild x) (m_rchild y)) c.
Proof.
  intros c U K v Q.
  assert (E : exists v' y, copy_rchild to c v = Ok (v', y) /\ near (m_rchild c) (m_rchild y)).
  { destruct c as [t|t|t|[x|] a]; cbn [copy_rchild portable_child child_uses] in *; try (do 2 eexists; split; [reflexivity|apply near_refl]).
    - destruct K as (K & ->). destruct (graphic_copies _ _ _ v Q U K) as (v' & r & -> & [->|(dn & g & g' & -> & G & Dp & N)]); cbn [bind]; do 2 eexists; (split; [reflexivity|]); [apply near_refl|].
      cbn [m_rchild el app]. apply near_elem. apply Forall2_cons; [|apply Forall2_nil]. destruct x; cbn in G, Dp. subst. unfold m_inlineR. cbn -[el app]. apply near_elem.
      nears; apply near_el; auto. destruct inlineR_docPr; [apply docpr_near|now destruct Dp].
    - destruct a as [x|]; [|do 2 eexists; split; [reflexivity|apply near_refl]].
      destruct (graphic_copies _ _ _ v Q U K) as (v' & r & -> & [->|(dn & g & g' & -> & G & Dp & N)]); cbn [bind]; do 2 eexists; (split; [reflexivity|]); [apply near_refl|].
      cbn [m_rchild el app]. apply near_elem. apply Forall2_cons; [|apply Forall2_nil]. destruct x; cbn in G, Dp. subst. unfold m_anchorR. cbn -[el app elb m_shape]. apply near_elem.
      nears; apply near_el; auto. destruct anchorR_docPr; [apply docpr_near|now destruct Dp]. }
  destruct E as (v' & y & E & N). exists v', y. split; [exact E|]. split; [eapply copy_rchild_frame; exact E|exact N].
Qed.
Lemma near_map : forall A (f : A -> tree) l l', Forall2 (fun x y => near (f x) (f y)) l l' -> Forall2 near (map f l) (map f l').
Proof. intros A f l l' F. induction F; cbn; constructor; auto. Qed.
Lemma run_copies : forall r, (forall x, In x (runR_children r) -> child_uses P x) -> Forall (portable_child w) (runR_children r) ->
  copies (copy_run to) (fun x y => near (m_runR m_rchild x) (m_runR m_rchild y)) r.
Proof.
  intros r U K v Q. destruct (list_copies _ _ (copy_rchild to) (fun x y => near (m_rchild x) (m_rchild y)) (runR_children r)) with (v := v) as (v' & ys & E & F & R); auto.
  { apply Forall_forall. intros c I. apply child_copies; auto. rewrite Forall_forall in K. auto. }
  exists v', (set_runR_children ys r). unfold copy_run. rewrite E. cbn [bind]. split; [reflexivity|]. split; [assumption|]. destruct r. unfold m_runR. cbn -[el app near] in *.
  apply near_elem. nears. now apply near_map.
Qed.
Lemma pchild_copies : forall f c, P f -> (match c with PRun r | PLink _ r => forall x, In x (runR_children r) -> child_uses P x | PRPr _ => True end) ->
  match c with
  | PRun r => Forall (portable_child w) (runR_children r)
  | PLink id r => (exists x tgt, owner w f = Some x /\ points_to x id tgt) /\ Forall (portable_child w) (runR_children r)
  | PRPr _ => True
  end -> copies (copy_pchild to f) (fun x y => exists z, y = Some z /\ near (m_pchild x) (m_pchild z)) c.
Proof.
  intros f c Pf U K v Q.
  assert (E : exists v' z, copy_pchild to f c v = Ok (v', Some z) /\ near (m_pchild c) (m_pchild z)).
  { destruct c as [r|id r|q]; cbn [copy_pchild].
    - destruct (run_copies r U K v Q) as (v' & y & -> & _ & N). cbn [bind]. do 2 eexists. split; [reflexivity|exact N].
    - destruct K as ((x & tgt & O & PT) & K). rewrite file_reg_owner, (proj2 Q f Pf), O. cbn [bind]. rewrite (proj2 (refer_points _ _ _) PT).
      destruct (on_file_to _ v to (add_link_relation tgt) (proj1 Q)) as (n1 & w1 & -> & O1). cbn [bind].
      destruct (run_copies r U K w1 (sofar_only _ _ _ Pto _ _ Q O1)) as (v' & y & -> & _ & N). cbn [bind]. do 2 eexists. split; [reflexivity|]. now apply link_near.
    - do 2 eexists. split; [reflexivity|apply near_refl]. }
  destruct E as (v' & z & E & N). exists v', (Some z). split; [exact E|]. split; [eapply copy_pchild_frame; exact E|eauto].
Qed.
Lemma para_copies : forall p, para_uses P p -> portable_para w p -> copies (copy_para to) (fun x y => near (m_para x) (m_para y)) p.
Proof.
  intros p (Pf & U) K v Q. destruct (list_copies _ _ (copy_pchild to (para_file p)) (fun x y => exists z, y = Some z /\ near (m_pchild x) (m_pchild z)) (para_children p)) with (v := v) as (v' & ys & E & F & R); auto.
  { apply Forall_forall. intros c I. specialize (U c I). specialize (K c I). apply pchild_copies; auto. }
  exists v', (mk_para (para_ppr p) (somes ys) (Some to)). unfold copy_para. rewrite E. cbn [bind]. split; [reflexivity|]. split; [assumption|]. destruct p as [[pp ch fl]].
  cbn [m_para mk_para m_paraR para_ppr para_children paraR_ppr paraR_children] in *. unfold m_paraR. cbn [paraR_ppr paraR_children]. apply near_elem. nears.
  assert (R2 : Forall2 (fun x y => exists z, y = Some z /\ near (m_pchild x) (m_pchild z)) ch ys) by exact R. clear -R2. induction R2 as [|x y l l' (z & -> & N) R IH]; cbn [map somes]; constructor; auto.
Qed.
Lemma cell_copies : forall c, Forall (para_uses P) (cell_paras c) -> Forall (portable_para w) (cell_paras c) -> copies (copy_cell to) (fun x y => near (m_cell x) (m_cell y)) c.
Proof.
  intros c U K v Q. destruct (list_copies _ _ (copy_para to) (fun x y => near (m_para x) (m_para y)) (cell_paras c)) with (v := v) as (v' & ys & E & F & R); auto.
  { rewrite Forall_forall in *. intros p I. apply para_copies; auto. }
  eexists. eexists. unfold copy_cell. rewrite E. cbn [bind]. split; [reflexivity|]. split; [assumption|]. destruct c. unfold m_cell. cbn -[el app near m_para] in *. apply near_elem. nears. now apply near_map.
Qed.
Lemma row_copies : forall r, (forall c, In c (row_cells r) -> Forall (para_uses P) (cell_paras c) /\ Forall (portable_para w) (cell_paras c)) -> copies (copy_row to) (fun x y => near (m_row x) (m_row y)) r.
Proof.
  intros r K v Q. destruct (list_copies _ _ (copy_cell to) (fun x y => near (m_cell x) (m_cell y)) (row_cells r)) with (v := v) as (v' & ys & E & F & R); auto.
  { apply Forall_forall. intros c I. destruct (K c I). now apply cell_copies. }
  eexists. eexists. unfold copy_row. rewrite E. cbn [bind]. split; [reflexivity|]. split; [assumption|]. destruct r. unfold m_row. cbn -[el app near m_cell] in *. apply near_elem. nears. now apply near_map.
Qed.
Lemma item_copies : forall x, Forall (para_uses P) (item_paras x) -> Forall (portable_para w) (item_paras x) -> copies (copy_item to) (fun x y => near (m_item x) (m_item y)) x.
Proof.
  intros [p|t|s] U K v Q; cbn [copy_item item_paras] in *.
  - inversion U; inversion K; subst. destruct (para_copies p) with (v := v) as (v' & y & E & F & N); auto. rewrite E. cbn [bind]. eauto.
  - destruct (list_copies _ _ (copy_row to) (fun x y => near (m_row x) (m_row y)) (table_rows t)) with (v := v) as (v' & ys & E & F & R); auto.
    { apply Forall_forall. intros r I. apply row_copies. intros c J. rewrite Forall_forall in U, K. split; apply Forall_forall; intros p L; [apply U|apply K]; apply in_table_paras; eauto. }
    eexists. eexists. unfold copy_table. rewrite E. cbn [bind]. split; [reflexivity|]. split; [assumption|]. destruct t. cbn [m_item]. unfold m_table. cbn -[el app near m_row] in *. apply near_elem. nears. now apply near_map.
  - exists v, (ISect s). split; [reflexivity|]. split; [apply frame_refl|apply near_refl].
Qed.
Lemma push_copies : forall x v d, Forall (para_uses P) (item_paras x) -> Forall (portable_para w) (item_paras x) -> sofar w P to v -> nth_error v to = Some d ->
  exists v' y d', copy_push to x v = Ok v' /\ only to v v' /\ nth_error v' to = Some d' /\ d_items d' = (d_items d ++ [y])%list /\ near (m_item x) (m_item y).
Proof.
  intros x v d U K Q N. destruct (item_copies x U K v Q) as (v1 & y & E & (O & SI) & R). unfold copy_push. rewrite E. cbn [bind]. unfold push_item.
  specialize (SI to). unfold items_at in SI. rewrite N in SI. destruct (nth_error v1 to) as [d1|] eqn:N1; [|discriminate]. assert (D1 : d_items d1 = d_items d) by (cbn in SI; congruence).
  exists (set_nth v1 to (add_item y d1)), y, (add_item y d1). split; [reflexivity|]. split; [eapply only_trans; [exact O|apply only_set]|]. split; [eapply set_get; eauto|]. split; [|exact R].
  rewrite <- D1. now destruct d1.
Qed.
Lemma append_copies : forall l v d, Forall (para_uses P) (body_paras l) -> portable w l -> sofar w P to v -> nth_error v to = Some d ->
  exists v' new d', append_items to l v = Ok v' /\ only to v v' /\ nth_error v' to = Some d' /\ d_items d' = (d_items d ++ new)%list /\ Forall2 (fun x y => near (m_item x) (m_item y)) l new.
Proof.
  induction l as [|x l IH]; intros v d U K Q N; cbn [append_items].
  - exists v, [], d. rewrite app_nil_r. repeat (split; auto).
  - unfold portable, body_paras in *. cbn [flat_map] in *. apply Forall_app in U as (U1 & U2). apply Forall_app in K as (K1 & K2).
    destruct (push_copies x v d U1 K1 Q N) as (v1 & y & d1 & E1 & O1 & N1 & D1 & R1). destruct (IH v1 d1 U2 K2 (sofar_only _ _ _ Pto _ _ Q O1) N1) as (v2 & new & d2 & E2 & O2 & N2 & D2 & R2).
    exists v2, (y :: new), d2. rewrite E1. cbn [bind]. split; [exact E2|]. split; [eapply only_trans; eauto|]. split; [exact N2|]. split; [rewrite D2, D1, <- app_assoc; reflexivity|]. now constructor.
Qed.
End C.

Lemma saved_alike : forall l l', Forall2 (fun x y => near (m_item x) (m_item y)) l l' -> alike (shows (map m_item l)) (shows (map m_item l')).
Proof. intros l l' F. apply near_shows. induction F; cbn; constructor; auto. Qed.

Lemma appended_alike : forall to from w d s, sound w -> nth_error w to = Some d -> nth_error w from = Some s -> apart (OAppend to from) w -> portable w (d_items s) ->
  exists w' d', append_file to from w = Ok w' /\ length w' = length w /\ (forall i, i <> to -> nth_error w' i = nth_error w i) /\ nth_error w' to = Some d' /\
    forall ar ars ar' x y z, writes d (Ok ar) -> writes s (Ok ars) -> writes d' (Ok ar') -> In (DOC_NAME, Some x) ar -> In (DOC_NAME, Some y) ars -> In (DOC_NAME, Some z) ar' ->
      exists start bd start2 bs start3 bs', opens start bd x /\ opens start2 bs y /\ opens start3 (bd ++ bs') z /\ alike bs bs'.
Proof.
  intros to from w d s S0 N Ns AP K. cbn in AP. specialize (AP s Ns).
  destruct (append_copies w S0 (fun f => f <> Some to) to) with (l := d_items s) (v := w) (d := d) as (w' & new & d' & E & O & N' & D & R); auto.
  { split; [apply nth_error_Some; congruence|auto]. }
  exists w', d'. unfold append_file. rewrite Ns. split; [exact E|]. destruct O as (L & O). split; [assumption|]. split; [assumption|]. split; [assumption|].
  intros ar ars ar' x y z W Ws W' I Is I'. pose proof (saved_main _ _ _ W I) as A. pose proof (saved_main _ _ _ Ws Is) as B. pose proof (saved_main _ _ _ W' I') as C.
  exists (head_of d), (shows (xml_of d)), (head_of s), (shows (xml_of s)), (head_of d'), (shows (map m_item new)). split; [exact A|]. split; [exact B|]. split.
  - unfold xml_of in C. rewrite D, map_app, shows_app in C. exact C.
  - now apply saved_alike.
Qed.

(** splitting *)
Lemma same_nths : forall A (l l' : list A), (forall n, nth_error l n = nth_error l' n) -> l = l'.
Proof.
  intros A. induction l as [|x l IH]; intros [|y l'] E; [reflexivity|specialize (E 0); discriminate|specialize (E 0); discriminate|].
  pose proof (E 0) as E0. injection E0 as ->. f_equal. apply IH. intros n. exact (E (S n)).
Qed.
Lemma split_copies : forall w, sound w -> forall t sep l u e fresh v, (forall p, In (IPara p) l -> exists b, sep p = Ok b) ->
  (forall f, known (length w) f -> owner v f = owner w f) -> length w <= length u -> v = (u ++ [e])%list ->
  Forall (para_uses (known (length w))) (body_paras l) -> portable w l ->
  exists ds l2, split_items t sep l (length u) fresh v = Ok (u ++ ds)%list /\ concat (map d_items ds) = (d_items e ++ l2)%list /\ Forall2 (fun x y => near (m_item x) (m_item y)) l l2.
Proof.
  intros w S0 t sep. induction l as [|x l IH]; intros u e fresh v Q OW L -> U K; cbn [split_items].
  - exists [e], []. cbn. rewrite !app_nil_r. repeat split. constructor.
  - unfold portable, body_paras in *. cbn [flat_map] in *. apply Forall_app in U as (U1 & U2). apply Forall_app in K as (K1 & K2).
    assert (NX : forall u e, (forall f, known (length w) f -> owner (u ++ [e])%list f = owner w f) -> length w <= length u ->
      exists ds l2, bind (copy_push (length u) x (u ++ [e])%list) (fun w' => split_items t sep l (length u) false w') = Ok (u ++ ds)%list /\
        concat (map d_items ds) = (d_items e ++ l2)%list /\ Forall2 (fun x y => near (m_item x) (m_item y)) (x :: l) l2).
    { clear u e fresh OW L. intros u e OW L.
      assert (NP : ~ known (length w) (Some (length u))) by (intros KN; specialize (KN _ eq_refl); lia).
      assert (SF : sofar w (known (length w)) (length u) (u ++ [e])%list) by (split; [rewrite app_length; cbn; lia|assumption]).
      assert (NE : nth_error (u ++ [e]) (length u) = Some e) by (rewrite nth_error_app2, Nat.sub_diag by lia; reflexivity).
      destruct (push_copies w S0 _ _ NP x _ e U1 K1 SF NE) as (v1 & y & d1 & E1 & O1 & N1 & D1 & R1). rewrite E1. cbn [bind].
      assert (V1 : v1 = (u ++ [d1])%list).
      { apply same_nths. intros n. destruct O1 as (L1 & O1). destruct (Nat.eq_dec n (length u)) as [->|NN]; [rewrite N1, nth_error_app2, Nat.sub_diag by lia; reflexivity|]. rewrite O1 by assumption.
        destruct (Nat.lt_ge_cases n (length u)); [rewrite !nth_error_app1 by assumption; reflexivity|]. rewrite !nth_error_app2 by assumption. destruct (n - length u) as [|[|k]] eqn:Z; [lia|reflexivity..]. }
      destruct (IH u d1 false v1) as (ds & l2 & E2 & C2 & R2); auto; [intros p I; apply Q; now right|exact (proj2 (sofar_only _ _ _ NP _ _ SF O1))|].
      exists ds, (y :: l2). split; [exact E2|]. split; [rewrite C2, D1, <- app_assoc; reflexivity|]. now constructor. }
    destruct x as [p|tb|s]; [|now apply NX|now apply NX].
    destruct (Q p) as (b & ->); [now left|]. cbn [bind]. destruct (b && negb fresh)%bool; [|now apply NX].
    unfold new_part. destruct (NX (u ++ [e])%list (mk_docx [] empty_reg t true)) as (ds & l2 & E & C & R).
    + intros f KN. rewrite <- OW by assumption. destruct f as [i|]; [|reflexivity]. cbn. apply nth_error_app1. rewrite app_length. specialize (KN i eq_refl). lia.
    + rewrite app_length. lia.
    + exists (e :: ds), l2. rewrite E, <- app_assoc. split; [reflexivity|]. split; [|assumption]. cbn [map concat]. rewrite C. reflexivity.
Qed.
Lemma split_alike : forall i sep w d, sound w -> nth_error w i = Some d -> (forall p, In (IPara p) (d_items d) -> exists b, sep p = Ok b) ->
  Forall (para_uses (fun f => forall k, f = Some k -> k < length w)) (body_paras (d_items d)) -> portable w (d_items d) ->
  exists ds, split_by_paragraph i sep w = Ok (w ++ ds)%list /\
    forall ar x, writes d (Ok ar) -> In (DOC_NAME, Some x) ar ->
      exists start body bs, opens start body x /\ alike body (sconcat bs) /\
        Forall2 (fun e b => forall are z, writes e (Ok are) -> In (DOC_NAME, Some z) are -> exists st, opens st b z) ds bs.
Proof.
  intros i sep w d S0 N Q U K.
  assert (E : exists ds l2, split_by_paragraph i sep w = Ok (w ++ ds)%list /\ concat (map d_items ds) = l2 /\ Forall2 (fun x y => near (m_item x) (m_item y)) (d_items d) l2).
  { unfold split_by_paragraph. rewrite N. destruct (d_items d) as [|x l] eqn:I; [exists [], []; rewrite app_nil_r; auto|]. unfold new_part.
    destruct (split_copies w S0 (d_tmpl d) sep (x :: l) w (mk_docx [] empty_reg (d_tmpl d) true) true (w ++ [mk_docx [] empty_reg (d_tmpl d) true])%list) as (ds & l2 & E & C & R); auto.
    { intros f KN. destruct f as [k|]; [|reflexivity]. cbn. apply nth_error_app1. now apply KN. }
    exists ds, l2. auto. }
  destruct E as (ds & l2 & E & C & R). exists ds. split; [exact E|]. intros ar x W I. exists (head_of d), (shows (xml_of d)), (map (fun e => shows (xml_of e)) ds).
  split; [exact (saved_main _ _ _ W I)|]. split.
  - replace (sconcat (map (fun e => shows (xml_of e)) ds)) with (shows (map m_item l2)); [now apply saved_alike|]. rewrite <- C. clear. induction ds as [|e ds IH]; cbn [map concat sconcat]; [reflexivity|].
    rewrite map_app, shows_app, IH. reflexivity.
  - clear. induction ds as [|e ds IH]; cbn; constructor; auto. intros are z We Ie. exists (head_of e). exact (saved_main _ _ _ We Ie).
Qed.

(** ** after any history *)
Lemma history_append : forall (L : GoLib) l w to from d s, run_ops l [] = Some w -> nth_error w to = Some d -> nth_error w from = Some s -> apart (OAppend to from) w -> portable w (d_items s) ->
  exists w' d', append_file to from w = Ok w' /\ length w' = length w /\ (forall i, i <> to -> nth_error w' i = nth_error w i) /\ nth_error w' to = Some d' /\
    forall ar ars ar' x y z, writes d (Ok ar) -> writes s (Ok ars) -> writes d' (Ok ar') -> In (DOC_NAME, Some x) ar -> In (DOC_NAME, Some y) ars -> In (DOC_NAME, Some z) ar' ->
      exists start bd start2 bs start3 bs', opens start bd x /\ opens start2 bs y /\ opens start3 (bd ++ bs') z /\ alike bs bs'.
Proof. intros L l w to from d s R. intros. eapply appended_alike; eauto. eapply run_sound; eauto. exact sound_nil. Qed.
Lemma history_split : forall (L : GoLib) l w i sep d, run_ops l [] = Some w -> nth_error w i = Some d -> (forall p, In (IPara p) (d_items d) -> exists b, sep p = Ok b) ->
  Forall (para_uses (fun f => forall k, f = Some k -> k < length w)) (body_paras (d_items d)) -> portable w (d_items d) ->
  exists ds, split_by_paragraph i sep w = Ok (w ++ ds)%list /\
    forall ar x, writes d (Ok ar) -> In (DOC_NAME, Some x) ar ->
      exists start body bs, opens start body x /\ alike body (sconcat bs) /\
        Forall2 (fun e b => forall are z, writes e (Ok are) -> In (DOC_NAME, Some z) are -> exists st, opens st b z) ds bs.
Proof. intros L l w i sep d R. intros. eapply split_alike; eauto. eapply run_sound; eauto. exact sound_nil. Qed.
Lemma history_own : forall (L : GoLib) l w, Forall own_pieces l -> run_ops l [] = Some w ->
  (forall to from, to <> from -> apart (OAppend to from) w) /\
  (forall i d, nth_error w i = Some d -> Forall (para_uses (fun f => forall k, f = Some k -> k < length w)) (body_paras (d_items d))).
Proof.
  intros L l w F R. assert (HW : home w) by (eapply run_home; eauto; exact home_nil). split.
  - intros to from N. apply home_apart; auto.
  - intros i d N. refine (proj2 (home_apart (OSplit i (fun _ => Ok true)) w HW _) d N). intros p e K. discriminate K.
Qed.
