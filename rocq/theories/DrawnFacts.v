(** Where the saved file has shapes, canvases and groups. *)
From Coq Require Import String Ascii List Bool Arith NArith ZArith Lia Permutation.
From Verif Require Import GoStr Num Lib Types XmlTok Marshal Docx Keep Lex Rels Pack SpecApi SpecEdit SpecLex SpecPack SpecGrammar SpecDrawn LexFacts LexFacts2 LexFacts3 DecLemmas RelsFacts PackFacts StableFacts2 PackFacts2 PackFacts3 GrammarOrder GrammarFacts GrammarFacts2 SkipFacts2 EditFacts.
Import ListNotations.
Local Open Scope string_scope.
Local Open Scope list_scope.

Definition qeqb (a b : qname) : bool := String.eqb (fst a) (fst b) && String.eqb (snd a) (snd b).
Lemma qeqb_eq : forall a b, qeqb a b = true <-> a = b.
Proof.
  intros [a b] [c d]. unfold qeqb. cbn. rewrite andb_true_iff, !String.eqb_eq. split; [intros (-> & ->); auto|intros E; injection E; auto].
Qed.
Definition qin (q : qname) (l : list qname) : bool := existsb (qeqb q) l.
Lemma qin_in : forall q l, qin q l = true <-> In q l.
Proof.
  intros q l. unfold qin. rewrite existsb_exists. split; [intros (x & I & E); apply qeqb_eq in E; now subst|]. intros I. exists q. split; auto. now apply qeqb_eq.
Qed.

(** ** in a tree *)
Fixpoint hasb (t : tree) : bool :=
  match t with Elem q a c => qin q drawn_tags || existsb hasb c | _ => false end.
Lemma hasb_toks : forall t, hasb t = true <-> drawn_in (toks t).
Proof.
  induction t as [q a c F|s|] using tree_ind'.
  - rewrite <- (app_nil_r (toks _)), toks_elem. cbn [hasb]. rewrite orb_true_iff, existsb_exists, qin_in. split.
    + intros [I|(t & I & E)]; [exists q, a; split; auto; now left|]. rewrite Forall_forall in F. apply (F t I) in E as (q' & a' & J & K).
      exists q', a'. split; auto. right. apply in_or_app. left. clear -I J. induction c as [|x c IH]; [destruct I|]. rewrite ftoks_cons. apply in_or_app. destruct I as [->|I]; auto.
    + intros (q' & a' & [E|J] & K); [injection E as -> ->; now left|]. right. apply in_app_or in J as [J|[J|[]]]; [|discriminate].
      assert (G : exists t, In t c /\ In (TStart q' a') (toks t)).
      { clear -J. induction c as [|x c IH]; [destruct J|]. rewrite ftoks_cons in J. apply in_app_or in J as [J|J]; [exists x; cbn; auto|]. destruct (IH J) as (t & I & T). exists t. cbn. auto. }
      destruct G as (t & I & T). exists t. split; auto. rewrite Forall_forall in F. apply F; auto. now exists q', a'.
  - cbn. split; [discriminate|]. intros (q & a & [E|[]] & _). discriminate.
  - cbn. split; [discriminate|]. intros (q & a & [E|[]] & _). discriminate.
Qed.
Lemma hasb_cleaned : forall t t', cleaned_tree t t' -> hasb t' = hasb t.
Proof.
  induction t as [q a c F|s|] using tree_ind'; intros t' C; inversion C as [? ? a' ? c' A B|]; subst; auto. cbn [hasb]. f_equal.
  clear -F B. revert F. induction B as [|t t' c c' C B IH]; intros F; auto. inversion F; subst. cbn [existsb]. f_equal; auto.
Qed.

(** ** what never has any *)
Definition stirring : list qname :=
  [("w", "document"); ("w", "body"); ("w", "p"); ("w", "hyperlink"); ("w", "r"); ("w", "drawing"); ("wp", "inline"); ("wp", "anchor"); ("a", "graphic"); ("a", "graphicData");
   ("wps", "wsp"); ("wpc", "wpc"); ("wpg", "wgp"); ("wpg", "grpSp"); ("wps", "txbx"); ("w", "txbxContent"); ("w", "tbl"); ("w", "tr"); ("w", "tc")].
Lemma calm_rules : forallb (fun e : qname * rule => qin (fst e) stirring || forallb (fun q => negb (qin q stirring)) (flat_map fst (slots_of (r_content (snd e))))) own_grammar = true.
Proof. vm_compute. reflexivity. Qed.
Lemma drawn_stirring : forall q, qin q stirring = false -> qin q drawn_tags = false.
Proof.
  intros q E. destruct (qin q drawn_tags) eqn:D; auto. rewrite <- E. symmetry. apply qin_in. apply qin_in in D. destruct D as [<-|[<-|[<-|[]]]]; cbn; tauto.
Qed.
Lemma calm : forall t, conforms own_grammar [] t -> match t with Elem q _ _ => qin q stirring = false | _ => True end -> hasb t = false.
Proof.
  intros t K. induction K as [q a c r R Fa Fc Fk IH|s] using conforms_ind'; intros S; auto. cbn [hasb]. rewrite drawn_stirring by assumption. cbn [orb].
  pose proof calm_rules as T. rewrite forallb_forall in T. specialize (T _ (rule_in _ _ _ R)). cbn [fst snd] in T. rewrite S in T. cbn [orb] in T. rewrite forallb_forall in T.
  pose proof (content_named _ _ _ Fc) as N. clear -N T IH. induction c as [|x c IHc]; auto. inversion N; subst. inversion IH; subst. cbn [existsb]. rewrite IHc by assumption. rewrite orb_false_r.
  apply H3. destruct x; auto. apply T in H1. now apply negb_true_iff in H1.
Qed.
Ltac calmly := match goal with |- hasb ?t = false => apply calm; [auto with gramm|reflexivity] end.
#[local] Hint Resolve g_rpr g_ppr g_pic g_text g_tab g_br g_extent g_effect g_docpr g_frame g_sect g_tblpr g_grid g_trpr g_tcpr : gramm.

Lemma el_calm : forall A (f : A -> tree) o, (forall x, hasb (f x) = false) -> existsb hasb (el f o) = false.
Proof. intros A f [x|] E; cbn; auto. now rewrite E. Qed.
Lemma map_hasb : forall A (f : A -> tree) l, existsb hasb (map f l) = existsb (fun x => hasb (f x)) l.
Proof. induction l; cbn; auto. now rewrite IHl. Qed.

Definition drawnb (o : option gdata) : bool := match o with Some d => is_some (gdataR_shape d) || is_some (gdataR_canvas d) || is_some (gdataR_group d) | None => false end.
Notation mgd := (m_gdataR m_shape m_canvas m_group).
Lemma h_gdata : forall d, hasb (mgd d) = drawnb (Some d).
Proof.
  intros d. unfold m_gdataR. cbn [hasb drawnb]. change (qin (a_ "graphicData") drawn_tags) with false. cbn [orb]. rewrite !existsb_app.
  rewrite (el_calm _ m_pic) by (intros x; calmly). cbn [orb]. rewrite <- !orb_assoc. f_equal; [|f_equal].
  - destruct (gdataR_shape d) as [[]|]; reflexivity.
  - destruct (gdataR_canvas d) as [[]|]; reflexivity.
  - destruct (gdataR_group d) as [[]|]; reflexivity.
Qed.
Lemma h_graphic : forall o, existsb hasb (el (m_graphicR mgd) o) = drawnb (g_data o).
Proof.
  intros [g|]; auto. cbn [el existsb]. rewrite orb_false_r. unfold m_graphicR. cbn [hasb g_data]. change (qin (a_ "graphic") drawn_tags) with false. cbn [orb].
  destruct g as [xa [d|]]; cbn [graphicR_data]; auto. cbn [el existsb]. rewrite h_gdata. apply orb_false_r.
Qed.
Lemma h_inline : forall o, existsb hasb (el (m_inlineR (m_graphicR mgd)) o) = drawnb (inline_data o).
Proof.
  intros [x|]; auto. cbn [el existsb]. rewrite orb_false_r. unfold m_inlineR. cbn [hasb]. change (qin (wp "inline") drawn_tags) with false. cbn [orb]. rewrite !existsb_app.
  rewrite (el_calm _ m_extent) by (intros; calmly). rewrite (el_calm _ m_effect) by (intros; calmly). rewrite (el_calm _ m_docpr) by (intros; calmly). rewrite (el_calm _ m_frame) by (intros; calmly).
  cbn [orb]. rewrite h_graphic. reflexivity.
Qed.
Lemma h_anchor : forall o, existsb hasb (el (m_anchorR (m_graphicR mgd)) o) = drawnb (anchor_data o).
Proof.
  intros [x|]; auto. cbn [el existsb]. rewrite orb_false_r. unfold m_anchorR. cbn [hasb]. change (qin (wp "anchor") drawn_tags) with false. cbn [orb]. rewrite !existsb_app.
  rewrite (el_calm _ (m_off _)) by (intros; reflexivity). rewrite !(el_calm _ (m_wpos _)) by (intros; reflexivity).
  rewrite (el_calm _ m_extent) by (intros; calmly). rewrite (el_calm _ m_effect) by (intros; calmly). rewrite (el_calm _ m_docpr) by (intros; calmly). rewrite (el_calm _ m_frame) by (intros; calmly).
  rewrite (el_calm _ (fun v => Elem (wp "wrapSquare") _ _)) by (intros; reflexivity). rewrite h_graphic.
  destruct (anchorR_wrapNone x); reflexivity.
Qed.
Definition rdrawnb (c : rchild) : bool := match c with RDraw i a => drawnb (inline_data i) || drawnb (anchor_data a) | _ => false end.
Lemma h_rchild : forall c, hasb (m_rchild c) = rdrawnb c.
Proof.
  intros [t|t|t|i a]; cbn [m_rchild rdrawnb]; try calmly. cbn [hasb]. change (qin (w "drawing") drawn_tags) with false. cbn [orb]. now rewrite existsb_app, h_inline, h_anchor.
Qed.
Lemma h_run : forall r, hasb (m_runR m_rchild r) = existsb rdrawnb (runR_children r).
Proof.
  intros r. unfold m_runR. cbn [hasb]. change (qin (w "r") drawn_tags) with false. cbn [orb]. rewrite !existsb_app, map_hasb, (el_calm _ m_rpr) by (intros; calmly). cbn [orb].
  replace (existsb hasb (if String.eqb (runR_instr r) "" then [] else [Elem (w "instrText") [] [Chr (runR_instr r)]])) with false by (destruct (String.eqb (runR_instr r) ""); reflexivity).
  cbn [orb]. induction (runR_children r) as [|c l IH]; cbn [existsb]; auto. now rewrite h_rchild, IH.
Qed.
Definition pdrawnb (c : pchild) : bool := match c with PRun r | PLink _ r => existsb rdrawnb (runR_children r) | PRPr _ => false end.
Lemma h_pchild : forall c, hasb (m_pchild c) = pdrawnb c.
Proof.
  intros [r|id r|r]; cbn [m_pchild pdrawnb]; [apply h_run| |calmly]. cbn [hasb existsb]. change (qin (w "hyperlink") drawn_tags) with false. cbn [orb]. now rewrite h_run, orb_false_r.
Qed.
Lemma existsb_ext : forall A (f g : A -> bool) l, (forall x, f x = g x) -> existsb f l = existsb g l.
Proof. induction l; intros E; cbn; auto. now rewrite E, IHl. Qed.
Lemma h_para : forall p, hasb (m_para p) = existsb pdrawnb (para_children p).
Proof.
  intros [r]. cbn [m_para]. unfold m_paraR. cbn [hasb]. change (qin (w "p") drawn_tags) with false. cbn [orb]. rewrite !existsb_app, map_hasb, (el_calm _ m_ppr) by (intros; calmly). cbn [orb].
  unfold para_children. exact (existsb_ext _ _ _ _ h_pchild).
Qed.
Definition parab (p : para) : bool := existsb pdrawnb (para_children p).
Lemma existsb_flat : forall A B (f : B -> bool) (g : A -> list B) l, existsb f (flat_map g l) = existsb (fun x => existsb f (g x)) l.
Proof. induction l; cbn; auto. now rewrite existsb_app, IHl. Qed.
Lemma h_item : forall x, hasb (m_item x) = existsb parab (item_paras x).
Proof.
  intros [p|t|s]; cbn [m_item item_paras]; [cbn; rewrite orb_false_r; apply h_para| |change (hasb (m_sect s) = false); calmly].
  unfold m_table. cbn [hasb]. change (qin (w "tbl") drawn_tags) with false. cbn [orb]. rewrite !existsb_app, map_hasb, (el_calm _ m_tblpr), (el_calm _ m_grid) by (intros; calmly). cbn [orb].
  unfold table_paras. rewrite existsb_flat. apply existsb_ext. intros r. unfold m_row. cbn [hasb]. change (qin (w "tr") drawn_tags) with false. cbn [orb].
  rewrite !existsb_app, map_hasb, (el_calm _ m_trpr) by (intros; calmly). cbn [orb]. rewrite existsb_flat. apply existsb_ext. intros c. unfold m_cell. cbn [hasb]. change (qin (w "tc") drawn_tags) with false. cbn [orb].
  rewrite !existsb_app, map_hasb, (el_calm _ m_tcpr) by (intros; calmly). cbn [orb]. apply existsb_ext. apply h_para.
Qed.
Lemma h_document : forall a l, hasb (m_document_of a l) = existsb parab (body_paras l).
Proof.
  intros a l. unfold m_document_of. cbn [hasb existsb]. change (qin (w "document") drawn_tags) with false. change (qin (w "body") drawn_tags) with false. cbn [orb]. rewrite orb_false_r, map_hasb.
  unfold body_paras. rewrite existsb_flat. apply existsb_ext. apply h_item.
Qed.

(** ** in the words of the specification *)
Lemma rdrawn_holds : forall c, rdrawnb c = true <-> holds drawn c.
Proof.
  intros [t|t|t|i a]; cbn [rdrawnb holds]; try (split; [discriminate|intros []]). rewrite orb_true_iff.
  assert (D : forall d : gdata, drawnb (Some d) = true <-> drawn d).
  { intros d. cbn [drawnb]. unfold drawn, has_shape, has_canvas, has_group. rewrite !orb_true_iff. destruct (gdataR_shape d), (gdataR_canvas d), (gdataR_group d); cbn; intuition congruence. }
  assert (G : forall i, drawnb (inline_data i) = true <-> exists x g d, i = Some x /\ inlineR_graphic x = Some g /\ graphicR_data g = Some d /\ drawn d).
  { intros [x|]; cbn [inline_data]; [|split; [discriminate|intros (x & g & d & E & _); discriminate]]. split.
    - destruct (inlineR_graphic x) as [g|] eqn:E; [|discriminate]. destruct (graphicR_data g) as [d|] eqn:E2; [|discriminate]. rewrite D. intros K. exists x, g, d. auto.
    - intros (x' & g & d & E & E1 & E2 & K). injection E as ->. rewrite E1, E2. now apply D. }
  assert (G2 : forall i, drawnb (anchor_data i) = true <-> exists x g d, i = Some x /\ anchorR_graphic x = Some g /\ graphicR_data g = Some d /\ drawn d).
  { intros [x|]; cbn [anchor_data]; [|split; [discriminate|intros (x & g & d & E & _); discriminate]]. split.
    - destruct (anchorR_graphic x) as [g|] eqn:E; [|discriminate]. destruct (graphicR_data g) as [d|] eqn:E2; [|discriminate]. rewrite D. intros K. exists x, g, d. auto.
    - intros (x' & g & d & E & E1 & E2 & K). injection E as ->. rewrite E1, E2. now apply D. }
  now rewrite G, G2.
Qed.
Lemma paras_drawn : forall l, existsb parab (body_paras l) = true <-> run_drawn l \/ link_drawn l.
Proof.
  intros l. rewrite existsb_exists. unfold run_drawn, link_drawn, parab. split.
  - intros (p & I & E). apply existsb_exists in E as (c & J & E). destruct c as [r|id r|r]; cbn in E; try discriminate; apply existsb_exists in E as (c & K & E); apply rdrawn_holds in E.
    + left. exists p, r, c. auto.
    + right. exists p, id, r, c. auto.
  - intros [(p & r & c & I & J & K & H)|(p & id & r & c & I & J & K & H)]; exists p; split; auto; apply existsb_exists; [exists (PRun r)|exists (PLink id r)]; split; auto; cbn; apply existsb_exists; exists c; split; auto; now apply rdrawn_holds.
Qed.
Theorem part_drawn : forall d s, part_of d DOC_NAME s -> (drawn_in (lex s) <-> run_drawn (d_items d) \/ link_drawn (d_items d)).
Proof.
  intros d s P. assert (E : s = write_xml (m_docx d)).
  { inversion P as [A B|A B|n' y LM A B|n' c' LM F X1 X2 X3 A B]; subst; try reflexivity; try discriminate. now destruct X1. }
  rewrite E. unfold m_docx. destruct (lex_write_any (m_document_of (if d_ns d then doc_attrs else no_attrs) (d_items d))) as (t' & C & L); [unfold m_document_of; eauto|apply ok_document_of|].
  rewrite L, <- paras_drawn, <- (h_document (if d_ns d then doc_attrs else no_attrs)), <- (hasb_cleaned _ _ C), hasb_toks. unfold drawn_in. split.
  - intros (q & a & [K|[K|I]] & J); try discriminate. eauto.
  - intros (q & a & I & J). exists q, a. cbn. auto.
Qed.
Theorem package_drawn : forall d ar, writes d (Ok ar) -> forall s, In (DOC_NAME, Some s) ar -> (drawn_in (lex s) <-> run_drawn (d_items d) \/ link_drawn (d_items d)).
Proof. intros d ar W s I. destruct (written_parts d ar W) as (_ & G). apply G in I as (x & E & P). injection E as <-. now apply part_drawn. Qed.

(** ** after DropDrawingOf *)
Lemma without_in : forall A (f : A -> Prop) a b, without f a b -> forall x, In x b -> ~ f x.
Proof. intros A f a b W. induction W; intros z I; [destruct I|auto|]. destruct I as [<-|I]; auto. Qed.
Lemma drop_runs : forall l, ~ run_drawn (drop_drawing_of "ShapeAndCanvasAndGroup" l).
Proof.
  intros l (p & r & c & I & J & K & H). rewrite drop_all_paras in I. apply in_map_iff in I as (p0 & <- & I0). assert (D : para_without (holds drawn) p0 (para_drop "ShapeAndCanvasAndGroup" p0)) by exact (para_drop_exact "ShapeAndCanvasAndGroup" p0).
  destruct D as (k & F & E). rewrite E in J. cbn in J. clear E I0. revert F J. generalize (para_children p0) as l0. intros l0 F. induction F as [|x y a b X F IH]; intros J; [destruct J|]. destruct J as [->|J]; auto.
  destruct x; cbn in X; try discriminate; try (now destruct X). destruct X as (k0 & W & E). subst r. cbn in K. exact (without_in _ _ _ _ W c K H).
Qed.
Lemma drop_links : forall n l, link_drawn (drop_drawing_of n l) <-> link_drawn l.
Proof.
  intros n l. unfold link_drawn. rewrite drop_all_paras.
  assert (G : forall p id r, In (PLink id r) (para_children (para_drop n p)) <-> In (PLink id r) (para_children p)).
  { intros p id r. pose proof (para_drop_exact n p) as D. destruct (to_drop n); [|now rewrite D]. destruct D as (k & F & ->). cbn. clear -F. induction F as [|x y a b X F IH]; [tauto|].
    cbn [In]. rewrite IH. destruct x; cbn in X; try (subst y; tauto). destruct y; try contradiction. split; intros [E|E]; auto; discriminate. }
  split.
  - intros (p & id & r & c & I & J & K & H). apply in_map_iff in I as (p0 & <- & I0). apply (proj1 (G _ _ _)) in J. exists p0, id, r, c. repeat split; assumption.
  - intros (p & id & r & c & I & J & K & H). exists (para_drop n p), id, r, c. split; [now apply in_map|]. split; [now apply (proj2 (G _ _ _))|]. auto.
Qed.
Theorem dropped_drawn : forall d ar s, writes (set_d_items (drop_drawing_of "ShapeAndCanvasAndGroup" (d_items d)) d) (Ok ar) -> In (DOC_NAME, Some s) ar -> (drawn_in (lex s) <-> link_drawn (d_items d)).
Proof.
  intros d ar s W I. rewrite (package_drawn _ ar W s I). replace (d_items (set_d_items _ d)) with (drop_drawing_of "ShapeAndCanvasAndGroup" (d_items d)) by (destruct d; reflexivity).
  rewrite drop_links. pose proof (drop_runs (d_items d)). tauto.
Qed.
