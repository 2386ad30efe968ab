(** Reading back what was written: paragraphs, drawings, tables, documents. *)
From Coq Require Import String Ascii List Bool Arith NArith ZArith Lia.
From Verif Require Import GoStr Num Lib Types XmlTok Marshal Unmarshal DecLemmas Reload RoundTrip.
Import ListNotations.
Local Open Scope string_scope.
Local Open Scope list_scope.

Section RT2.
Context `{GoLib}.

Ltac numh := repeat apply numh_ane; first [apply numh_ai | apply numh_ain | apply numh_aig | apply numh_aatoi | apply numh_adig].
Ltac ats1 :=
  match goal with
  | |- attrs _ _ (at_ _ _) = _ => first [eapply attrs_at; reflexivity | eapply attrs_at_ne; reflexivity]
  | |- attrs _ _ (ato _ _) = _ => eapply attrs_ato; reflexivity
  | |- attrs _ _ (ati _ _) = _ => eapply attrs_ati; [reflexivity | numh]
  | |- attrs _ _ (atio _ _) = _ => eapply attrs_atio; [reflexivity | numh | reflexivity]
  | |- attrs _ _ [] = _ => reflexivity
  end.
Ltac nm := intros; cbn; reflexivity.
Ltac red_state :=
  match goal with |- ?s = _ => let s1 := eval hnf in s in let s2 := eval simpl in s1 in unify s s2; exact (eq_refl s2) end.
Ltac ats := repeat (eapply attrs_step_eq; [ats1 | red_state |]); (etransitivity; [ats1 | reflexivity]).
Ltac kid1 tac :=
  match goal with
  | |- Kids _ _ (el (val_el _) _) _ => first [eapply k_val; reflexivity | eapply k_val_skip; reflexivity | eapply k_childo_id; [nm | reflexivity | reflexivity | tac]]
  | |- Kids _ _ (el (val_elo _) _) _ => eapply k_valo; reflexivity
  | |- Kids _ _ (el (val_eli _) _) _ => eapply k_vali; reflexivity
  | |- Kids _ _ (elb _ _) _ => first [eapply k_bool; reflexivity | eapply k_bool_skip; reflexivity]
  | |- Kids _ _ (el (fun v => Elem _ (at_ _ v) []) _) _ => first [eapply k_flat; reflexivity | eapply k_flat_skip; reflexivity]
  | |- Kids _ _ (el (fun v => Elem _ (ati _ v) []) _) _ => eapply k_num; reflexivity
  | |- Kids _ _ (el _ _) _ => eapply k_childo_id; [nm | reflexivity | reflexivity | tac]
  | |- Kids _ _ [] _ => apply kids_nil
  end.
Ltac kids tac := repeat (eapply kids_step; [kid1 tac | red_state |]); try (eapply kids_eq; [kid1 tac | reflexivity]).
(** a child whose decoded form is given by a function; [tac] solves the Dec goal *)
Ltac kidg g tac := eapply (k_childo _ _ _ g); [nm | reflexivity | reflexivity | tac].

Lemma k_map : forall {X A B} (cs : list (string * hnd X)) (m : A -> tree) (g : A -> B) (add : B -> X -> X) l s,
  (forall v s, In v l -> Act (switch cs (fun s _ ts => skipping s ts) (tname (m v))) s (m v) (add (g v) s)) ->
  Kids (eswitch cs) s (map m l) (fold_left (fun s v => add (g v) s) l s).
Proof. intros X A B cs m g add l s HA. apply (kids_map cs m (fun v => add (g v))). exact HA. Qed.

(** select the handler of [t], then compare results *)
Lemma act_via : forall {X} (cs : list (string * hnd X)) d n h s t s1 s',
  tname t = n -> switch cs d n = h -> Act h s t s1 -> s1 = s' -> Act (switch cs d (tname t)) s t s'.
Proof. intros. subst. assumption. Qed.
Ltac via H := eapply act_via; [reflexivity | reflexivity | apply H | reflexivity].

Lemma dec_wrap : forall {A B} (u : list attr -> list token -> out A) (c : A -> B) t x,
  Dec u t x -> Dec (fun a ts => let '(x, st, ts') := u a ts in (c x, st, ts')) t (c x).
Proof. intros A B u c t x HD. destruct t as [q a k| |]; [|contradiction|contradiction]. intros k'. now rewrite HD. Qed.

Lemma szs_map_in : forall {A} (m : A -> tree) v l, In v l -> tsz (m v) <= szs (map m l).
Proof. intros. apply szs_in. now apply in_map. Qed.

Lemma tname_shape : forall x, tname (m_shape x) = "wsp". Proof. now intros []. Qed.
Lemma tname_canvas : forall x, tname (m_canvas x) = "wpc". Proof. now intros []. Qed.
Lemma tname_group : forall x, tname (m_group x) = "wgp". Proof. now intros []. Qed.

Section Step.
Variable D : decs.
Variable N : nat.
Hypothesis HP : forall f p, tsz (m_para p) < N -> Dec (d_para D f) (m_para p) (reload_para f p).
Hypothesis HC : forall f c, tsz (m_canvas c) < N -> Dec (d_canvas D f) (m_canvas c) (reload_canvas f c).
Hypothesis HG : forall f g, tsz (m_group g) < N -> Dec (d_group D f) (m_group g) (reload_group f g).

Ltac sz := repeat (rewrite ?tsz_elem, ?szs_app, ?szs_cons in * ); cbn [el elb szs fold_right tsz] in *; fold szs in *.

Lemma rt_txcontent : forall f ps, szs (map m_para ps) < N ->
  Dec (u_txcontent D f) (Elem (w "txbxContent") [] (map m_para ps)) (map (reload_para f) ps).
Proof.
  intros f ps L. apply loopd_dec.
  eapply kids_eq; [apply (k_map _ m_para (reload_para f) (fun x s => s ++ [x]))|].
  - intros v s Hv. destruct v as [v].
    apply (child_act (d_para D f) (push (fun x => x)) s (m_para (Para v))). apply HP.
    pose proof (szs_map_in m_para _ _ Hv). lia.
  - apply (fold_push (reload_para f) ps []).
Qed.

Lemma rt_shape : forall f x, tsz (m_shape x) <= N -> Dec (u_shape D f) (m_shape x) (reload_shape f x).
Proof.
  intros f [x] L. unfold u_shape. cbn [m_shape reload_shape].
  apply (dec_wrap (u_shapeR D f) Shape). destruct x as [cp cn cs sp tb bo]. apply loopd_dec.
  cbn [m_shape] in L. unfold m_shapeR in L. rewrite tsz_elem, !szs_app in L.
  kids ltac:(first [apply rt_nonvis | apply rt_cnvcn | apply rt_cnvsp]).
  eapply kids_step; [kidg reload_sppr ltac:(intros; apply rt_sppr) | red_state |].
  eapply kids_step; [kidg (option_map (map (reload_para f))) idtac | red_state |].
  - intros c E. apply loopd_dec.
    eapply kids_eq; [kidg (map (reload_para f)) idtac | reflexivity].
    intros ps ->. apply rt_txcontent. cbn [shapeR_textBox] in *. rewrite E in L. cbn [el] in L.
    rewrite !szs_cons, !tsz_elem, szs_cons, tsz_elem in L. lia.
  - kids ltac:(apply rt_bodypr).
Qed.

Lemma rt_canvasR : forall f x, tsz (m_canvasR m_citem x) <= N ->
  Dec (u_canvasR D f) (m_canvasR m_citem x) (reload_canvasR (reload_citem f) x).
Proof.
  intros f x L. destruct x as [bg wh it]. apply loopd_dec. unfold m_canvasR in L.
  rewrite tsz_elem, !szs_app in L. cbn [canvasR_items canvasR_bg canvasR_whole] in L.
  eapply kids_step; [kid1 ltac:(intros; apply loopd_dec; eapply kids_eq; [eapply (k_bool _ _ (fun b _ => b)); reflexivity | reflexivity]) | red_state |].
  eapply kids_step; [kid1 ltac:(intros; apply loopd_dec; eapply kids_eq; [eapply (k_childo_id _ m_aline u_aline (fun o _ => o)); [nm | reflexivity | reflexivity | apply rt_aline] | reflexivity]) | red_state |].
  eapply kids_eq.
  - apply (k_map _ m_citem (reload_citem f) (fun x s => set_canvasR_items (canvasR_items s ++ [x]) s)).
    intros v s Hv. pose proof (szs_map_in m_citem _ _ Hv) as Lv. destruct v as [s1|p|g]; cbn [m_citem reload_citem canvasR_items] in *.
    + assert (HD := rt_shape f s1 ltac:(lia)). eapply act_via; [apply tname_shape | reflexivity | apply child_act, HD | reflexivity].
    + eapply act_via; [reflexivity | reflexivity | apply child_act, rt_picx | reflexivity].
    + assert (HD := HG f g ltac:(lia)). eapply act_via; [apply tname_group | reflexivity | apply child_act, HD | reflexivity].
  - assert (G : forall l acc, fold_left (fun s v => set_canvasR_items (canvasR_items s ++ [reload_citem f v]) s) l (mk_canvasR bg wh acc)
        = mk_canvasR bg wh (acc ++ map (reload_citem f) l)).
    { induction l as [|v l IH]; intros acc; cbn [fold_left map]; [now rewrite app_nil_r|].
      unfold set_canvasR_items at 2. cbn [canvasR_bg canvasR_whole canvasR_items]. rewrite IH, <- app_assoc. reflexivity. }
    apply (G it []).
Qed.

Lemma rt_gshape : forall f x, tsz (m_gshapeR m_gelem x) <= N ->
  Dec (u_gshape D f) (m_gshapeR m_gelem x)
    (reload_gshapeR (fun e => match e with GGrp _ => [] | _ => [reload_gelem f e] end) x).
Proof.
  intros f x L. destruct x as [cp cn sp es]. apply loopd_dec. unfold m_gshapeR in L.
  rewrite tsz_elem, !szs_app in L. cbn [gshapeR_elems gshapeR_cnvPr gshapeR_cnv gshapeR_sp] in L.
  kids ltac:(first [apply rt_nonvis | apply rt_gcnv]).
  eapply kids_step; [kidg reload_sppr ltac:(intros; apply rt_sppr) | red_state |].
  cbn [gshapeR_elems].
  match goal with |- Kids (eswitch ?cs) _ _ _ =>
    assert (G : forall l acc, (forall v, In v l -> tsz (m_gelem v) <= N - 1) ->
      Kids (eswitch cs) (mk_gshapeR cp cn (option_map reload_sppr sp) acc) (map m_gelem l)
        (mk_gshapeR cp cn (option_map reload_sppr sp) (acc ++ flat_map (fun e => match e with GGrp _ => [] | _ => [reload_gelem f e] end) l))) end.
  { induction l as [|v l IH]; intros acc HL; cbn [map flat_map]; [rewrite app_nil_r; apply kids_nil|].
    assert (Lv : tsz (m_gelem v) <= N - 1) by (apply HL; now left).
    assert (HL' : forall v, In v l -> tsz (m_gelem v) <= N - 1) by (intros; apply HL; now right).
    assert (N2 : 2 <= N) by lia.
    destruct v as [p|s1|c|g]; cbn [m_gelem reload_gelem groupR_elems gshapeR_elems] in *.
    - rewrite app_assoc. eapply kids_cons; [eapply act_via; [reflexivity | reflexivity | apply child_act, rt_pic | reflexivity]|].
      apply IH, HL'.
    - assert (HD := rt_shape f s1 ltac:(lia)).
      rewrite app_assoc. eapply kids_cons; [eapply act_via; [apply tname_shape | reflexivity | apply child_act, HD | reflexivity]|].
      apply IH, HL'.
    - assert (HD := HC f c ltac:(lia)).
      rewrite app_assoc. eapply kids_cons; [eapply act_via; [apply tname_canvas | reflexivity | apply child_act, HD | reflexivity]|].
      apply IH, HL'.
    - eapply kids_cons; [eapply act_via; [reflexivity | reflexivity | apply skip_act | reflexivity]|]. apply IH, HL'. }
  apply (G es []). intros v Hv. pose proof (szs_map_in m_gelem _ _ Hv). lia.
Qed.

Lemma rt_groupR : forall f x, tsz (m_groupR m_gelem x) <= N ->
  Dec (u_groupR D f) (m_groupR m_gelem x) (reload_groupR (reload_gelem f) x).
Proof.
  intros f x L. destruct x as [cn sp es]. apply loopd_dec. unfold m_groupR in L.
  rewrite tsz_elem, !szs_app in L. cbn [groupR_elems groupR_cnv groupR_sp] in L.
  kids ltac:(apply rt_gcnv).
  eapply kids_step; [kidg reload_sppr ltac:(intros; apply rt_sppr) | red_state |].
  eapply kids_eq.
  - apply (k_map _ m_gelem (reload_gelem f) (fun x s => set_groupR_elems (groupR_elems s ++ [x]) s)).
    intros v s Hv. pose proof (szs_map_in m_gelem _ _ Hv) as Lv. destruct v as [p|s1|c|g]; cbn [m_gelem reload_gelem groupR_elems gshapeR_elems] in *.
    + eapply act_via; [reflexivity | reflexivity | apply child_act, rt_pic | reflexivity].
    + assert (HD := rt_shape f s1 ltac:(lia)). eapply act_via; [apply tname_shape | reflexivity | apply child_act, HD | reflexivity].
    + assert (HD := HC f c ltac:(lia)). eapply act_via; [apply tname_canvas | reflexivity | apply child_act, HD | reflexivity].
    + assert (HD := rt_gshape f g ltac:(lia)). eapply act_via; [reflexivity | reflexivity | apply child_act, HD | reflexivity].
  - assert (G : forall l acc, fold_left (fun s v => set_groupR_elems (groupR_elems s ++ [reload_gelem f v]) s) l (mk_groupR cn (option_map reload_sppr sp) acc)
        = mk_groupR cn (option_map reload_sppr sp) (acc ++ map (reload_gelem f) l)).
    { induction l as [|v l IH]; intros acc; cbn [fold_left map]; [now rewrite app_nil_r|].
      unfold set_groupR_elems at 2. cbn [groupR_cnv groupR_sp groupR_elems]. rewrite IH, <- app_assoc. reflexivity. }
    apply (G es []).
Qed.

Notation mgd := (m_gdataR m_shape m_canvas m_group).
Notation rgd f := (reload_gdataR (reload_shape f) (reload_canvas f) (reload_group f)).


Lemma rt_gdata : forall f x, tsz (mgd x) <= N -> Dec (u_gdata D f) (mgd x) (rgd f x).
Proof.
  intros f x L. destruct x as [uri p s c g]. unfold m_gdataR in L. rewrite tsz_elem, !szs_app in L.
  cbn [gdataR_pic gdataR_shape gdataR_canvas gdataR_group] in L.
  eapply nested_dec; [ats|].
  kids ltac:(apply rt_picx).
  eapply kids_step; [eapply (k_childo _ _ _ (reload_shape f)); [apply tname_shape | reflexivity | reflexivity |] | red_state |].
  { intros v E. cbn in E. subst. apply rt_shape. cbn [el] in L. rewrite (szs_cons (m_shape v)) in L. lia. }
  eapply kids_step; [eapply (k_childo _ _ _ (reload_canvas f)); [apply tname_canvas | reflexivity | reflexivity |] | red_state |].
  { intros v E. cbn in E. subst. apply HC. cbn [el] in L. rewrite (szs_cons (m_canvas v)) in L. lia. }
  eapply kids_eq; [eapply (k_childo _ _ _ (reload_group f)); [apply tname_group | reflexivity | reflexivity |] | reflexivity].
  intros v E. cbn in E. subst. apply HG. cbn [el] in L. rewrite (szs_cons (m_group v)) in L. lia.
Qed.

Lemma rt_graphic : forall f x, tsz (m_graphicR mgd x) <= N ->
  Dec (u_graphic D f) (m_graphicR mgd x) (reload_graphicR (rgd f) x).
Proof.
  intros f x L. destruct x as [xa d]. eapply nested_dec; [ats|]. destruct d as [d|]; [|apply kids_nil].
  cbn [graphicR_data el] in *. unfold m_graphicR in L. cbn [graphicR_data el] in L.
  rewrite tsz_elem, szs_cons in L.
  assert (HD := rt_gdata f d ltac:(lia)).
  apply kids_one. left. intros k.
  apply (decode_dec (u_gdata D f) (fun x => set_graphicR_data (Some (set_gdataR_uri (gdataR_uri d) x))) _ _ _ _ HD).
Qed.

Lemma rt_inline : forall f x, tsz (m_inlineR (m_graphicR mgd) x) <= N ->
  Dec (u_inline D f) (m_inlineR (m_graphicR mgd) x) (reload_inlineR f (reload_graphicR (rgd f)) x).
Proof.
  intros f x L. destruct x as [dt db dl dr ex ef dp fr gr fi]. unfold m_inlineR in L. rewrite tsz_elem, !szs_app in L.
  eapply nested_dec; [ats|].
  eapply kids_step; [ eapply (k_fattrs_el _ _ _ _ set_inlineR_extent (wp "extent") (fun x => ati (nn "cx") (xy_x x) ++ ati (nn "cy") (xy_y x)) (fun v => v)); [reflexivity | exact rt_ext | reflexivity | reflexivity] | red_state |].
  eapply kids_step; [ eapply (k_fattrs_el _ _ _ _ set_inlineR_effect (wp "effectExtent") (fun x => ati (nn "l") (eff_l x) ++ ati (nn "t") (eff_t x) ++ ati (nn "r") (eff_r x) ++ ati (nn "b") (eff_b x)) (fun v => v)); [reflexivity | intros []; ats | reflexivity | reflexivity] | red_state |].
  kids ltac:(first [apply rt_docpr | apply rt_frame]).
  eapply kids_eq; [eapply (k_childo _ _ _ (reload_graphicR (rgd f))); [nm | reflexivity | reflexivity |] | reflexivity].
  intros v E. apply rt_graphic. cbn [inlineR_graphic] in *. rewrite E in L. cbn [el] in L. rewrite (szs_cons (m_graphicR mgd v)) in L. lia.
Qed.

Lemma rt_anchor : forall f x, tsz (m_anchorR (m_graphicR mgd) x) <= N ->
  Dec (u_anchor D f) (m_anchorR (m_graphicR mgd) x) (reload_anchorR f (reload_graphicR (rgd f)) x).
Proof.
  intros f x L. destruct x. unfold m_anchorR in L. rewrite tsz_elem, !szs_app in L.
  eapply nested_dec; [ats|].
  eapply kids_step; [ eapply (k_fattrs_el _ _ _ _ set_anchorR_simpleXY (wp "simplePos") (fun x => ati (nn "x") (xy_x x) ++ ati (nn "y") (xy_y x)) (fun v => v)); [reflexivity | exact rt_off | reflexivity | reflexivity] | red_state |].
  kids ltac:(first [apply rt_docpr | apply rt_frame | apply rt_wpos | apply rt_extent | apply rt_effect]).
  eapply kids_eq; [eapply (k_childo _ _ _ (reload_graphicR (rgd f))); [nm | reflexivity | reflexivity |] | reflexivity].
  intros v E. apply rt_graphic. cbn [Types.anchorR_graphic] in *. rewrite E in L. cbn [el] in L. rewrite (szs_cons (m_graphicR mgd v)) in L. lia.
Qed.

(** ** runs *)

Notation hrun f := (fun s l a ts => run_parse D f (S (size ts)) s l a ts).

Lemma run_one : forall f s q a c s',
  (forall k, run_parse D f (S (size (ftoks c ++ TEnd q :: k))) s (snd q) a (ftoks c ++ TEnd q :: k) = (s', SOk, k)) ->
  Kids (hrun f) s [Elem q a c] s'.
Proof.
  intros f s q a c s' E k r Hr. rewrite ftoks_cons, app_nil_r, toks_elem.
  eapply l_start; [apply E | apply size_forest_end | exact Hr].
Qed.

Lemma run_parse_rpr : forall f n s a ts, run_parse D f (S n) s "rPr" a ts = decode (u_rpr a) (fun x => set_runR_rpr (Some x)) s ts.
Proof. reflexivity. Qed.

Lemma pchildh_dec : forall {A} (u : list attr -> list token -> out A) (c : A -> rchild) q a k x s r,
  Dec u (Elem q a k) x -> pchildh u c s a (ftoks k ++ TEnd q :: r) = (add_child (c x) s, SOk, r).
Proof. intros. unfold pchildh. erewrite sub_dec by eauto. reflexivity. Qed.

Lemma rt_rchild : forall f c s, tsz (m_rchild c) <= N -> Kids (hrun f) s [m_rchild c] (add_child (reload_rchild f c) s).
Proof.
  intros f c s L. destruct c as [t|t|ty|i a]; cbn [m_rchild reload_rchild] in *.
  - apply run_one. intros k. apply (pchildh_dec u_text RText). apply rt_text.
  - intros k r Hr. rewrite ftoks_cons, app_nil_r. unfold m_tab. rewrite toks_elem. cbn [ftoks flat_map app].
    eapply l_start; [reflexivity | cbn; lia |]. apply l_end. exact Hr.
  - apply run_one. intros k. apply (pchildh_dec u_br RBr). apply rt_br.
  - apply run_one. intros k.
    assert (HD : Dec (u_drawing D f) (Elem (w "drawing") [] (el (m_inlineR (m_graphicR mgd)) i ++ el (m_anchorR (m_graphicR mgd)) a))
      (option_map (reload_inlineR f (reload_graphicR (rgd f))) i, option_map (reload_anchorR f (reload_graphicR (rgd f))) a)).
    { rewrite tsz_elem, szs_app in L. apply loopd_dec.
      eapply kids_step; [eapply (k_childo _ _ _ (reload_inlineR f (reload_graphicR (rgd f)))); [nm | reflexivity | reflexivity |] | reflexivity |].
      - intros v ->. apply rt_inline. cbn [el] in L. rewrite (szs_cons (m_inlineR _ v)) in L. lia.
      - eapply kids_eq; [eapply (k_childo _ _ _ (reload_anchorR f (reload_graphicR (rgd f)))); [nm | reflexivity | reflexivity |] | reflexivity].
        intros v ->. apply rt_anchor. cbn [el] in L. rewrite (szs_cons (m_anchorR _ v)) in L. lia. }
    apply (pchildh_dec (u_drawing D f) (fun p => RDraw (fst p) (snd p)) _ _ _ _ _ _ HD).
Qed.

Lemma rt_run : forall f r, tsz (m_runR m_rchild r) <= N -> Dec (u_run D f run0) (m_runR m_rchild r) (reload_runR (reload_rchild f) r).
Proof.
  intros f [sp pr ins ch] L k. unfold m_runR in L. rewrite tsz_elem, !szs_app in L.
  cbn [runR_rpr runR_instr runR_children] in L. unfold u_run, attrs_loop.
  match goal with |- context [attrs ?a ?b ?c] => replace (attrs a b c) with (mk_runR sp None "" [] : run, SOk) end.
  2:{ symmetry. etransitivity; [eapply attrs_ato; reflexivity | reflexivity]. }
  cbv beta iota. apply kids_loop. cbn [runR_rpr runR_instr runR_children].
  apply (kids_app _ _ (mk_runR sp pr "" [])).
  { destruct pr as [x|]; [|apply kids_nil]. apply run_one. intros k'.
    change (snd (w "rPr")) with "rPr". rewrite run_parse_rpr. rewrite (decode_dec u_rpr (fun x => set_runR_rpr (Some x)) _ _ _ _ (rt_rpr x)).
    reflexivity. }
  apply (kids_app _ _ (mk_runR sp pr ins [])).
  { destruct (String.eqb_spec ins "") as [->|]; [apply kids_nil|]. apply run_one. intros k'. reflexivity. }
  assert (G : forall l acc, (forall c, In c l -> tsz (m_rchild c) <= N) ->
     Kids (hrun f) (mk_runR sp pr ins acc) (map m_rchild l) (mk_runR sp pr ins (acc ++ map (reload_rchild f) l))).
  { induction l as [|c l IH]; intros acc HL; cbn [map]; [rewrite app_nil_r; apply kids_nil|].
    apply (kids_app _ _ (mk_runR sp pr ins (acc ++ [reload_rchild f c])) _ [m_rchild c]).
    - eapply kids_eq; [apply rt_rchild; apply HL; now left | reflexivity].
    - replace (acc ++ reload_rchild f c :: map (reload_rchild f) l) with ((acc ++ [reload_rchild f c]) ++ map (reload_rchild f) l) by now rewrite <- app_assoc.
      apply IH. intros. apply HL. now right. }
  apply (G ch []). intros c Hc. pose proof (szs_map_in m_rchild _ _ Hc). lia.
Qed.

Lemma rt_paraR : forall f p, tsz (m_para p) <= N -> Dec (u_paraR D f) (m_para p) (reload_para f p).
Proof.
  intros f [[pp ch fi]] L. cbn [m_para] in *. unfold m_paraR in *. rewrite tsz_elem, szs_app in L. cbn [paraR_ppr paraR_children] in *.
  intros k. unfold u_paraR. cbn [reload_para paraR_ppr paraR_children].
  match goal with |- context [loop ?h ?s0 ?ts] =>
    assert (E : loop h s0 ts = ((option_map reload_ppr pp, map (reload_pchild f) ch), SOk, TEof :: k)); [|rewrite E; reflexivity] end.
  apply kids_loop.
  apply (kids_app _ _ (option_map reload_ppr pp, [])).
  { destruct pp as [x|]; [|apply kids_nil]. apply kids_one. eapply act_via; [reflexivity | reflexivity | apply child_act, rt_ppr | reflexivity]. }
  eapply kids_eq.
  - apply (k_map _ m_pchild (reload_pchild f) (fun x s => (fst s, snd s ++ [x]))).
    intros v s Hv. pose proof (szs_map_in m_pchild _ _ Hv) as Lv. destruct v as [r|id r|r]; cbn [m_pchild reload_pchild paraR_children] in *.
    + eapply act_via; [reflexivity | reflexivity | apply child_act, rt_run; lia | reflexivity].
    + assert (HD : Dec (u_link D) (Elem (w "hyperlink") (at_ (r_ "id") id) [m_runR m_rchild r]) (reload_runR (reload_rchild None) r)).
      { apply loopd_dec. apply kids_one.
        eapply act_via; [reflexivity | reflexivity | apply childin_act, rt_run | reflexivity].
        rewrite tsz_elem, szs_cons in Lv. lia. }
      eapply act_via; [reflexivity | reflexivity | | reflexivity]. left. intros k'.
      apply (decode_dec (u_link D) (fun x s => (fst s, snd s ++ [PLink id x])) _ _ _ _ HD).
    + eapply act_via; [reflexivity | reflexivity | apply child_act, rt_rpr | reflexivity].
  - assert (G : forall l o acc, fold_left (fun (s : option ppr * list pchild) v => (fst s, snd s ++ [reload_pchild f v])) l (o, acc) = (o, acc ++ map (reload_pchild f) l)).
    { induction l as [|v l IH]; intros o acc; cbn [fold_left map fst snd]; [now rewrite app_nil_r|]. rewrite IH, <- app_assoc. reflexivity. }
    apply (G ch _ []).
Qed.
End Step.

Lemma rt_tie : forall n,
  (forall f p, tsz (m_para p) <= n -> Dec (d_para (tie n) f) (m_para p) (reload_para f p)) /\
  (forall f c, tsz (m_canvas c) <= n -> Dec (d_canvas (tie n) f) (m_canvas c) (reload_canvas f c)) /\
  (forall f g, tsz (m_group g) <= n -> Dec (d_group (tie n) f) (m_group g) (reload_group f g)).
Proof.
  induction n as [|n [IP [IC IG]]].
  - split; [|split].
    + intros f [p] L. cbn [m_para] in L. unfold m_paraR in L. rewrite tsz_elem in L. lia.
    + intros f [c] L. cbn [m_canvas] in L. unfold m_canvasR in L. rewrite tsz_elem in L. lia.
    + intros f [g] L. cbn [m_group] in L. unfold m_groupR in L. rewrite tsz_elem in L. lia.
  - assert (P : forall f p, tsz (m_para p) < S n -> Dec (d_para (tie n) f) (m_para p) (reload_para f p)) by (intros; apply IP; lia).
    assert (C : forall f p, tsz (m_canvas p) < S n -> Dec (d_canvas (tie n) f) (m_canvas p) (reload_canvas f p)) by (intros; apply IC; lia).
    assert (G : forall f p, tsz (m_group p) < S n -> Dec (d_group (tie n) f) (m_group p) (reload_group f p)) by (intros; apply IG; lia).
    split; [|split].
    + intros f p L. apply (rt_paraR (tie n) (S n) P C G f p L).
    + intros f [c] L. cbn [tie d_canvas m_canvas reload_canvas]. apply (dec_wrap (u_canvasR (tie n) f) Canvas).
      apply (rt_canvasR (tie n) (S n) P G f c L).
    + intros f [g] L. cbn [tie d_group m_group reload_group]. apply (dec_wrap (u_groupR (tie n) f) Group).
      apply (rt_groupR (tie n) (S n) P C f g L).
Qed.

Lemma size_ftoks : forall c, size (ftoks c) = szs c.
Proof.
  assert (T : forall t, size (toks t) = tsz t).
  { induction t as [q a c F|s|] using tree_ind'; [|reflexivity|reflexivity].
    pose proof (toks_elem q a c []) as E. rewrite app_nil_r in E. rewrite E. cbn [size]. rewrite size_app, tsz_elem. cbn [size].
    assert (K : size (ftoks c) = szs c).
    { clear E. induction F as [|t c Ht F IH]; [reflexivity|]. rewrite ftoks_cons, size_app, szs_cons. lia. }
    lia. }
  induction c as [|t c IH]; [reflexivity|]. rewrite ftoks_cons, size_app, szs_cons, T. lia.
Qed.

Lemma rt_para : forall f p, Dec (u_para f) (m_para p) (reload_para f p).
Proof.
  intros f p. pose proof (fun n L => proj1 (rt_tie n) f p L) as K. destruct p as [r]. cbn [m_para] in *. unfold m_paraR in *.
  intros k. unfold u_para. apply K. rewrite tsz_elem, size_app, size_ftoks. cbn [size]. lia.
Qed.

(** ** tables, documents *)

Lemma tname_para : forall p, tname (m_para p) = "p". Proof. now intros []. Qed.

Lemma rt_cell : forall f x, Dec (u_cell f) (m_cell x) (reload_cell f x).
Proof.
  intros f [pr ps fi]. apply loopd_dec.
  kids ltac:(apply rt_tcpr).
  eapply kids_eq.
  - apply (k_map _ m_para (reload_para f) (fun x s => set_cell_paras (cell_paras s ++ [x]) s)).
    intros v s Hv. rewrite tname_para. apply (child_act (u_para f) (fun x s => set_cell_paras (cell_paras s ++ [x]) s) s _ _ (rt_para f v)).
  - assert (G : forall l acc, fold_left (fun s v => set_cell_paras (cell_paras s ++ [reload_para f v]) s) l (mk_cell pr acc f) = mk_cell pr (acc ++ map (reload_para f) l) f).
    { induction l as [|v l IH]; intros acc; cbn [fold_left map]; [now rewrite app_nil_r|].
      unfold set_cell_paras at 2. cbn [cell_props cell_paras cell_file]. rewrite IH, <- app_assoc. reflexivity. }
    apply (G ps []).
Qed.

Lemma rt_row : forall f x, Dec (u_row f) (m_row x) (reload_row f x).
Proof.
  intros f [pr cs]. apply loopd_dec. kids ltac:(apply rt_trpr).
  eapply kids_eq.
  - apply (k_map _ m_cell (reload_cell f) (fun x s => set_row_cells (row_cells s ++ [x]) s)).
    intros v s Hv. apply (child_act (u_cell f) (fun x s => set_row_cells (row_cells s ++ [x]) s) s _ _ (rt_cell f v)).
  - assert (G : forall l acc, fold_left (fun s v => set_row_cells (row_cells s ++ [reload_cell f v]) s) l (mk_row pr acc) = mk_row pr (acc ++ map (reload_cell f) l)).
    { induction l as [|v l IH]; intros acc; cbn [fold_left map]; [now rewrite app_nil_r|].
      unfold set_row_cells at 2. cbn [row_props row_cells]. rewrite IH, <- app_assoc. reflexivity. }
    apply (G cs []).
Qed.

Lemma rt_table : forall f x, Dec (u_table f) (m_table x) (reload_table f x).
Proof.
  intros f [pr gr rs]. apply loopd_dec.
  eapply kids_step; [kidg reload_tblpr ltac:(intros; apply rt_tblpr) | red_state |].
  eapply kids_step; [kidg reload_grid ltac:(intros; apply rt_grid) | red_state |].
  eapply kids_eq.
  - apply (k_map _ m_row (reload_row f) (fun x s => set_table_rows (table_rows s ++ [x]) s)).
    intros v s Hv. apply (child_act (u_row f) (fun x s => set_table_rows (table_rows s ++ [x]) s) s _ _ (rt_row f v)).
  - assert (G : forall l p g acc, fold_left (fun s v => set_table_rows (table_rows s ++ [reload_row f v]) s) l (mk_table p g acc) = mk_table p g (acc ++ map (reload_row f) l)).
    { induction l as [|v l IH]; intros p g acc; cbn [fold_left map]; [now rewrite app_nil_r|].
      unfold set_table_rows at 2. cbn [table_props table_grid table_rows]. rewrite IH, <- app_assoc. reflexivity. }
    apply (G rs _ _ []).
Qed.

Lemma rt_body : forall f l q a, Dec (u_body f []) (Elem q a (map m_item l)) (map (reload_item f) l).
Proof.
  intros f l q a. apply loopd_dec. eapply kids_eq.
  - apply (k_map _ m_item (reload_item f) (fun x s => s ++ [x])).
    intros v s Hv. destruct v as [p|t|x]; cbn [m_item reload_item].
    + rewrite tname_para. apply (child_act (u_para f) (push IPara) s _ _ (rt_para f p)).
    + apply (child_act (u_table f) (push ITable) s _ _ (rt_table f t)).
    + apply (child_act u_sect (push ISect) s _ _ (rt_sect x)).
  - apply (fold_push (reload_item f) l []).
Qed.

Lemma rt_document : forall f a l, Dec (u_document f) (m_document_of a l) (map (reload_item f) l).
Proof.
  intros f a l. apply loopd_dec. apply kids_one.
  apply (childin_act (u_body f) (fun s => s) (fun x _ => x) [] _ _). apply rt_body.
Qed.

(** the nesting check accepts the tokens of a tree *)
Lemma check_tree : forall t o k, check o (toks t ++ k) = toks t ++ check o k.
Proof.
  induction t as [q a c F|s|] using tree_ind'; intros o k; [|reflexivity|reflexivity].
  rewrite !toks_elem. cbn [check]. f_equal.
  assert (G : forall o k, check o (ftoks c ++ k) = ftoks c ++ check o k).
  { clear -F. induction F as [|t c Ht F IH]; intros o k; [reflexivity|].
    rewrite ftoks_cons, <- !app_assoc, Ht, IH. reflexivity. }
  rewrite G. cbn [check]. rewrite !String.eqb_refl. reflexivity.
Qed.

Lemma parse_marshal : forall f l, parse_document f (toks (m_document l)) = (map (reload_item f) l, SOk).
Proof.
  intros f l. unfold parse_document. rewrite <- (app_nil_r (toks (m_document l))), check_tree.
  pose proof (rt_document f doc_attrs l) as HD. unfold m_document, m_document_of in *. rewrite toks_elem. cbn [root].
  pose proof (sub_dec _ _ _ _ _ HD (check [] [])) as E. rewrite E. reflexivity.
Qed.

(** ... whatever precedes (white space, comments, the XML declaration) and follows it *)
Lemma parse_marshal_around : forall f a l pre post, Forall (fun t => t = TMisc \/ exists s, t = TChar s) pre ->
  parse_document f (pre ++ toks (m_document_of a l) ++ post) = (map (reload_item f) l, SOk).
Proof.
  intros f a l pre post F. unfold parse_document.
  induction F as [|t pre Ht F IH]; cbn [app].
  - rewrite check_tree. pose proof (rt_document f a l) as HD. unfold m_document_of in *. rewrite toks_elem. cbn [root].
    pose proof (sub_dec _ _ _ _ _ HD (check [] post)) as E. rewrite E. reflexivity.
  - destruct Ht as [->|[s ->]]; cbn [check root]; exact IH.
Qed.
End RT2.
