(** The decoders one by one: the strings they keep are strings of the file. *)
From Coq Require Import String Ascii List Bool Arith NArith ZArith Lia.
From Verif Require Import GoStr Num Lib Types XmlTok Marshal Unmarshal SpecLex LexFacts ValFacts.
Import ListNotations.
Local Open Scope string_scope.
Local Open Scope list_scope.
Arguments okt : simpl never.
Arguments okts : simpl never.
Arguments va : simpl never.

Section Decoders.
Context `{GoLib}.
Variable V : string -> Prop.
Hypothesis V_nil : V "".
Hypothesis V_int : forall z, V (itoa z).
Variable C : string -> Prop.
Variable W : string -> Prop.
Hypothesis W_cat : forall l, Forall C l -> W (sconcat l).
Hypothesis W_int : forall z, W (itoa z).
Let W_nil : W "" := W_nil C W W_cat.

Create HintDb okd.
(** the written form *)
Ltac syn := repeat match goal with
  | |- okt _ _ (Elem _ _ _) => apply okt_elem; split
  | |- okt _ _ (Chr _) => apply okt_chr
  | |- okt _ _ (val_el _ _) => apply okt_val_el
  | |- okt _ _ (val_elo _ _) => apply (okt_val_elo V V_nil)
  | |- okt _ _ (val_eli _ _) => apply (okt_val_eli V V_int); exact I
  | |- va _ [] => apply va_nil; exact I
  | |- va _ (_ ++ _) => apply va_app; split
  | |- va _ (at_ _ _) => apply va_at
  | |- va _ (ato _ _) => apply (va_ato V V_nil)
  | |- va _ (ati _ _) => apply (va_ati V V_int); exact I
  | |- va _ (atio _ _) => apply (va_atio V V_int); exact I
  | |- okts _ _ [] => apply okts_nil; exact I
  | |- okts _ _ (_ ++ _) => apply okts_app; split
  | |- okts _ _ (_ :: _) => apply okts_cons; split
  | |- okts _ _ (elb _ _) => apply okts_elb; exact I
  | |- okts _ _ (chr _) => apply (okts_chr V C W W_cat)
  | |- okts _ _ (map _ _) => apply okts_map
  | |- okts _ _ (el _ _) => apply okts_el
  | |- _ /\ _ => split
  | |- V (itoa _) => apply V_int
  | |- W (itoa _) => apply W_int
  end; try assumption.
Ltac opt := match goal with
  | |- oko _ _ => first [ eapply oko_impl; [|eassumption]; intros; syn; eauto 2 with okd; try opt | apply oko_all; intros; syn; eauto 2 with okd ]
  | |- Forall _ _ => eapply Forall_impl; [|eassumption]; intros; syn; eauto 2 with okd
  | |- okt _ _ _ => solve [eauto 2 with okd]
  end.
Ltac wr ok := intros; unfold ok in *; repeat match goal with P : _ /\ _ |- _ => destruct P end; syn; try opt.

Ltac go ok := intros; cbv beta in *; unfold ok in *; repeat match goal with P : _ /\ _ |- _ => destruct P end; cbn in *; repeat match goal with |- _ /\ _ => split end; try assumption; try exact I; try exact V_nil; try exact W_nil.
Ltac ent ok := cbn [snd]; match goal with
  | |- aT _ _ (ane _) => apply ane_T; ent ok
  | |- aT _ _ (av _) => apply av_T; go ok
  | |- aT _ _ (ai _) => apply ai_T; go ok
  | |- aT _ _ (ain _) => apply ain_T; go ok
  | |- aT _ _ (aig _) => apply aig_T; go ok
  | |- aT _ _ (aatoi _) => apply aatoi_T; go ok
  | |- aT _ _ (adig _) => apply adig_T; go ok
  | |- hT _ _ _ (then_skip _) => apply then_skip_T; ent ok
  | |- hT _ _ _ (fval _) => apply (fval_T V C V_nil); go ok
  | |- hT _ _ _ (fset _) => apply fset_T; go ok
  | |- hT _ _ _ (fnum _ _) => apply fnum_T; go ok
  | |- hT _ _ _ (fattrs _ _ _) => apply fattrs_T; go ok
  | |- hT _ _ _ (childo _ _) => eapply childo_T; [solve [eauto 2 with okd]|go ok]
  | |- hT _ _ _ (childin _ _ _) => eapply childin_T; [intros; solve [eauto 2 with okd]|go ok]
  | |- hT _ _ _ (child _ _) => eapply child_T; [solve [eauto 2 with okd]|go ok]
  end.
Ltac entries ok := repeat (apply Forall_cons; [try solve [ent ok]|]); try apply Forall_nil.
Ltac leafT ok := apply leafd_T; [go ok|entries ok].
Ltac loopT ok := apply loopd_T; [go ok|entries ok].
Ltac nestT ok := apply nested_T; [go ok|entries ok|entries ok].

Definition always {A} (_ : A) : Prop := True.
Definition ok_rfonts (x : rfonts) : Prop := V (rfonts_ascii x) /\ V (rfonts_eastAsia x) /\ V (rfonts_hAnsi x) /\ V (rfonts_hint x).
Lemma k_rfonts : forall x, ok_rfonts x -> okt V W (m_rfonts x). Proof. unfold m_rfonts. wr ok_rfonts. Qed.
Hint Resolve k_rfonts : okd.
Lemma v_rfonts : uT V C ok_rfonts u_rfonts. Proof. unfold u_rfonts. leafT ok_rfonts. Qed.
Hint Resolve v_rfonts : okd.
Definition ok_spacing (x : spacing) : Prop := V (spacing_lineRule x).
Lemma k_spacing : forall x, ok_spacing x -> okt V W (m_spacing x). Proof. unfold m_spacing. wr ok_spacing. Qed.
Hint Resolve k_spacing : okd.
Lemma v_spacing : uT V C ok_spacing u_spacing. Proof. unfold u_spacing. leafT ok_spacing. Qed.
Hint Resolve v_spacing : okd.
Lemma k_ind : forall x, okt V W (m_ind x). Proof. intros. unfold m_ind. syn; try opt. Qed.
Hint Resolve k_ind : okd.
Lemma v_ind : uT V C always u_ind. Proof. unfold u_ind. leafT @always. Qed.
Hint Resolve v_ind : okd.
Definition ok_shade (x : shade) : Prop := V (shade_val x) /\ V (shade_color x) /\ V (shade_fill x) /\ V (shade_themeFill x) /\ V (shade_themeFillTint x).
Lemma k_shade : forall x, ok_shade x -> okt V W (m_shade x). Proof. unfold m_shade. wr ok_shade. Qed.
Hint Resolve k_shade : okd.
Lemma v_shade : uT V C ok_shade u_shade. Proof. unfold u_shade. leafT ok_shade. Qed.
Hint Resolve v_shade : okd.
Definition ok_rpr (x : rpr) : Prop := (oko ok_rfonts) (rpr_fonts x) /\ (oko V) (rpr_highlight x) /\ (oko V) (rpr_color x) /\ (oko V) (rpr_size x) /\ (oko V) (rpr_sizeCs x) /\ (oko ok_spacing) (rpr_spacing x) /\ (oko V) (rpr_runStyle x) /\ (oko V) (rpr_style x) /\ (oko ok_shade) (rpr_shade x) /\ (oko V) (rpr_underline x) /\ (oko V) (rpr_vertAlign x) /\ (oko V) (rpr_strike x).
Lemma k_rpr : forall x, ok_rpr x -> okt V W (m_rpr x). Proof. unfold m_rpr. wr ok_rpr. Qed.
Hint Resolve k_rpr : okd.
Lemma v_rpr : uT V C ok_rpr u_rpr. Proof. unfold u_rpr. loopT ok_rpr. Qed.
Hint Resolve v_rpr : okd.
Definition ok_tab (x : tab) : Prop := V (tab_val x).
Lemma k_tab : forall x, ok_tab x -> okt V W (m_tab x). Proof. unfold m_tab. wr ok_tab. Qed.
Hint Resolve k_tab : okd.
Lemma v_tab : uT V C ok_tab u_tab. Proof. unfold u_tab. leafT ok_tab. Qed.
Hint Resolve v_tab : okd.
Lemma v_tabs : uT V C (Forall ok_tab) u_tabs.
Proof.
  intros a ts Fa F. unfold u_tabs. apply loop_T; [|exact F|constructor]. intros s l a0 t0 Fa0 F0 p. apply switch_T; auto.
  - entries ok_tab. eapply child_T; [apply v_tab|]. intros x s0 Q P. apply Forall_snoc. auto.
  - apply flat_T. auto.
Qed.
Hint Resolve v_tabs : okd.
Lemma k_tabs : forall x, Forall ok_tab x -> okt V W (m_tabs x). Proof. intros. unfold m_tabs. syn. opt. Qed.
Hint Resolve k_tabs : okd.
Definition ok_numpr (x : numpr) : Prop := (oko V) (numpr_numID x) /\ (oko V) (numpr_ilvl x).
Lemma k_numpr : forall x, ok_numpr x -> okt V W (m_numpr x). Proof. unfold m_numpr. wr ok_numpr. Qed.
Hint Resolve k_numpr : okd.
Definition ok_ppr (x : ppr) : Prop := (oko (Forall ok_tab)) (ppr_tabs x) /\ (oko ok_spacing) (ppr_spacing x) /\ (oko ok_numpr) (ppr_num x) /\ (oko V) (ppr_jc x) /\ (oko ok_shade) (ppr_shade x) /\ (oko V) (ppr_style x) /\ (oko V) (ppr_textAlignment x) /\ (oko ok_rpr) (ppr_rpr x).
Lemma k_ppr : forall x, ok_ppr x -> okt V W (m_ppr x). Proof. unfold m_ppr. wr ok_ppr. Qed.
Hint Resolve k_ppr : okd.
Lemma v_ppr : uT V C ok_ppr u_ppr. Proof. unfold u_ppr. loopT ok_ppr. Qed.
Hint Resolve v_ppr : okd.
Definition ok_text (x : text) : Prop := V (text_space x) /\ W (text_text x).
Lemma k_text : forall x, ok_text x -> okt V W (m_text x). Proof. unfold m_text. wr ok_text. Qed.
Hint Resolve k_text : okd.
Lemma v_text : uT V C ok_text u_text.
Proof.
  intros a ts Fa F. unfold u_text. assert (K := attrs_T V ok_text [("space", av set_text_space)] ltac:(entries ok_text) a text0 Fa ltac:(go ok_text)).
  destruct (attrs _ text0 a) as [s st]. cbn [fst] in *. clear st. revert s K. induction ts as [|t ts IH]; intros s K; [split; assumption|].
  inversion F as [|? ? F1 F2]; subst. cbn [text_loop]. destruct t; try (now apply IH); try (split; assumption).
  apply IH; [exact F2|]. go ok_text. now apply (W_piece C W W_cat).
Qed.
Hint Resolve v_text : okd.
Lemma v_br : uT V C V u_br.
Proof. intros a ts Fa F. unfold u_br. pose proof (next_v V C ts F). destruct (next_tok ts). split; [now apply get_att_v|assumption]. Qed.
Hint Resolve v_br : okd.
Lemma v_extent : uT V C always u_extent. Proof. unfold u_extent, a_cxcy. leafT @always. Qed.
Hint Resolve v_extent : okd.
Lemma v_effect : uT V C always u_effect. Proof. unfold u_effect, a_ltrb. leafT @always. Qed.
Hint Resolve v_effect : okd.
Lemma k_extent : forall x, okt V W (m_extent x). Proof. intros. unfold m_extent. syn; try opt. Qed.
Hint Resolve k_extent : okd.
Lemma k_effect : forall x, okt V W (m_effect x). Proof. intros. unfold m_effect. syn; try opt. Qed.
Hint Resolve k_effect : okd.
Definition ok_nonvis (x : nonvis) : Prop := V (nonvis_name x).
Lemma k_docpr : forall x, ok_nonvis x -> okt V W (m_docpr x). Proof. unfold m_docpr. wr ok_nonvis. Qed.
Hint Resolve k_docpr : okd.
Lemma k_nonvis : forall q x, ok_nonvis x -> okt V W (m_nonvis q x). Proof. unfold m_nonvis. wr ok_nonvis. Qed.
Hint Resolve k_nonvis : okd.
Lemma v_docpr : uT V C ok_nonvis u_docpr. Proof. unfold u_docpr. leafT ok_nonvis. Qed.
Hint Resolve v_docpr : okd.
Lemma v_nonvis : uT V C ok_nonvis u_nonvis. Proof. unfold u_nonvis. leafT ok_nonvis. Qed.
Hint Resolve v_nonvis : okd.
Definition ok_glocks (x : glocks) : Prop := V (glocks_xmla x).
Lemma k_glocks : forall x, ok_glocks x -> okt V W (m_frame x). Proof. unfold m_frame. wr ok_glocks. Qed.
Hint Resolve k_glocks : okd.
Lemma v_frame : uT V C ok_glocks u_frame.
Proof.
  unfold u_frame. loopT ok_glocks. cbn [snd]. intros s a ts Fa F p. cbv zeta.
  assert (K : ok_glocks (set_glocks_xmla (get_att a "a") s)) by (apply get_att_v; assumption).
  destruct (String.eqb _ ""); [split; assumption|]. destruct (st_of _). split; assumption.
Qed.
Hint Resolve v_frame : okd.
Lemma v_cnvpicpr : forall s, uT V C always (u_cnvpicpr s). Proof. intros. unfold u_cnvpicpr. loopT @always. Qed.
Hint Resolve v_cnvpicpr : okd.
Definition ok_nvpic (x : nvpic) : Prop := ok_nonvis (nvpic_nv x).
Lemma k_nvpic : forall x, ok_nvpic x -> okt V W (m_nvpic x). Proof. unfold m_nvpic. wr ok_nvpic. Qed.
Hint Resolve k_nvpic : okd.
Lemma v_nvpic : uT V C ok_nvpic u_nvpic.
Proof.
  unfold u_nvpic. loopT ok_nvpic. cbn [snd]. intros s a ts Fa F p. cbv zeta.
  destruct (String.eqb _ ""); [split; assumption|]. destruct (st_of _) as [n []]; (split; [|assumption]); try exact p. now apply get_att_v.
Qed.
Hint Resolve v_nvpic : okd.
Definition ok_ablip (x : ablip) : Prop := V (ablip_embed x) /\ V (ablip_cstate x).
Lemma k_ablip : forall x, ok_ablip x -> okt V W (m_ablip x). Proof. unfold m_ablip. wr ok_ablip. Qed.
Hint Resolve k_ablip : okd.
Lemma v_ablip : forall s, ok_ablip s -> uT V C ok_ablip (u_ablip s).
Proof. intros s p. unfold u_ablip. apply nested_T; [exact p|entries ok_ablip|entries ok_ablip]. Qed.
Hint Resolve v_ablip : okd.
Lemma v_ablip0 : uT V C ok_ablip (u_ablip ablip0). Proof. apply v_ablip. go ok_ablip. Qed.
Hint Resolve v_ablip0 : okd.
Lemma v_stretch : forall s, uT V C always (u_stretch s). Proof. intros. unfold u_stretch. loopT @always. Qed.
Hint Resolve v_stretch : okd.
Definition ok_picblip (x : picblip) : Prop := ok_ablip (picblip_blip x).
Lemma k_picblip : forall x, ok_picblip x -> okt V W (m_picblip x). Proof. unfold m_picblip. wr ok_picblip. Qed.
Hint Resolve k_picblip : okd.
Lemma v_picblip : uT V C ok_picblip u_picblip.
Proof. unfold u_picblip. apply loopd_T; [go ok_picblip; go ok_ablip|]. entries ok_picblip. Qed.
Hint Resolve v_picblip : okd.
Lemma k_off : forall q x, okt V W (m_off q x). Proof. intros. unfold m_off. syn; try opt. Qed.
Hint Resolve k_off : okd.
Lemma k_ext : forall q x, okt V W (m_ext q x). Proof. intros. unfold m_ext. syn; try opt. Qed.
Hint Resolve k_ext : okd.
Lemma k_xfrm : forall x, okt V W (m_xfrm x). Proof. intros. unfold m_xfrm. syn; try opt. Qed.
Hint Resolve k_xfrm : okd.
Lemma v_xfrm : forall s, uT V C always (u_xfrm s).
Proof.
  intros s. unfold u_xfrm. nestT @always.
  - cbn [snd]. apply (fattrs_after_T V C _ always); [exact I|unfold a_xy; entries @always|intros; exact I].
  - cbn [snd]. apply (fattrs_after_T V C _ always); [exact I|unfold a_cxcy; entries @always|intros; exact I].
Qed.
Hint Resolve v_xfrm : okd.
Definition ok_geom (x : geom) : Prop := V (geom_prst x).
Lemma k_geom : forall x, ok_geom x -> okt V W (m_geom x). Proof. unfold m_geom. wr ok_geom. Qed.
Hint Resolve k_geom : okd.
Lemma v_geom : uT V C ok_geom u_geom. Proof. unfold u_geom. nestT ok_geom. Qed.
Hint Resolve v_geom : okd.
Definition ok_picsp (x : picsp) : Prop := (oko ok_geom) (picsp_geom x).
Lemma k_picsp : forall x, ok_picsp x -> okt V W (m_picsp x). Proof. unfold m_picsp. wr ok_picsp. Qed.
Hint Resolve k_picsp : okd.
Lemma v_picsp : uT V C ok_picsp u_picsp. Proof. unfold u_picsp. loopT ok_picsp. Qed.
Hint Resolve v_picsp : okd.
Definition ok_pic (x : pic) : Prop := V (pic_xmlpic x) /\ (oko ok_nvpic) (pic_nvpic x) /\ (oko ok_picblip) (pic_blip x) /\ (oko ok_picsp) (pic_sp x).
Lemma k_pic : forall x, ok_pic x -> okt V W (m_pic x). Proof. unfold m_pic. wr ok_pic. Qed.
Hint Resolve k_pic : okd.
Lemma v_pic : uT V C ok_pic u_pic. Proof. unfold u_pic. loopT ok_pic. Qed.
Hint Resolve v_pic : okd.
Lemma v_picx : uT V C ok_pic u_picx.
Proof.
  unfold u_picx. apply (wrap_T V C ok_pic ok_pic u_pic (fun a x => set_pic_xmlpic (get_att a "pic") x)); [apply v_pic|].
  intros a x Fa P. pose proof (get_att_v V V_nil a "pic" Fa). go ok_pic.
Qed.
Hint Resolve v_picx : okd.
Lemma k_solid : forall x, oko V x -> okt V W (m_solid x). Proof. intros. unfold m_solid. syn. opt. Qed.
Hint Resolve k_solid : okd.
Lemma v_solid : uT V C (oko V) u_solid.
Proof. unfold u_solid. apply loopd_T; [exact I|]. entries @oko. cbn [snd]. apply then_skip_T, flat_T. intros a s Fa _. now apply get_att_v. Qed.
Hint Resolve v_solid : okd.
Definition ok_lend (x : lend) : Prop := V (lend_type x) /\ V (lend_w x) /\ V (lend_len x).
Lemma k_lend : forall q x, ok_lend x -> okt V W (m_lend q x). Proof. unfold m_lend. wr ok_lend. Qed.
Hint Resolve k_lend : okd.
Lemma v_lend : uT V C ok_lend u_lend. Proof. unfold u_lend. leafT ok_lend. Qed.
Hint Resolve v_lend : okd.
Definition ok_aline (x : aline) : Prop := V (aline_cap x) /\ V (aline_cmpd x) /\ V (aline_algn x) /\ (oko (oko V)) (aline_solid x) /\ (oko V) (aline_dash x) /\ (oko V) (aline_miter x) /\ (oko ok_lend) (aline_head x) /\ (oko ok_lend) (aline_tail x).
Lemma k_aline : forall x, ok_aline x -> okt V W (m_aline x). Proof. unfold m_aline. wr ok_aline. Qed.
Hint Resolve k_aline : okd.
Lemma v_aline : uT V C ok_aline u_aline.
Proof. unfold u_aline. nestT ok_aline. cbn [snd]. apply flat_T. intros a s Fa P. pose proof (get_att_v V V_nil a "lim" Fa). go ok_aline. Qed.
Hint Resolve v_aline : okd.
Definition ok_tile (x : tile) : Prop := V (tile_flip x) /\ V (tile_algn x).
Lemma k_tile : forall x, ok_tile x -> okt V W (m_tile x). Proof. unfold m_tile. wr ok_tile. Qed.
Hint Resolve k_tile : okd.
Lemma v_tile : uT V C ok_tile u_tile. Proof. unfold u_tile. leafT ok_tile. Qed.
Hint Resolve v_tile : okd.
Definition ok_blipfill (x : blipfill) : Prop := (oko ok_ablip) (blipfill_blip x) /\ (oko ok_tile) (blipfill_tile x).
Lemma k_blipfill : forall x, ok_blipfill x -> okt V W (m_blipfill x). Proof. unfold m_blipfill. wr ok_blipfill. Qed.
Hint Resolve k_blipfill : okd.
Lemma v_blipfill : uT V C ok_blipfill u_blipfill. Proof. unfold u_blipfill. nestT ok_blipfill. Qed.
Hint Resolve v_blipfill : okd.
Definition ok_sppr (x : sppr) : Prop := V (sppr_bwMode x) /\ ok_geom (sppr_geom x) /\ (oko (oko V)) (sppr_solid x) /\ (oko ok_blipfill) (sppr_blip x) /\ (oko ok_aline) (sppr_line x).
Lemma k_sppr : forall q x, ok_sppr x -> okt V W (m_sppr q x). Proof. unfold m_sppr. wr ok_sppr. Qed.
Hint Resolve k_sppr : okd.
Lemma v_sppr : uT V C ok_sppr u_sppr.
Proof.
  unfold u_sppr. nestT ok_sppr. cbn [snd]. apply flat_T. intros a s Fa P. pose proof (get_att_v V V_nil a "prst" Fa). go ok_sppr.
Qed.
Hint Resolve v_sppr : okd.
Lemma k_cnvcn : forall x, okt V W (m_cnvcn x). Proof. intros. unfold m_cnvcn. syn; try opt. Qed.
Hint Resolve k_cnvcn : okd.
Lemma v_cnvcn : uT V C always u_cnvcn. Proof. unfold u_cnvcn. loopT @always. Qed.
Hint Resolve v_cnvcn : okd.
Lemma v_splocks : uT V C always u_splocks. Proof. unfold u_splocks. leafT @always. Qed.
Hint Resolve v_splocks : okd.
Lemma k_cnvsp : forall x, okt V W (m_cnvsp x). Proof. intros. unfold m_cnvsp. syn; try opt. Qed.
Hint Resolve k_cnvsp : okd.
Lemma v_cnvsp : uT V C always u_cnvsp. Proof. unfold u_cnvsp. nestT @always. Qed.
Hint Resolve v_cnvsp : okd.
Definition ok_bodypr (x : bodypr) : Prop := V (bodypr_vert x) /\ V (bodypr_wrap x) /\ V (bodypr_anchor x).
Lemma k_bodypr : forall x, ok_bodypr x -> okt V W (m_bodypr x). Proof. unfold m_bodypr. wr ok_bodypr. Qed.
Hint Resolve k_bodypr : okd.
Lemma v_bodypr : uT V C ok_bodypr u_bodypr. Proof. unfold u_bodypr. nestT ok_bodypr. Qed.
Hint Resolve v_bodypr : okd.
Lemma v_bg : uT V C always u_bg. Proof. unfold u_bg. loopT @always. Qed.
Hint Resolve v_bg : okd.
Lemma v_whole : uT V C (oko ok_aline) u_whole. Proof. unfold u_whole. apply loopd_T; [exact I|]. entries @oko. Qed.
Hint Resolve v_whole : okd.
Lemma k_gcnv : forall x, okt V W (m_gcnv x). Proof. intros. unfold m_gcnv. syn; try opt. Qed.
Hint Resolve k_gcnv : okd.
Lemma v_gcnv : uT V C always u_gcnv. Proof. unfold u_gcnv. loopT @always. Qed.
Hint Resolve v_gcnv : okd.
Definition ok_wpos (x : wpos) : Prop := V (wpos_rel x).
Lemma k_wpos : forall q x, ok_wpos x -> okt V W (m_wpos q x). Proof. unfold m_wpos. wr ok_wpos. Qed.
Hint Resolve k_wpos : okd.
Lemma v_wpos : uT V C ok_wpos u_wpos.
Proof.
  intros a ts Fa F. unfold u_wpos. apply loop_T; [|exact F|now apply get_att_v]. apply eswitch_T. entries ok_wpos. cbn [snd].
  intros s a0 t0 Fa0 F0 p. unfold xml_int. destruct (str_T V C W W_cat t0 F0) as [K1 K2]. destruct (str t0) as [[x st] t1]. cbn [fst snd] in *.
  destruct st; try (split; assumption). destruct (String.eqb x ""); [split; assumption|]. destruct (parse_int _); split; assumption.
Qed.
Hint Resolve v_wpos : okd.

(** ** tables and sections, without the paragraphs *)
Definition ok_border (x : border) : Prop := V (border_val x) /\ V (border_color x).
Lemma k_border : forall q x, ok_border x -> okt V W (m_border q x). Proof. unfold m_border. wr ok_border. Qed.
Hint Resolve k_border : okd.
Lemma v_border : uT V C ok_border u_border. Proof. unfold u_border. leafT ok_border. Qed.
Hint Resolve v_border : okd.
Definition ok_borders (x : borders) : Prop := (oko ok_border) (borders_top x) /\ (oko ok_border) (borders_left x) /\ (oko ok_border) (borders_bottom x) /\ (oko ok_border) (borders_right x) /\ (oko ok_border) (borders_insideH x) /\ (oko ok_border) (borders_insideV x).
Lemma k_borders : forall q x, ok_borders x -> okt V W (m_borders q x). Proof. unfold m_borders. wr ok_borders. Qed.
Hint Resolve k_borders : okd.
Lemma v_borders : uT V C ok_borders u_borders. Proof. unfold u_borders. loopT ok_borders. Qed.
Hint Resolve v_borders : okd.
Definition ok_wtype (x : wtype) : Prop := V (wtype_type x).
Lemma k_wtype : forall q x, ok_wtype x -> okt V W (m_wtype q x). Proof. unfold m_wtype. wr ok_wtype. Qed.
Hint Resolve k_wtype : okd.
Definition ok_tblpos (x : tblpos) : Prop := V (tblpos_vertAnchor x) /\ V (tblpos_horzAnchor x) /\ V (tblpos_xspec x) /\ V (tblpos_yspec x).
Lemma k_tblpos : forall x, ok_tblpos x -> okt V W (m_tblpos x). Proof. unfold m_tblpos. wr ok_tblpos. Qed.
Hint Resolve k_tblpos : okd.
Lemma v_tblpos : uT V C ok_tblpos u_tblpos. Proof. unfold u_tblpos. leafT ok_tblpos. Qed.
Hint Resolve v_tblpos : okd.
Lemma v_tblstyle : uT V C V u_tblstyle. Proof. unfold u_tblstyle. apply leafd_T; [exact V_nil|]. entries @always. Qed.
Hint Resolve v_tblstyle : okd.
Lemma v_wtype : uT V C ok_wtype u_tblw. Proof. unfold u_tblw. leafT ok_wtype. Qed.
Hint Resolve v_wtype : okd.
Definition ok_look (x : look) : Prop := V (look_val x).
Lemma k_look : forall x, ok_look x -> okt V W (m_look x). Proof. unfold m_look. wr ok_look. Qed.
Hint Resolve k_look : okd.
Lemma v_look : uT V C ok_look u_look. Proof. unfold u_look. leafT ok_look. Qed.
Hint Resolve v_look : okd.
Definition ok_tblpr (x : tblpr) : Prop := (oko ok_tblpos) (tblpr_pos x) /\ (oko V) (tblpr_style x) /\ (oko ok_wtype) (tblpr_width x) /\ (oko V) (tblpr_jc x) /\ (oko ok_borders) (tblpr_borders x) /\ (oko ok_look) (tblpr_look x).
Lemma k_tblpr : forall x, ok_tblpr x -> okt V W (m_tblpr x). Proof. unfold m_tblpr. wr ok_tblpr. Qed.
Hint Resolve k_tblpr : okd.
Lemma v_tblpr : uT V C ok_tblpr u_tblpr. Proof. unfold u_tblpr. loopT ok_tblpr. Qed.
Hint Resolve v_tblpr : okd.
Lemma v_gridcol : uT V C always u_gridcol. Proof. unfold u_gridcol. leafT @always. Qed.
Hint Resolve v_gridcol : okd.
Lemma k_grid : forall x, okt V W (m_grid x).
Proof.
  intros x. unfold m_grid. syn. induction x as [|[v|] x IH]; cbn [flat_map]; [constructor| |]; apply okts_app; (split; [|exact IH]); apply okts_el; [|exact I].
  cbn [oko]. syn.
Qed.
Hint Resolve k_grid : okd.
Lemma v_grid : uT V C always u_grid. Proof. unfold u_grid. loopT @always. Qed.
Hint Resolve v_grid : okd.
Definition ok_trheight (x : trheight) : Prop := V (trheight_rule x).
Lemma k_trheight : forall x, ok_trheight x -> okt V W (m_trheight x). Proof. unfold m_trheight. wr ok_trheight. Qed.
Hint Resolve k_trheight : okd.
Definition ok_trpr (x : trpr) : Prop := (oko ok_trheight) (trpr_height x) /\ (oko V) (trpr_jc x).
Lemma k_trpr : forall x, ok_trpr x -> okt V W (m_trpr x). Proof. unfold m_trpr. wr ok_trpr. Qed.
Hint Resolve k_trpr : okd.
Lemma v_trpr : uT V C ok_trpr u_trpr.
Proof.
  unfold u_trpr. loopT ok_trpr. cbn [snd]. apply then_skip_T. apply (fattrs_after_T V C _ ok_trheight); [exact V_nil|entries ok_trheight|]. go ok_trpr.
Qed.
Hint Resolve v_trpr : okd.
Definition ok_tcpr (x : tcpr) : Prop := (oko ok_wtype) (tcpr_width x) /\ (oko V) (tcpr_vMerge x) /\ (oko ok_borders) (tcpr_borders x) /\ (oko ok_shade) (tcpr_shade x) /\ (oko V) (tcpr_vAlign x).
Lemma k_tcpr : forall x, ok_tcpr x -> okt V W (m_tcpr x). Proof. unfold m_tcpr. wr ok_tcpr. Qed.
Hint Resolve k_tcpr : okd.
Lemma v_tcpr : uT V C ok_tcpr u_tcpr.
Proof.
  unfold u_tcpr. loopT ok_tcpr.
  - cbn [snd]. intros s a ts Fa F p. cbv zeta. pose proof (get_att_v V V_nil a "type" Fa) as T.
    destruct (String.eqb _ ""); [split; [go ok_tcpr|assumption]|]. destruct (st_of _) as [n []]; (split; [|assumption]); go ok_tcpr.
  - cbn [snd]. intros s a ts Fa F p. cbv zeta. destruct (String.eqb _ ""); [split; [go ok_tcpr|assumption]|]. destruct (st_of _) as [n st]. split; [|assumption]. go ok_tcpr.
Qed.
Hint Resolve v_tcpr : okd.
Definition ok_docgrid (x : docgrid) : Prop := V (docgrid_type x).
Definition ok_sect (x : sect) : Prop := (oko ok_docgrid) (sect_grid x).
Lemma k_sect : forall x, ok_sect x -> okt V W (m_sect x). Proof. unfold m_sect. wr ok_sect. Qed.
Hint Resolve k_sect : okd.
Lemma v_docgrid : uT V C ok_docgrid u_docgrid. Proof. unfold u_docgrid. leafT ok_docgrid. Qed.
Hint Resolve v_docgrid : okd.
Lemma v_pgsz : uT V C always u_pgsz. Proof. unfold u_pgsz. leafT @always. Qed.
Hint Resolve v_pgsz : okd.
Lemma v_pgmar : uT V C always u_pgmar. Proof. unfold u_pgmar. leafT @always. Qed.
Hint Resolve v_pgmar : okd.
Lemma v_cols : uT V C always u_cols. Proof. unfold u_cols. leafT @always. Qed.
Hint Resolve v_cols : okd.
Lemma v_sect : uT V C ok_sect u_sect. Proof. unfold u_sect. loopT ok_sect. Qed.
Hint Resolve v_sect : okd.

(** ** pictures, shapes, groups, canvases and paragraphs *)
Definition ok_shapeR (x : shapeR para) : Prop := (oko ok_nonvis) (shapeR_cnvPr x) /\ (oko ok_sppr) (shapeR_sp x) /\ (oko (oko (Forall (fun x => okt V W (m_para x))))) (shapeR_textBox x) /\ (oko ok_bodypr) (shapeR_body x).
Definition ok_canvasR (x : canvasR citem) : Prop := (oko (oko ok_aline)) (canvasR_whole x) /\ (Forall (fun x => okt V W (m_citem x))) (canvasR_items x).
Definition ok_groupR (x : groupR gelem) : Prop := (oko ok_sppr) (groupR_sp x) /\ (Forall (fun x => okt V W (m_gelem x))) (groupR_elems x).
Definition ok_gshapeR (x : gshapeR gelem) : Prop := (oko ok_nonvis) (gshapeR_cnvPr x) /\ (oko ok_sppr) (gshapeR_sp x) /\ (Forall (fun x => okt V W (m_gelem x))) (gshapeR_elems x).
Definition ok_gdataR (x : gdata) : Prop := V (gdataR_uri x) /\ (oko ok_pic) (gdataR_pic x) /\ (oko (fun x => okt V W (m_shape x))) (gdataR_shape x) /\ (oko (fun x => okt V W (m_canvas x))) (gdataR_canvas x) /\ (oko (fun x => okt V W (m_group x))) (gdataR_group x).
Definition ok_graphicR (x : graphic) : Prop := V (graphicR_xmla x) /\ (oko ok_gdataR) (graphicR_data x).
Definition ok_inlineR (x : inline) : Prop := (oko ok_nonvis) (inlineR_docPr x) /\ (oko ok_glocks) (inlineR_frame x) /\ (oko ok_graphicR) (inlineR_graphic x).
Definition ok_anchorR (x : anchor) : Prop := (oko ok_wpos) (anchorR_posH x) /\ (oko ok_wpos) (anchorR_posV x) /\ (oko V) (anchorR_wrapSquare x) /\ (oko ok_nonvis) (anchorR_docPr x) /\ (oko ok_glocks) (anchorR_frame x) /\ (oko ok_graphicR) (anchorR_graphic x).
Definition ok_rchild (x : rchild) : Prop :=
  match x with RText t => ok_text t | RTab t => ok_tab t | RBr t => V t | RDraw i a => oko ok_inlineR i /\ oko ok_anchorR a end.
Definition ok_runR (x : run) : Prop := V (runR_space x) /\ (oko ok_rpr) (runR_rpr x) /\ W (runR_instr x) /\ (Forall ok_rchild) (runR_children x).
Definition ok_pchild (x : pchild) : Prop := match x with PRun r => ok_runR r | PLink id r => V id /\ ok_runR r | PRPr r => ok_rpr r end.
Definition ok_paraR (x : paraR pchild) : Prop := (oko ok_ppr) (paraR_ppr x) /\ (Forall ok_pchild) (paraR_children x).
Definition ok_para (x : para) : Prop := match x with Para r => ok_paraR r end.
Lemma k_shape : forall x, ok_shapeR x -> okt V W (m_shape (Shape x)).
Proof.
  intros x K. change (m_shape (Shape x)) with (m_shapeR m_para x). unfold m_shapeR. wr ok_shapeR.
Qed.
Lemma k_canvas : forall x, ok_canvasR x -> okt V W (m_canvas (Canvas x)).
Proof. intros x K. change (m_canvas (Canvas x)) with (m_canvasR m_citem x). unfold m_canvasR. wr ok_canvasR. Qed.
Lemma k_group : forall x, ok_groupR x -> okt V W (m_group (Group x)).
Proof. intros x K. change (m_group (Group x)) with (m_groupR m_gelem x). unfold m_groupR. wr ok_groupR. Qed.
Lemma k_gshape : forall x, ok_gshapeR x -> okt V W (m_gelem (GGrp x)).
Proof. intros x K. change (m_gelem (GGrp x)) with (m_gshapeR m_gelem x). unfold m_gshapeR. wr ok_gshapeR. Qed.
Lemma k_gdata : forall x, ok_gdataR x -> okt V W (m_gdataR m_shape m_canvas m_group x).
Proof. unfold m_gdataR. wr ok_gdataR. Qed.
Hint Resolve k_gdata : okd.
Lemma k_graphic : forall x, ok_graphicR x -> okt V W (m_graphicR (m_gdataR m_shape m_canvas m_group) x).
Proof. unfold m_graphicR. wr ok_graphicR. Qed.
Hint Resolve k_graphic : okd.
Lemma k_inline : forall x, ok_inlineR x -> okt V W (m_inlineR (m_graphicR (m_gdataR m_shape m_canvas m_group)) x).
Proof. unfold m_inlineR. wr ok_inlineR. Qed.
Hint Resolve k_inline : okd.
Lemma k_anchor : forall x, ok_anchorR x -> okt V W (m_anchorR (m_graphicR (m_gdataR m_shape m_canvas m_group)) x).
Proof. unfold m_anchorR. wr ok_anchorR. Qed.
Hint Resolve k_anchor : okd.
Lemma k_rchild : forall x, ok_rchild x -> okt V W (m_rchild x).
Proof.
  intros [t|t|t|i a] K; cbn [ok_rchild] in K.
  - now apply k_text.
  - now apply k_tab.
  - change (m_rchild (RBr t)) with (m_br t). unfold m_br. syn.
  - destruct K. cbn [m_rchild]. syn; opt.
Qed.
Hint Resolve k_rchild : okd.
Lemma k_run : forall x, ok_runR x -> okt V W (m_runR m_rchild x).
Proof. unfold m_runR. wr ok_runR. destruct (String.eqb (runR_instr x) ""); syn. Qed.
Lemma k_pchild : forall x, ok_pchild x -> okt V W (m_pchild x).
Proof.
  intros [r|id r|r] K; cbn [ok_pchild] in K.
  - now apply k_run.
  - destruct K. cbn [m_pchild]. apply okt_elem. split; [now apply va_at|apply okts_cons; split; [now apply k_run|constructor]].
  - now apply k_rpr.
Qed.
Hint Resolve k_pchild : okd.
Lemma k_paraR : forall x, ok_paraR x -> okt V W (m_para (Para x)).
Proof. intros x K. change (m_para (Para x)) with (m_paraR m_pchild x). unfold m_paraR. wr ok_paraR. Qed.
Lemma k_para : forall x, ok_para x -> okt V W (m_para x).
Proof. intros [x]. apply k_paraR. Qed.
Hint Resolve k_para : okd.

Section Knot.
Variable D : decs.
Hypothesis DP : forall f, uT V C (fun x => okt V W (m_para x)) (d_para D f).
Hypothesis DC : forall f, uT V C (fun x => okt V W (m_canvas x)) (d_canvas D f).
Hypothesis DG : forall f, uT V C (fun x => okt V W (m_group x)) (d_group D f).
Variable f : option nat.
Hint Resolve DP DC DG : okd.
Ltac snoc ok := eapply child_T; [solve [eauto 2 with okd]|]; intros x s Q P; unfold ok, push in *; repeat match goal with P : _ /\ _ |- _ => destruct P end; cbn in *;
  repeat match goal with |- _ /\ _ => split end; try assumption; apply Forall_snoc; (split; [assumption|]).
Lemma v_txcontent : uT V C (Forall (fun x => okt V W (m_para x))) (u_txcontent D f).
Proof. unfold u_txcontent. apply loopd_T; [constructor|]. entries @always. cbn [snd]. eapply child_T; [apply DP|]. intros x s Q P. unfold push. apply Forall_snoc. auto. Qed.
Hint Resolve v_txcontent : okd.
Lemma v_txbx : uT V C (oko (Forall (fun x => okt V W (m_para x)))) (u_txbx D f).
Proof. unfold u_txbx. apply loopd_T; [exact I|]. entries @oko. Qed.
Hint Resolve v_txbx : okd.
Lemma v_shape : uT V C (fun x => okt V W (m_shape x)) (u_shape D f).
Proof.
  unfold u_shape. apply (wrap_T V C ok_shapeR _ (u_shapeR D f) (fun _ x => Shape x)).
  - unfold u_shapeR. loopT ok_shapeR.
  - intros _ x _. apply k_shape.
Qed.
Hint Resolve v_shape : okd.
Lemma v_canvas : uT V C ok_canvasR (u_canvasR D f).
Proof.
  unfold u_canvasR. apply loopd_T; [split; [exact I|constructor]|]. entries ok_canvasR; cbn [snd].
  - snoc ok_canvasR. exact Q.
  - snoc ok_canvasR. now apply k_pic.
  - snoc ok_canvasR. exact Q.
Qed.
Lemma v_gshape : uT V C ok_gshapeR (u_gshape D f).
Proof.
  unfold u_gshape. apply loopd_T; [split; [exact I|split; [exact I|constructor]]|]. entries ok_gshapeR; cbn [snd].
  - snoc ok_gshapeR. now apply k_pic.
  - snoc ok_gshapeR. exact Q.
  - snoc ok_gshapeR. exact Q.
Qed.
Hint Resolve v_gshape : okd.
Lemma v_group : uT V C ok_groupR (u_groupR D f).
Proof.
  unfold u_groupR. apply loopd_T; [split; [exact I|constructor]|]. entries ok_groupR; cbn [snd].
  - snoc ok_groupR. now apply k_pic.
  - snoc ok_groupR. exact Q.
  - snoc ok_groupR. exact Q.
  - snoc ok_groupR. now apply k_gshape.
Qed.
Lemma v_gdata : uT V C ok_gdataR (u_gdata D f). Proof. unfold u_gdata. nestT ok_gdataR. Qed.
Lemma v_graphic : uT V C ok_graphicR (u_graphic D f).
Proof.
  unfold u_graphic. nestT ok_graphicR. cbn [snd]. intros s a ts Fa F p.
  apply (child_T V C ok_graphicR ok_gdataR (u_gdata D f) (fun x => set_graphicR_data (Some (set_gdataR_uri (get_att a "uri") x)))); auto; [apply v_gdata|].
  pose proof (get_att_v V V_nil a "uri" Fa). intros x s0 Q P. unfold ok_graphicR, ok_gdataR in *. cbn in *. tauto.
Qed.
Hint Resolve v_graphic : okd.
Lemma v_inline : uT V C ok_inlineR (u_inline D f). Proof. unfold u_inline. nestT ok_inlineR. Qed.
Hint Resolve v_inline : okd.
Lemma v_anchor : uT V C ok_anchorR (u_anchor D f).
Proof. unfold u_anchor. nestT ok_anchorR. cbn [snd]. apply flat_T. intros a s Fa P. pose proof (get_att_v V V_nil a "wrapText" Fa). go ok_anchorR. Qed.
Hint Resolve v_anchor : okd.
Definition ok_draw (x : option inline * option anchor) : Prop := oko ok_inlineR (fst x) /\ oko ok_anchorR (snd x).
Lemma v_drawing : uT V C ok_draw (u_drawing D f). Proof. unfold u_drawing. loopT ok_draw. Qed.
Lemma run_add : forall c x, ok_runR x -> ok_rchild c -> ok_runR (add_child c x).
Proof. intros c x P K. unfold ok_runR, add_child in *. cbn in *. repeat match goal with P : _ /\ _ |- _ => destruct P end. repeat match goal with |- _ /\ _ => split end; try assumption. now apply Forall_snoc. Qed.
Lemma pchildh_T : forall {A} (Q : A -> Prop) u (c : A -> rchild), uT V C Q u -> (forall x, Q x -> ok_rchild (c x)) -> hT V C ok_runR (pchildh u c).
Proof.
  intros A Q u c Hu Hc s a ts Fa F p. unfold pchildh. pose proof (sub_T V C Q (u a) (fun t => Hu a t Fa) ts F) as [K1 K2]. destruct (sub (u a) ts) as [[x st] ts'].
  destruct st; split; try assumption. apply run_add; auto.
Qed.
Lemma alt_loop_T : forall rec, lT V C ok_runR rec -> forall n s ts, vts V C ts -> ok_runR s -> keeps V C ok_runR (alt_loop n rec s ts).
Proof.
  intros rec Hr. induction n as [|n IH]; intros s ts F p; [split; assumption|]. cbn [alt_loop].
  assert (K : forall ts', vts V C ts' -> keeps V C ok_runR (let (s0, ts'') := skip ts' in match s0 with SOk => alt_loop n rec s ts'' | _ => (s, s0, ts'') end)).
  { intros ts' F'. unfold skip. pose proof (skip_v V C ts' 0 F'). destruct (skip_from 0 ts') as [[] ts'']; try (split; assumption). now apply IH. }
  destruct ts as [|t ts]; [split; assumption|]. inversion F as [|? ? F1 F2]; subst. destruct t; try (split; assumption); try (now apply K).
  - destruct (String.eqb (snd q) "Choice" && _)%bool; [|now apply K]. destruct ts as [|t ts]; [split; assumption|]. inversion F2; subst. destruct t; try (split; assumption).
    apply Hr; assumption.
  - destruct (String.eqb (snd q) "AlternateContent"); [split; assumption|now apply K].
Qed.
Lemma run_parse_T : forall n, lT V C ok_runR (run_parse D f n).
Proof.
  induction n as [|n IH]; intros s l a ts Fa F p; [split; assumption|]. cbn [run_parse].
  apply (eswitch_T V C ok_runR); auto. entries ok_runR; cbn [snd].
  - intros s0 a0 t0 Fa0 F0 p0. destruct (str_T V C W W_cat t0 F0) as [K1 K2]. destruct (str t0) as [[x st] t1]. destruct st; (split; [|exact K2]); try exact p0; go ok_runR.
  - apply (pchildh_T ok_text); [apply v_text|auto].
  - apply (pchildh_T ok_draw); [apply v_drawing|intros [i0 a0] K; exact K].
  - apply flat_T. intros _ s0 _ p0. apply run_add; auto.
  - apply (pchildh_T V); [apply v_br|auto].
  - intros s0 a0 t0 Fa0 F0 p0. now apply alt_loop_T.
Qed.
Lemma v_run : forall s, ok_runR s -> uT V C ok_runR (u_run D f s).
Proof.
  intros s p a ts Fa F. unfold u_run, attrs_loop.
  assert (K := attrs_T V ok_runR [("space", av set_runR_space)] ltac:(entries ok_runR) a s Fa p).
  match goal with |- context [match ?x with (_, _) => _ end] => change (ok_runR (fst x)) in K; destruct x as [s' st] end.
  destruct st; try (split; assumption). apply loop_T; auto. intros s0 l a0 t0 Fa0 F0 p0. now apply run_parse_T.
Qed.
End Knot.

Lemma ok_run0 : ok_runR run0.
Proof. unfold ok_runR. cbn. repeat match goal with |- _ /\ _ => split end; try exact V_nil; try exact W_nil; [exact I|constructor]. Qed.
Section Para.
Variable D : decs.
Hypothesis DP : forall f, uT V C (fun x => okt V W (m_para x)) (d_para D f).
Hypothesis DC : forall f, uT V C (fun x => okt V W (m_canvas x)) (d_canvas D f).
Hypothesis DG : forall f, uT V C (fun x => okt V W (m_group x)) (d_group D f).
Lemma v_link : uT V C ok_runR (u_link D).
Proof.
  unfold u_link. apply loopd_T; [apply ok_run0|]. entries @always. cbn [snd].
  apply (childin_T V C _ ok_runR); [intros s p; now apply v_run|auto].
Qed.
Definition ok_pa (x : option ppr * list pchild) : Prop := oko ok_ppr (fst x) /\ Forall ok_pchild (snd x).
Lemma v_para : forall f, uT V C ok_para (u_paraR D f).
Proof.
  intros f a ts Fa F. unfold u_paraR.
  match goal with |- context [loop ?h ?s ts] => assert (K : keeps V C ok_pa (loop h s ts)) end.
  { apply loop_T; [|exact F|split; [exact I|constructor]]. apply eswitch_T. entries @always; cbn [snd].
    - intros s a0 t0 Fa0 F0 p. cbv zeta.
      apply (child_T V C ok_pa ok_runR (u_link D)); auto; [apply v_link|]. intros x s0 Q [P1 P2]. split; [exact P1|]. cbn [fst snd]. apply Forall_snoc. split; [exact P2|].
      split; [|exact Q].
      destruct (String.eqb _ ""); now apply get_att_v.
    - eapply child_T; [apply v_run; auto; apply ok_run0|]. intros x s0 Q [P1 P2]. split; [exact P1|]. cbn [fst snd]. apply Forall_snoc. split; [exact P2|]. exact Q.
    - eapply child_T; [apply v_rpr|]. intros x s0 Q [P1 P2]. split; [exact P1|]. cbn [fst snd]. apply Forall_snoc. split; [exact P2|]. exact Q.
    - eapply child_T; [apply v_ppr|]. intros x s0 Q [P1 P2]. split; [exact Q|exact P2]. }
  destruct (loop _ _ ts) as [[s st] ts']. destruct K as [[P1 P2] K2]. cbn [fst snd] in *.
  assert (R1 : ok_para (mk_para (fst s) (snd s) f)) by (split; assumption).
  assert (R2 : ok_para (mk_para (fst s) [] f)) by (split; [assumption|constructor]).
  destruct st; split; assumption.
Qed.
End Para.

Lemma v_tie : forall n f, uT V C ok_para (d_para (tie n) f) /\ uT V C (fun x => okt V W (m_canvas x)) (d_canvas (tie n) f) /\
  uT V C (fun x => okt V W (m_group x)) (d_group (tie n) f).
Proof.
  induction n as [|n IH]; intros f.
  - split; [|split]; intros a ts Fa F; (split; [|exact F]); cbn [fst].
    + split; [exact I|constructor].
    + apply k_canvas. split; [exact I|constructor].
    + apply k_group. split; [exact I|constructor].
  - assert (I1 : forall f, uT V C (fun x => okt V W (m_para x)) (d_para (tie n) f)).
    { intros f0 a ts Fa F. destruct (proj1 (IH f0) a ts Fa F) as [K1 K2]. split; [now apply k_para|exact K2]. }
    assert (I2 : forall f, uT V C (fun x => okt V W (m_canvas x)) (d_canvas (tie n) f)) by (intros; exact (proj1 (proj2 (IH _)))).
    assert (I3 : forall f, uT V C (fun x => okt V W (m_group x)) (d_group (tie n) f)) by (intros; exact (proj2 (proj2 (IH _)))).
    split; [|split].
    + exact (v_para (tie n) I1 I2 I3 f).
    + cbn [tie d_canvas]. apply (wrap_T V C ok_canvasR _ (u_canvasR (tie n) f) (fun _ x => Canvas x)); [now apply v_canvas|]. intros _ x _. apply k_canvas.
    + cbn [tie d_group]. apply (wrap_T V C ok_groupR _ (u_groupR (tie n) f) (fun _ x => Group x)); [now apply v_group|]. intros _ x _. apply k_group.
Qed.
Lemma v_upara : forall f, uT V C ok_para (u_para f).
Proof. intros f a ts Fa F. unfold u_para. exact (proj1 (v_tie _ f) a ts Fa F). Qed.

Definition ok_cell (x : cell) : Prop := (oko ok_tcpr) (cell_props x) /\ (Forall ok_para) (cell_paras x).
Definition ok_row (x : row) : Prop := (oko ok_trpr) (row_props x) /\ (Forall ok_cell) (row_cells x).
Definition ok_table (x : table) : Prop := (oko ok_tblpr) (table_props x) /\ (Forall ok_row) (table_rows x).
Definition ok_item (x : item) : Prop := match x with IPara p => ok_para p | ITable t => ok_table t | ISect q => ok_sect q end.
Section Body.
Variable f : option nat.
Lemma v_cell : uT V C ok_cell (u_cell f).
Proof.
  unfold u_cell. apply loopd_T; [split; [exact I|constructor]|]. entries ok_cell. cbn [snd].
  eapply child_T; [apply v_upara|]. intros x s Q [P1 P2]. split; [exact P1|]. cbn. apply Forall_snoc. auto.
Qed.
Lemma v_row : uT V C ok_row (u_row f).
Proof.
  unfold u_row. apply loopd_T; [split; [exact I|constructor]|]. entries ok_row. cbn [snd].
  eapply child_T; [apply v_cell|]. intros x s Q [P1 P2]. split; [exact P1|]. cbn. apply Forall_snoc. auto.
Qed.
Lemma v_table : uT V C ok_table (u_table f).
Proof.
  unfold u_table. apply loopd_T; [split; [exact I|constructor]|]. entries ok_table. cbn [snd].
  eapply child_T; [apply v_row|]. intros x s Q [P1 P2]. split; [exact P1|]. cbn. apply Forall_snoc. auto.
Qed.
Lemma k_cell : forall x, ok_cell x -> okt V W (m_cell x). Proof. unfold m_cell. wr ok_cell. Qed.
Hint Resolve k_cell : okd.
Lemma k_row : forall x, ok_row x -> okt V W (m_row x). Proof. unfold m_row. wr ok_row. Qed.
Hint Resolve k_row : okd.
Lemma k_table : forall x, ok_table x -> okt V W (m_table x). Proof. unfold m_table. wr ok_table. Qed.
Lemma k_item : forall x, ok_item x -> okt V W (m_item x).
Proof. intros [p|t|q] K; [now apply k_para|now apply k_table|now apply k_sect]. Qed.
Lemma v_body : forall s, Forall ok_item s -> uT V C (Forall ok_item) (u_body f s).
Proof.
  intros s p. unfold u_body. apply loopd_T; [exact p|]. entries @always; cbn [snd].
  - eapply child_T; [apply v_upara|]. intros x s0 Q P. apply Forall_snoc. auto.
  - eapply child_T; [apply v_table|]. intros x s0 Q P. apply Forall_snoc. auto.
  - eapply child_T; [apply v_sect|]. intros x s0 Q P. apply Forall_snoc. auto.
Qed.
Lemma v_document : uT V C (Forall ok_item) (u_document f).
Proof.
  unfold u_document. apply loopd_T; [constructor|]. entries @always. cbn [snd].
  apply (childin_T V C _ (Forall ok_item)); [intros s p; now apply v_body|auto].
Qed.
Lemma v_parse : forall ts, vts V C ts -> Forall ok_item (fst (parse_document f ts)).
Proof.
  intros ts F. unfold parse_document. apply (check_v V C ts []) in F. induction F as [|t l F1 F IH]; [constructor|]. cbn [root].
  destruct t as [q a| | | | |]; try exact IH; try constructor.
  pose proof (sub_T V C _ (u_document f a) (fun t => v_document a t F1) l F) as [K _]. destruct (sub (u_document f a) l) as [[x st] r]. exact K.
Qed.
Lemma v_written : Forall V (map snd doc_attrs) -> forall ts, vts V C ts -> okt V W (m_document (fst (parse_document f ts))).
Proof.
  intros A ts F. unfold m_document, m_document_of. apply okt_elem. split; [unfold va; now rewrite Forall_map in A|].
  apply okts_cons. split; [|constructor]. apply okt_elem. split; [constructor|]. apply okts_map. eapply Forall_impl; [|now apply v_parse]. intros x. apply k_item.
Qed.
End Body.
End Decoders.
