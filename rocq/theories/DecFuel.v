(** The recursion bounds of the decoder model are never reached. *)
From Coq Require Import String Ascii List Bool Arith NArith ZArith Lia.
From Verif Require Import GoStr Num Lib Types XmlTok Unmarshal DecLemmas.
Import ListNotations.
Local Open Scope string_scope.
Local Open Scope list_scope.

Section Fuel.
Context `{GoLib}.

Lemma wrap_ok : forall {A B} N (u : list attr -> list token -> out A) (c : list attr -> A -> B),
  ugood N u -> ugood N (fun a ts => let '(x, st, ts') := u a ts in (c a x, st, ts')).
Proof.
  intros A B N u c Hu a ts L. specialize (Hu a ts L). destruct (u a ts) as [[x st] ts']. exact Hu.
Qed.

Lemma child_attr_ok : forall {X A} N (u : list attr -> list token -> out A) (set : list attr -> A -> X -> X),
  ugood N u -> hgood N (fun s a ts => child u (set a) s a ts).
Proof. intros X A N u set Hu s a ts L. now apply (child_ok N u (set a)). Qed.

Ltac atab := repeat (first [apply Forall_nil | apply Forall_cons]); cbn [snd];
  repeat apply ane_ok; first [apply av_ok | apply ai_ok | apply ain_ok | apply aig_ok | apply aatoi_ok | apply adig_ok].

(** [tab tac]: every handler of a table is good; [tac] for decoders of children *)
Ltac hnd1 tac :=
  cbn [snd];
  first [ apply fset_ok | apply fval_ok | apply flat_ok | apply fnum_ok
        | apply fattrs_ok; atab | apply fattrs_after_ok; atab
        | apply then_skip_ok; hnd1 tac
        | apply childo_ok; tac | apply childin_ok; intros; tac | apply child_ok; tac | idtac ].
Ltac tab tac := repeat (first [apply Forall_nil | apply Forall_cons]); hnd1 tac.
Ltac dec tac := first [ solve [tac] | apply leafd_ok; atab | apply loopd_ok; tab tac | apply nested_ok; [atab | tab tac] ].

Variable N : nat.

Lemma g_rfonts : ugood N u_rfonts. Proof. unfold u_rfonts. dec idtac. Qed.
Lemma g_spacing : ugood N u_spacing. Proof. unfold u_spacing. dec idtac. Qed.
Lemma g_ind : ugood N u_ind. Proof. unfold u_ind. dec idtac. Qed.
Lemma g_shade : ugood N u_shade. Proof. unfold u_shade. dec idtac. Qed.
Lemma g_rpr : ugood N u_rpr.
Proof. unfold u_rpr. dec ltac:(first [apply g_rfonts | apply g_spacing | apply g_shade]). Qed.
Lemma g_tab : ugood N u_tab. Proof. unfold u_tab. dec idtac. Qed.
Lemma g_tabs : ugood N u_tabs.
Proof.
  intros a ts L. unfold u_tabs. apply (loop_ok _ (size ts)); auto. intros s l a' ts' L'.
  apply (switch_P (fun h : hnd (list tab) => okr ts' (h s a' ts'))).
  - constructor; [|constructor]. apply (child_ok N); [apply g_tab | lia].
  - apply (flat_ok N). lia.
Qed.
Lemma g_ppr : ugood N u_ppr.
Proof. unfold u_ppr. dec ltac:(first [apply g_tabs | apply g_spacing | apply g_ind | apply g_shade | apply g_rpr]). Qed.

Lemma text_loop_ok : forall ts s, okr ts (text_loop s ts).
Proof.
  induction ts as [|t ts IH]; intros s; simpl; [split; [discriminate | auto]|].
  destruct t; try (split; [discriminate | auto]; fail);
    match goal with |- okr _ (text_loop ?s' ts) => specialize (IH s'); destruct (text_loop s' ts) as [[x st] ts'] end;
    destruct IH; split; simpl; auto.
Qed.
Lemma g_text : ugood N u_text.
Proof. intros a ts L. apply text_loop_ok. Qed.
Lemma g_br : ugood N u_br.
Proof. intros a ts L. unfold u_br. pose proof (next_tok_ok ts) as T. destruct (next_tok ts). exact T. Qed.

Lemma g_extent : ugood N u_extent. Proof. unfold u_extent. dec idtac. Qed.
Lemma g_effect : ugood N u_effect. Proof. unfold u_effect. dec idtac. Qed.
Lemma g_docpr : ugood N u_docpr. Proof. unfold u_docpr. dec idtac. Qed.
Lemma g_nonvis : ugood N u_nonvis. Proof. unfold u_nonvis. dec idtac. Qed.

(** handlers written out by hand: no call of a decoder inside *)
Ltac plain := intros ? ? ? ?; cbv beta zeta;
  repeat match goal with
         | |- context [if ?b then _ else _] => destruct b
         | |- context [st_of ?g] => destruct g; cbn [st_of]
         end; (cbn; split; [discriminate | auto]).

Lemma g_frame : ugood N u_frame. Proof. unfold u_frame. dec idtac. plain. Qed.
Lemma g_cnvpicpr : forall s, ugood N (u_cnvpicpr s). Proof. intros. unfold u_cnvpicpr. dec idtac. Qed.
Lemma g_nvpic : ugood N u_nvpic.
Proof. unfold u_nvpic. dec ltac:(apply g_cnvpicpr). plain. Qed.
Lemma g_ablip : forall s, ugood N (u_ablip s). Proof. intros. unfold u_ablip. dec idtac. Qed.
Lemma g_stretch : forall s, ugood N (u_stretch s). Proof. intros. unfold u_stretch. dec idtac. Qed.
Lemma g_picblip : ugood N u_picblip.
Proof. unfold u_picblip. dec ltac:(first [apply g_ablip | apply g_stretch]). Qed.
Lemma g_xfrm : forall s, ugood N (u_xfrm s). Proof. intros. unfold u_xfrm. dec idtac. Qed.
Lemma g_geom : ugood N u_geom. Proof. unfold u_geom. dec idtac. Qed.
Lemma g_picsp : ugood N u_picsp. Proof. unfold u_picsp. dec ltac:(first [apply g_xfrm | apply g_geom]). Qed.
Lemma g_pic : ugood N u_pic. Proof. unfold u_pic. dec ltac:(first [apply g_nvpic | apply g_picblip | apply g_picsp]). Qed.
Lemma g_picx : ugood N u_picx.
Proof. unfold u_picx. apply (wrap_ok N u_pic (fun a x => set_pic_xmlpic (get_att a "pic") x)). apply g_pic. Qed.
Lemma g_solid : ugood N u_solid. Proof. unfold u_solid. dec idtac. Qed.
Lemma g_lend : ugood N u_lend. Proof. unfold u_lend. dec idtac. Qed.
Lemma g_aline : ugood N u_aline. Proof. unfold u_aline. dec ltac:(first [apply g_solid | apply g_lend]). Qed.
Lemma g_tile : ugood N u_tile. Proof. unfold u_tile. dec idtac. Qed.
Lemma g_blipfill : ugood N u_blipfill. Proof. unfold u_blipfill. dec ltac:(first [apply g_ablip | apply g_tile]). Qed.
Lemma g_sppr : ugood N u_sppr.
Proof. unfold u_sppr. dec ltac:(first [apply g_xfrm | apply g_solid | apply g_blipfill | apply g_aline]). Qed.
Lemma g_cnvcn : ugood N u_cnvcn. Proof. unfold u_cnvcn. dec idtac. Qed.
Lemma g_splocks : ugood N u_splocks. Proof. unfold u_splocks. dec idtac. Qed.
Lemma g_cnvsp : ugood N u_cnvsp. Proof. unfold u_cnvsp. dec ltac:(apply g_splocks). Qed.
Lemma g_bodypr : ugood N u_bodypr. Proof. unfold u_bodypr. dec idtac. Qed.
Lemma g_bg : ugood N u_bg. Proof. unfold u_bg. dec idtac. Qed.
Lemma g_whole : ugood N u_whole. Proof. unfold u_whole. dec ltac:(apply g_aline). Qed.
Lemma g_gcnv : ugood N u_gcnv. Proof. unfold u_gcnv. dec idtac. Qed.

Lemma xml_int_ok : forall v ts, okr ts (xml_int v ts).
Proof.
  intros. unfold xml_int. pose proof (str_ok ts) as S. destruct (str ts) as [[s st] ts']. destruct S as [S1 S2].
  destruct st; try congruence; try (split; [discriminate | auto]; fail).
  destruct (String.eqb s ""); [split; [discriminate | auto]|].
  destruct (parse_int _); split; try discriminate; auto.
Qed.

Lemma g_wpos : ugood N u_wpos.
Proof.
  intros a ts L. unfold u_wpos. apply (loop_ok _ (size ts)); auto. intros s l a' ts' L'.
  apply (eswitch_ok N); [|lia]. constructor; [|constructor]. cbn [snd]. intros s1 a1 t1 L1.
  pose proof (xml_int_ok (wpos_off s1) t1) as X. destruct (xml_int (wpos_off s1) t1) as [[n st] t2]. destruct X.
  destruct st; try congruence; split; auto; discriminate.
Qed.

(** decoders through which the nesting is unbounded *)
Variable D : decs.
Hypothesis DP : forall f, ugood N (d_para D f).
Hypothesis DC : forall f, ugood N (d_canvas D f).
Hypothesis DG : forall f, ugood N (d_group D f).
Variable f : option nat.

Lemma g_txcontent : ugood N (u_txcontent D f). Proof. unfold u_txcontent. dec ltac:(apply DP). Qed.
Lemma g_txbx : ugood N (u_txbx D f). Proof. unfold u_txbx. dec ltac:(apply g_txcontent). Qed.
Lemma g_shape : ugood N (u_shape D f).
Proof.
  unfold u_shape. apply (wrap_ok N (u_shapeR D f) (fun _ x => Shape x)). unfold u_shapeR.
  dec ltac:(first [apply g_nonvis | apply g_cnvcn | apply g_cnvsp | apply g_sppr | apply g_txbx | apply g_bodypr]).
Qed.
Lemma g_canvasR : ugood N (u_canvasR D f).
Proof. unfold u_canvasR. dec ltac:(first [apply g_bg | apply g_whole | apply g_shape | apply g_picx | apply DG]). Qed.
Lemma g_gshape : ugood N (u_gshape D f).
Proof. unfold u_gshape. dec ltac:(first [apply g_nonvis | apply g_gcnv | apply g_sppr | apply g_pic | apply g_shape | apply DC]). Qed.
Lemma g_groupR : ugood N (u_groupR D f).
Proof. unfold u_groupR. dec ltac:(first [apply g_gshape | apply g_gcnv | apply g_sppr | apply g_pic | apply g_shape | apply DC]). Qed.
Lemma g_gdata : ugood N (u_gdata D f).
Proof. unfold u_gdata. dec ltac:(first [apply g_picx | apply g_shape | apply DC | apply DG]). Qed.
Lemma g_graphic : ugood N (u_graphic D f).
Proof.
  unfold u_graphic. apply nested_ok; [atab|]. constructor; [|constructor]. cbn [snd].
  apply (child_attr_ok N (u_gdata D f) (fun a x => set_graphicR_data (Some (set_gdataR_uri (get_att a "uri") x)))).
  apply g_gdata.
Qed.
Lemma g_inline : ugood N (u_inline D f).
Proof. unfold u_inline. dec ltac:(first [apply g_docpr | apply g_frame | apply g_graphic]). Qed.
Lemma g_anchor : ugood N (u_anchor D f).
Proof.
  unfold u_anchor.
  dec ltac:(first [apply g_docpr | apply g_frame | apply g_graphic | apply g_wpos | apply g_extent | apply g_effect]).
Qed.
Lemma g_drawing : ugood N (u_drawing D f).
Proof. unfold u_drawing. dec ltac:(first [apply g_inline | apply g_anchor]). Qed.

Lemma pchildh_ok : forall {A} (u : list attr -> list token -> out A) c, ugood N u -> hgood N (pchildh u c).
Proof.
  intros A u c Hu s a ts L. unfold pchildh. pose proof (sub_ok N u Hu a ts L) as S.
  destruct (sub (u a) ts) as [[x st] ts']. destruct S. destruct st; try congruence; split; auto; discriminate.
Qed.

Lemma alt_loop_ok : forall rec : run -> string -> list attr -> list token -> out run, forall n s ts,
  size ts < n ->
  (forall s l a ts', size ts' < size ts -> okr ts' (rec s l a ts')) ->
  okr ts (alt_loop n rec s ts).
Proof.
  intros rec. induction n as [|n IH]; intros s ts L HR; [lia|]. simpl.
  assert (SK : forall ts', size ts' < size ts ->
     okr ts' (match skip ts' with (SOk, ts'') => alt_loop n rec s ts'' | (e, ts'') => (s, e, ts'') end)).
  { intros ts' L'. destruct (skip ts') as [st ts''] eqn:E. apply skip_size in E. destruct E as [E1 E2].
    destruct st; try congruence; try (split; [discriminate | auto]; fail).
    assert (K : okr ts'' (alt_loop n rec s ts'')).
    { apply IH; [lia|]. intros. apply HR. lia. }
    destruct (alt_loop n rec s ts'') as [[x st] t3]. destruct K. split; auto. lia. }
  assert (WK : forall t ts' (r : out run), ts = t :: ts' -> okr ts' r -> okr ts r).
  { intros t ts' [[x st] t3] -> [K1 K2]. split; auto. destruct t; simpl; lia. }
  destruct ts as [|t ts]; [split; [discriminate | auto]|].
  destruct t; try (eapply WK; [reflexivity|]; apply SK; simpl; lia; fail); try (split; [discriminate | auto]; fail).
  - destruct (String.eqb (snd q) "Choice" && _)%bool.
    + destruct ts as [|t2 ts]; [split; [discriminate | simpl; lia]|].
      destruct t2; try (split; [discriminate | simpl; lia]; fail).
      specialize (HR s (snd q0) a0 ts ltac:(simpl; lia)).
      destruct (rec s (snd q0) a0 ts) as [[x st] t3]. destruct HR. split; auto. simpl; lia.
    + eapply WK; [reflexivity|]. apply SK. simpl. lia.
  - destruct (String.eqb (snd q) "AlternateContent"); [split; [discriminate | simpl; lia]|].
    eapply WK; [reflexivity|]. apply SK. simpl. lia.
Qed.

Lemma run_parse_ok : forall n s l a ts, size ts < n -> size ts < N -> okr ts (run_parse D f n s l a ts).
Proof.
  induction n as [|n IH]; intros s l a ts L LN; [lia|]. cbn [run_parse].
  apply (eswitch_ok (S (size ts))); [|lia].
  assert (WKN : forall h : hnd run, hgood N h -> hgood (S (size ts)) h).
  { intros h Hh s' a' ts' L'. apply Hh. lia. }
  repeat (first [apply Forall_nil | apply Forall_cons]); cbn [snd].
  - apply WKN. apply childo_ok, g_rpr.
  - intros s' a' ts' L'. pose proof (str_ok ts') as S. destruct (str ts') as [[x st] t2]. destruct S.
    destruct st; try congruence; split; auto; discriminate.
  - apply WKN. apply pchildh_ok, g_text.
  - apply WKN. apply pchildh_ok, g_drawing.
  - apply flat_ok.
  - apply WKN. apply pchildh_ok, g_br.
  - intros s' a' ts' L'. apply alt_loop_ok; [lia|]. intros. apply IH; lia.
Qed.

Lemma g_run : forall s, ugood N (u_run D f s).
Proof.
  intros s a ts L. unfold u_run, attrs_loop.
  assert (K : snd (attrs (aswitch [("space", av set_runR_space)]) s a) <> SFuel).
  { apply attrs_ok. apply aswitch_ok. atab. }
  destruct (attrs (aswitch [("space", av set_runR_space)]) s a) as [y st]. simpl in K. destruct st; try congruence; try (split; auto; discriminate).
  apply (loop_ok _ (size ts)); auto. intros. apply run_parse_ok; lia.
Qed.

End Fuel.

Section Fuel2.
Context `{GoLib}.

Lemma g_link : forall N D, (forall f, ugood N (d_para D f)) -> (forall f, ugood N (d_canvas D f)) -> (forall f, ugood N (d_group D f)) ->
  ugood N (u_link D).
Proof. intros N D DP DC DG. unfold u_link. apply loopd_ok. constructor; [|constructor]. cbn [snd]. apply childin_ok. intros. now apply g_run. Qed.

Lemma g_paraR : forall N D, (forall f, ugood N (d_para D f)) -> (forall f, ugood N (d_canvas D f)) -> (forall f, ugood N (d_group D f)) ->
  forall f a ts, size ts <= N -> okr ts (u_paraR D f a ts).
Proof.
  intros N D DP DC DG f a ts L. unfold u_paraR.
  match goal with |- context [loop ?h ?s ts] =>
    assert (K : okr ts (loop h s ts)); [|destruct (loop h s ts) as [[s' st] ts']] end.
  { apply (loop_ok _ N); auto. intros. apply (eswitch_ok N); auto.
    repeat (first [apply Forall_nil | apply Forall_cons]); cbn [snd].
    - intros s1 a1 t1 L1.
      apply (child_ok N (u_link D) (fun x s2 => (fst s2, snd s2 ++ [PLink (if String.eqb (get_att a1 "anchor") "" then get_att a1 "id" else get_att a1 "anchor") x]))); auto.
      now apply g_link.
    - apply child_ok. now apply g_run.
    - apply child_ok, g_rpr.
    - apply child_ok, g_ppr. }
  destruct K as [K1 K2]. destruct st; try congruence; split; auto; discriminate.
Qed.

Lemma tie_good : forall n f, ugood n (d_para (tie n) f) /\ ugood n (d_canvas (tie n) f) /\ ugood n (d_group (tie n) f).
Proof.
  induction n as [|n IH]; intros f; [split; [|split]; intros a ts L; lia|].
  assert (DP : forall f, ugood n (d_para (tie n) f)) by (intros; apply IH).
  assert (DC : forall f, ugood n (d_canvas (tie n) f)) by (intros; apply IH).
  assert (DG : forall f, ugood n (d_group (tie n) f)) by (intros; apply IH).
  cbn [tie d_para d_canvas d_group].
  assert (W : forall {A B} (u : list attr -> list token -> out A) (c : A -> B),
     (forall a ts, size ts <= n -> okr ts (u a ts)) ->
     ugood (S n) (fun a ts => let '(x, st, ts') := u a ts in (c x, st, ts'))).
  { intros A B u c Hu a ts L. specialize (Hu a ts ltac:(lia)). destruct (u a ts) as [[x st] ts']. exact Hu. }
  split; [|split].
  - intros a ts L. apply (g_paraR n); auto. lia.
  - apply W. intros a ts L. unfold u_canvasR, loopd. apply (loop_ok _ n); auto. intros.
    apply (eswitch_ok n); auto.
    repeat (first [apply Forall_nil | apply Forall_cons]); cbn [snd];
      first [apply childo_ok | apply child_ok]; first [apply g_bg | apply g_whole | now apply g_shape | apply g_picx | apply DG].
  - apply W. intros a ts L. unfold u_groupR, loopd. apply (loop_ok _ n); auto. intros.
    apply (eswitch_ok n); auto.
    repeat (first [apply Forall_nil | apply Forall_cons]); cbn [snd];
      first [apply childo_ok | apply child_ok]; first [apply g_gcnv | apply g_sppr | now apply g_shape | apply g_pic | apply DC | now apply g_gshape].
Qed.

Lemma g_para : forall N f, ugood N (u_para f).
Proof. intros N f a ts L. unfold u_para. apply tie_good. lia. Qed.

Ltac atab := repeat (first [apply Forall_nil | apply Forall_cons]); cbn [snd];
  repeat apply ane_ok; first [apply av_ok | apply ai_ok | apply ain_ok | apply aig_ok | apply aatoi_ok | apply adig_ok].
Ltac hnd1 tac :=
  cbn [snd];
  first [ apply fset_ok | apply fval_ok | apply flat_ok | apply fnum_ok
        | apply fattrs_ok; atab | apply fattrs_after_ok; atab
        | apply then_skip_ok; hnd1 tac
        | apply childo_ok; tac | apply childin_ok; intros; tac | apply child_ok; tac | idtac ].
Ltac tab tac := repeat (first [apply Forall_nil | apply Forall_cons]); hnd1 tac.
Ltac dec tac := first [ apply leafd_ok; atab | apply loopd_ok; tab tac | apply nested_ok; [atab | tab tac] ].
Ltac plain := intros ? ? ? ?; cbv beta zeta;
  repeat match goal with
         | |- context [if ?b then _ else _] => destruct b
         | |- context [st_of ?g] => destruct g; cbn [st_of]
         end; (cbn; split; [discriminate | auto]).

Variable N : nat.
Lemma g_border : ugood N u_border. Proof. unfold u_border. dec idtac. Qed.
Lemma g_borders : ugood N u_borders. Proof. unfold u_borders. dec ltac:(apply g_border). Qed.
Lemma g_tblpos : ugood N u_tblpos. Proof. unfold u_tblpos. dec idtac. Qed.
Lemma g_tblstyle : ugood N u_tblstyle. Proof. unfold u_tblstyle. dec idtac. Qed.
Lemma g_tblw : ugood N u_tblw. Proof. unfold u_tblw. dec idtac. Qed.
Lemma g_look : ugood N u_look. Proof. unfold u_look. dec idtac. Qed.
Lemma g_tblpr : ugood N u_tblpr.
Proof. unfold u_tblpr. dec ltac:(first [apply g_tblpos | apply g_tblstyle | apply g_tblw | apply g_look | apply g_borders]). Qed.
Lemma g_gridcol : ugood N u_gridcol. Proof. unfold u_gridcol. dec idtac. Qed.
Lemma g_grid : ugood N u_grid. Proof. unfold u_grid. dec ltac:(apply g_gridcol). Qed.
Lemma g_trpr : ugood N u_trpr. Proof. unfold u_trpr. dec idtac. Qed.
Lemma g_tcpr : ugood N u_tcpr.
Proof. unfold u_tcpr. dec ltac:(first [apply g_borders | apply g_shade]); plain. Qed.
Lemma g_cell : forall f, ugood N (u_cell f). Proof. intros. unfold u_cell. dec ltac:(first [apply g_para | apply g_tcpr]). Qed.
Lemma g_row : forall f, ugood N (u_row f). Proof. intros. unfold u_row. dec ltac:(first [apply g_trpr | apply g_cell]). Qed.
Lemma g_table : forall f, ugood N (u_table f). Proof. intros. unfold u_table. dec ltac:(first [apply g_row | apply g_tblpr | apply g_grid]). Qed.
Lemma g_pgsz : ugood N u_pgsz. Proof. unfold u_pgsz. dec idtac. Qed.
Lemma g_pgmar : ugood N u_pgmar. Proof. unfold u_pgmar. dec idtac. Qed.
Lemma g_cols : ugood N u_cols. Proof. unfold u_cols. dec idtac. Qed.
Lemma g_docgrid : ugood N u_docgrid. Proof. unfold u_docgrid. dec idtac. Qed.
Lemma g_sect : ugood N u_sect.
Proof. unfold u_sect. dec ltac:(first [apply g_pgsz | apply g_pgmar | apply g_cols | apply g_docgrid]). Qed.
Lemma g_body : forall f s, ugood N (u_body f s).
Proof. intros. unfold u_body. dec ltac:(first [apply g_para | apply g_table | apply g_sect]). Qed.
Lemma g_document : forall f, ugood N (u_document f).
Proof. intros. unfold u_document. dec ltac:(apply g_body). Qed.
End Fuel2.

(** Decoding never runs out of the recursion bound. *)
Lemma root_ok : forall {A} (u : list attr -> list token -> out A) z ts,
  (forall N, ugood N u) -> snd (root u z ts) <> SFuel.
Proof.
  intros A u z ts Hu. induction ts as [|t ts IH]; simpl; [discriminate|].
  destruct t; try assumption; try discriminate.
  pose proof (sub_ok (S (size ts)) u (Hu _) a ts ltac:(lia)) as S.
  destruct (sub (u a) ts) as [[x st] ts']. simpl. apply S.
Qed.

Lemma parse_document_fuel : forall `{GoLib} f ts, snd (parse_document f ts) <> SFuel.
Proof. intros. apply root_ok. intros. apply g_document. Qed.
