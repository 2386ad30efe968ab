(** What the decoders produce is not changed by writing and reading it again,
    except for the flags of a table look. *)
From Coq Require Import String Ascii List Bool Arith NArith ZArith Lia.
From Verif Require Import GoStr Num Lib Types XmlTok Marshal Unmarshal Reload DecLemmas RoundTrip2 SpecStable.
Import ListNotations.
Local Open Scope string_scope.
Local Open Scope list_scope.

(** ** an invariant of the state through every step, whatever the tokens are *)
Section Inv.
Context `{GoLib}.
Definition val {X} (r : out X) : X := fst (fst r).
Definition hP {X} (P : X -> Prop) (h : hnd X) : Prop := forall s a ts, P s -> P (val (h s a ts)).
Definition uP {X} (P : X -> Prop) (u : list attr -> list token -> out X) : Prop := forall a ts, P (val (u a ts)).
Definition aP {X} (P : X -> Prop) (h : ahnd X) : Prop := forall s v, P s -> P (fst (h s v)).
Definition lP {X} (P : X -> Prop) (h : X -> string -> list attr -> list token -> out X) : Prop := forall s l a ts, P s -> P (val (h s l a ts)).

Lemma switch_P : forall {X} (P : X -> Prop) (cs : list (string * hnd X)) (d : hnd X), Forall (fun c => hP P (snd c)) cs -> hP P d ->
  forall l, hP P (switch cs d l).
Proof. intros X P cs d F Hd l. induction F as [|[k h] cs Hh F IH]; cbn [switch]; [exact Hd|]. destruct (String.eqb l k); [exact Hh|exact IH]. Qed.
Lemma skipping_P : forall {X} (P : X -> Prop), hP P (fun s _ ts => skipping s ts).
Proof. intros X P s a ts p. unfold skipping. destruct (skip ts). exact p. Qed.
Lemma eswitch_P : forall {X} (P : X -> Prop) (cs : list (string * hnd X)), Forall (fun c => hP P (snd c)) cs -> lP P (eswitch cs).
Proof. intros X P cs F s l a ts p. unfold eswitch. apply switch_P; auto. apply skipping_P. Qed.
Lemma loop_n_P : forall {X} (P : X -> Prop) h, lP P h -> forall n s ts, P s -> P (val (loop_n n h s ts)).
Proof.
  intros X P h Hh. induction n as [|n IH]; intros s ts p; [exact p|]. cbn [loop_n]. destruct ts as [|t ts]; [exact p|].
  destruct t; try exact p; try (apply IH; exact p).
  pose proof (Hh s (snd q) a ts p) as K. destruct (h s (snd q) a ts) as [[s' st] ts']. destruct st; try exact K. apply IH. exact K.
Qed.
Lemma loop_P : forall {X} (P : X -> Prop) h, lP P h -> forall s ts, P s -> P (val (loop h s ts)).
Proof. intros. unfold loop. now apply loop_n_P. Qed.
Lemma loopd_P : forall {X} (P : X -> Prop) (cs : list (string * hnd X)) s, P s -> Forall (fun c => hP P (snd c)) cs -> uP P (loopd cs s).
Proof. intros X P cs s p F a ts. unfold loopd. apply loop_P; auto. now apply eswitch_P. Qed.
Lemma attrs_P : forall {X} (P : X -> Prop) (cs : list (string * ahnd X)), Forall (fun c => aP P (snd c)) cs ->
  forall a s, P s -> P (fst (attrs (aswitch cs) s a)).
Proof.
  intros X P cs F. induction a as [|[q v] a IH]; intros s p; [exact p|]. cbn [attrs].
  assert (K : P (fst (aswitch cs s (snd q) v))).
  { unfold aswitch. clear IH. induction F as [|[k h] cs Hh F IHc]; cbn [switch]; [exact p|]. destruct (String.eqb (snd q) k); [now apply Hh|exact IHc]. }
  destruct (aswitch cs s (snd q) v) as [s' st]. destruct st; try exact K. apply IH. exact K.
Qed.
Lemma nested_P : forall {X} (P : X -> Prop) (ac : list (string * ahnd X)) (cs : list (string * hnd X)) s, P s ->
  Forall (fun c => aP P (snd c)) ac -> Forall (fun c => hP P (snd c)) cs -> uP P (nested ac cs s).
Proof.
  intros X P ac cs s p Fa F a ts. unfold nested, attrs_loop. pose proof (attrs_P P ac Fa a s p) as K.
  destruct (attrs (aswitch ac) s a) as [s' st]. destruct st; try exact K. apply loop_P; auto. now apply eswitch_P.
Qed.
Lemma leafd_P : forall {X} (P : X -> Prop) (ac : list (string * ahnd X)) s, P s -> Forall (fun c => aP P (snd c)) ac -> uP P (leafd ac s).
Proof.
  intros X P ac s p Fa a ts. unfold leafd, leaf. pose proof (attrs_P P ac Fa a s p) as K.
  destruct (attrs (aswitch ac) s a) as [s' st]. destruct st; try exact K. destruct (next_tok ts). exact K.
Qed.
Lemma sub_P : forall {X} (P : X -> Prop) (u : list token -> out X), (forall ts, P (val (u ts))) -> forall ts, P (val (sub u ts)).
Proof.
  intros X P u Hu ts. unfold sub. specialize (Hu (push_eof ts)). destruct (u (push_eof ts)) as [[x st] ts'].
  destruct st, (pop_eof ts'); exact Hu.
Qed.
Lemma decode_P : forall {X A} (P : X -> Prop) (Q : A -> Prop) (u : list token -> out A) (set : A -> X -> X),
  (forall ts, Q (val (u ts))) -> (forall x s, Q x -> P s -> P (set x s)) -> forall s ts, P s -> P (val (decode u set s ts)).
Proof.
  intros X A P Q u set Hu Hs s ts p. unfold decode. pose proof (sub_P Q u Hu ts) as K. destruct (sub u ts) as [[x st] ts'].
  destruct st; try exact p; apply Hs; assumption.
Qed.
Lemma child_P : forall {X A} (P : X -> Prop) (Q : A -> Prop) (u : list attr -> list token -> out A) (set : A -> X -> X),
  uP Q u -> (forall x s, Q x -> P s -> P (set x s)) -> hP P (child u set).
Proof. intros X A P Q u set Hu Hs s a ts p. unfold child. eapply decode_P; eauto. intros. apply Hu. Qed.
Lemma childo_P : forall {X A} (P : X -> Prop) (Q : A -> Prop) (u : list attr -> list token -> out A) (set : option A -> X -> X),
  uP Q u -> (forall x s, Q x -> P s -> P (set (Some x) s)) -> hP P (childo u set).
Proof. intros. eapply child_P; eauto. Qed.
Lemma childin_P : forall {X A} (P : X -> Prop) (Q : A -> Prop) (u : A -> list attr -> list token -> out A) (get : X -> A) (set : A -> X -> X),
  (forall s, P s -> uP Q (u (get s))) -> (forall x s, Q x -> P s -> P (set x s)) -> hP P (childin u get set).
Proof. intros X A P Q u get set Hu Hs s a ts p. unfold childin. eapply decode_P; eauto. intros. now apply Hu. Qed.
Lemma flat_P : forall {X} (P : X -> Prop) (g : list attr -> X -> X), (forall a s, P s -> P (g a s)) -> hP P (flat g).
Proof. intros X P g Hg s a ts p. now apply Hg. Qed.
Lemma fnum_P : forall {X} (P : X -> Prop) n (set : option i64 -> X -> X), (forall v s, P s -> P (set (Some v) s)) -> hP P (fnum n set).
Proof.
  intros X P n set Hs s a ts p. unfold fnum. destruct (String.eqb (get_att a n) ""); [exact p|]. destruct (get_int _); try exact p. now apply Hs.
Qed.
Lemma fattrs_P : forall {X Y} (P : X -> Prop) (f : Y -> string -> string -> Y * status) (get : X -> Y) (set : Y -> X -> X),
  (forall y s, P s -> P (set y s)) -> hP P (fattrs f get set).
Proof. intros X Y P f get set Hs s a ts p. unfold fattrs. destruct (attrs f (get s) a). now apply Hs. Qed.
Lemma fattrs_after_P : forall {X Y} (P : X -> Prop) (f : Y -> string -> string -> Y * status) (y0 : Y) (set : Y -> X -> X),
  (forall y s, P s -> P (set y s)) -> hP P (fattrs_after f y0 set).
Proof. intros X Y P f y0 set Hs s a ts p. unfold fattrs_after. destruct (attrs f y0 a) as [y []]; try exact p. now apply Hs. Qed.
Lemma then_skip_P : forall {X} (P : X -> Prop) (h : hnd X), hP P h -> hP P (then_skip h).
Proof.
  intros X P h Hh s a ts p. unfold then_skip. specialize (Hh s a ts p). destruct (h s a ts) as [[s' st] ts']. destruct st; try exact Hh.
  now apply (skipping_P P s' []).
Qed.
Lemma any_P : forall {X} (u : list attr -> list token -> out X), uP (fun _ => True) u.
Proof. intros X u a ts. exact I. Qed.
Lemma av_P : forall {X} (P : X -> Prop) set, (forall v s, P s -> P (set v s)) -> aP P (av set).
Proof. intros X P set Hs s v p. now apply Hs. Qed.
Lemma ai_P : forall {X} (P : X -> Prop) set, (forall v s, P s -> P (set v s)) -> aP P (ai set).
Proof. intros X P set Hs s v p. unfold ai. destruct (st_of (get_int v)). now apply Hs. Qed.
Lemma wrap_P : forall {A B} (P : A -> Prop) (Q : B -> Prop) (u : list attr -> list token -> out A) (c : list attr -> A -> B),
  uP P u -> (forall a x, P x -> Q (c a x)) -> uP Q (fun a ts => let '(x, st, ts') := u a ts in (c a x, st, ts')).
Proof. intros A B P Q u c Hu Hc a ts. specialize (Hu a ts). destruct (u a ts) as [[x st] ts']. now apply Hc. Qed.
End Inv.

(** ** the types that reading and writing can change *)
Section Stable.
Context `{GoLib}.

(** a setter of another field *)
Ltac other := intros; match goal with P : _ |- _ => exact P end.
Ltac entry := cbn [snd];
  first [ solve [apply ai_P; other] | solve [apply av_P; other] | solve [apply (childo_P _ (fun _ => True)); [apply any_P|other]]
        | solve [apply (childin_P _ (fun _ => True)); [intros; apply any_P|other]]
        | solve [apply flat_P; other] | solve [apply fnum_P; other] | solve [apply fattrs_P; other] | solve [apply fattrs_after_P; other] ].
Ltac entries := repeat (apply Forall_cons || apply Forall_nil).

Lemma st_ppr : uP (fun x => ppr_num x = None) u_ppr.
Proof. unfold u_ppr. apply loopd_P; [reflexivity|]. entries; entry. Qed.
Lemma st_sppr : uP (fun x => geom_avLst (sppr_geom x) = false) u_sppr.
Proof. unfold u_sppr. apply nested_P; [reflexivity| |]; entries; entry. Qed.
Lemma st_pic : uP (fun x => pic_xmlpic x = "") u_pic.
Proof. unfold u_pic. apply loopd_P; [reflexivity|]. entries; entry. Qed.
Lemma reload_ppr_id : forall x, ppr_num x = None -> reload_ppr x = x.
Proof. intros [] E. unfold reload_ppr, set_ppr_num. cbn in *. congruence. Qed.
Lemma reload_sppr_id : forall x, geom_avLst (sppr_geom x) = false -> reload_sppr x = x.
Proof. intros [? ? [] ? ? ? ?] E. unfold reload_sppr, set_sppr_geom. cbn in *. congruence. Qed.
Lemma reload_pic_id : forall x, pic_xmlpic x = "" -> set_pic_xmlpic "" x = x.
Proof. intros [] E. unfold set_pic_xmlpic. cbn in *. congruence. Qed.

Lemma map_snoc_id : forall A (g : A -> A) l x, map g l = l -> g x = x -> map g (l ++ [x]) = l ++ [x].
Proof. intros A g l x E1 E2. rewrite map_app, E1. cbn. now rewrite E2. Qed.

Section Knot.
Variable D : decs.
Hypothesis DP : forall f, uP (fun x => reload_para f x = x) (d_para D f).
Hypothesis DC : forall f, uP (fun x => reload_canvas f x = x) (d_canvas D f).
Hypothesis DG : forall f, uP (fun x => reload_group f x = x) (d_group D f).
Variable f : option nat.

Lemma st_txcontent : uP (fun l => map (reload_para f) l = l) (u_txcontent D f).
Proof.
  unfold u_txcontent. apply loopd_P; [reflexivity|]. entries. cbn [snd]. eapply child_P; [apply DP|]. intros. unfold push. now apply map_snoc_id.
Qed.
Definition Ptx (o : option (list para)) : Prop := option_map (map (reload_para f)) o = o.
Lemma st_txbx : uP Ptx (u_txbx D f).
Proof.
  unfold u_txbx. apply loopd_P; [reflexivity|]. entries. cbn [snd]. eapply childo_P; [apply st_txcontent|].
  intros x s E _. unfold Ptx. cbn. now rewrite E.
Qed.
Definition Psh (x : shapeR para) : Prop :=
  option_map reload_sppr (shapeR_sp x) = shapeR_sp x /\ option_map (option_map (map (reload_para f))) (shapeR_textBox x) = shapeR_textBox x.
Lemma st_shape : uP (fun x => reload_shape f x = x) (u_shape D f).
Proof.
  unfold u_shape. apply (wrap_P Psh _ (u_shapeR D f) (fun _ x => Shape x)).
  - unfold u_shapeR. apply loopd_P; [split; reflexivity|]. entries; cbn [snd]; try entry.
    + eapply childo_P; [apply st_sppr|]. intros x s E [P1 P2]. split; [|exact P2]. cbn. now rewrite reload_sppr_id.
    + eapply childo_P; [apply st_txbx|]. intros x s E [P1 P2]. split; [exact P1|]. cbn. unfold Ptx in E. now rewrite E.
  - intros _ [] [P1 P2]. cbn in *. unfold reload_shapeR. cbn. now rewrite P1, P2.
Qed.

Lemma st_picx : uP (fun _ => True) u_picx. Proof. apply any_P. Qed.
Definition Pcv (x : canvasR citem) : Prop := map (reload_citem f) (canvasR_items x) = canvasR_items x.
Lemma canvas_push : forall c x, Pcv x -> reload_citem f c = c -> Pcv (set_canvasR_items (canvasR_items x ++ [c]) x).
Proof. intros c x P E. unfold Pcv. cbn. now apply map_snoc_id. Qed.
Lemma st_canvasR : uP Pcv (u_canvasR D f).
Proof.
  unfold u_canvasR. apply loopd_P; [reflexivity|]. entries; cbn [snd]; try entry.
  - eapply child_P; [apply st_shape|]. intros x s E P. unfold push. apply canvas_push; auto. cbn. now rewrite E.
  - eapply child_P; [apply st_picx|]. intros x s E P. unfold push. apply canvas_push; auto.
  - eapply child_P; [apply DG|]. intros x s E P. unfold push. apply canvas_push; auto. cbn. now rewrite E.
Qed.
(** the elements of a group, and of a group in a group *)
Definition inner (e : gelem) : list gelem := match e with GGrp _ => [] | _ => [reload_gelem f e] end.
Definition Pgs (x : gshapeR gelem) : Prop := option_map reload_sppr (gshapeR_sp x) = gshapeR_sp x /\ flat_map inner (gshapeR_elems x) = gshapeR_elems x.
Lemma gshape_push : forall c x, Pgs x -> inner c = [c] -> Pgs (set_gshapeR_elems (gshapeR_elems x ++ [c]) x).
Proof. intros c x [P1 P2] E. split; [exact P1|]. cbn. rewrite flat_map_app, P2. cbn. now rewrite E. Qed.
Lemma st_gshape : uP Pgs (u_gshape D f).
Proof.
  unfold u_gshape. apply loopd_P; [split; reflexivity|]. entries; cbn [snd]; try entry.
  - eapply childo_P; [apply st_sppr|]. intros x s E [P1 P2]. split; [|exact P2]. cbn. now rewrite reload_sppr_id.
  - eapply child_P; [apply st_pic|]. intros x s E P. unfold push. apply gshape_push; auto. cbn. now rewrite reload_pic_id.
  - eapply child_P; [apply st_shape|]. intros x s E P. unfold push. apply gshape_push; auto. cbn. now rewrite E.
  - eapply child_P; [apply DC|]. intros x s E P. unfold push. apply gshape_push; auto. cbn. now rewrite E.
Qed.
Lemma reload_ggrp_id : forall x, Pgs x -> reload_gelem f (GGrp x) = GGrp x.
Proof. intros [a b c d] [P1 P2]. cbn [reload_gelem]. unfold reload_gshapeR. cbn in *. rewrite P1. unfold inner in P2. now rewrite P2. Qed.
Definition Pgr (x : groupR gelem) : Prop := option_map reload_sppr (groupR_sp x) = groupR_sp x /\ map (reload_gelem f) (groupR_elems x) = groupR_elems x.
Lemma group_push : forall c x, Pgr x -> reload_gelem f c = c -> Pgr (set_groupR_elems (groupR_elems x ++ [c]) x).
Proof. intros c x [P1 P2] E. split; [exact P1|]. cbn. now apply map_snoc_id. Qed.
Lemma st_groupR : uP Pgr (u_groupR D f).
Proof.
  unfold u_groupR. apply loopd_P; [split; reflexivity|]. entries; cbn [snd]; try entry.
  - eapply childo_P; [apply st_sppr|]. intros x s E [P1 P2]. split; [|exact P2]. cbn. now rewrite reload_sppr_id.
  - eapply child_P; [apply st_pic|]. intros x s E P. unfold push. apply group_push; auto. cbn. now rewrite reload_pic_id.
  - eapply child_P; [apply st_shape|]. intros x s E P. unfold push. apply group_push; auto. cbn. now rewrite E.
  - eapply child_P; [apply DC|]. intros x s E P. unfold push. apply group_push; auto. cbn. now rewrite E.
  - eapply child_P; [apply st_gshape|]. intros x s E P. unfold push. apply group_push; auto. now apply reload_ggrp_id.
Qed.
Lemma reload_canvas_id : forall x, Pcv x -> reload_canvas f (Canvas x) = Canvas x.
Proof. intros [a b c] P. cbn [reload_canvas]. unfold reload_canvasR. unfold Pcv in P. cbn in *. now rewrite P. Qed.
Lemma reload_group_id : forall x, Pgr x -> reload_group f (Group x) = Group x.
Proof. intros [a b c] [P1 P2]. cbn [reload_group]. unfold reload_groupR. cbn in *. now rewrite P1, P2. Qed.

Definition rgdata : gdata -> gdata := reload_gdataR (reload_shape f) (reload_canvas f) (reload_group f).
Definition Pgd (x : gdata) : Prop := option_map (reload_shape f) (gdataR_shape x) = gdataR_shape x /\
  option_map (reload_canvas f) (gdataR_canvas x) = gdataR_canvas x /\ option_map (reload_group f) (gdataR_group x) = gdataR_group x.
Lemma st_gdata : uP Pgd (u_gdata D f).
Proof.
  unfold u_gdata. apply nested_P; [repeat split; reflexivity| |]; entries; cbn [snd]; try entry.
  - eapply childo_P; [apply st_shape|]. intros x s E (P1 & P2 & P3). repeat split; try assumption. cbn. now rewrite E.
  - eapply childo_P; [apply DC|]. intros x s E (P1 & P2 & P3). repeat split; try assumption. cbn. now rewrite E.
  - eapply childo_P; [apply DG|]. intros x s E (P1 & P2 & P3). repeat split; try assumption. cbn. now rewrite E.
Qed.
Definition Pgc (x : graphic) : Prop := option_map rgdata (graphicR_data x) = graphicR_data x.
Lemma st_graphic : uP Pgc (u_graphic D f).
Proof.
  unfold u_graphic. apply nested_P; [reflexivity| |]; entries; cbn [snd]; try entry.
  intros s a ts p. apply (child_P Pgc Pgd (u_gdata D f) (fun x => set_graphicR_data (Some (set_gdataR_uri (get_att a "uri") x)))); auto; [apply st_gdata|].
  intros [] s' (P1 & P2 & P3) _. unfold Pgc. cbn in *. unfold rgdata, reload_gdataR. cbn. now rewrite P1, P2, P3.
Qed.
Definition rgraphic : graphic -> graphic := reload_graphicR rgdata.
Lemma reload_graphic_id : forall x, Pgc x -> rgraphic x = x.
Proof. intros [] P. unfold rgraphic, reload_graphicR. unfold Pgc in P. cbn in *. now rewrite P. Qed.
Definition Pil (x : inline) : Prop := inlineR_file x = f /\ option_map rgraphic (inlineR_graphic x) = inlineR_graphic x.
Lemma st_inline : uP Pil (u_inline D f).
Proof.
  unfold u_inline. apply nested_P; [repeat split; reflexivity| |]; entries; cbn [snd]; try entry.
  eapply childo_P; [apply st_graphic|]. intros x s E (P1 & P2). split; [exact P1|]. cbn. now rewrite reload_graphic_id.
Qed.
Definition Pan (x : anchor) : Prop := anchorR_file x = f /\ option_map rgraphic (anchorR_graphic x) = anchorR_graphic x.
Lemma st_anchor : uP Pan (u_anchor D f).
Proof.
  unfold u_anchor. apply nested_P; [repeat split; reflexivity| |]; entries; cbn [snd]; try entry.
  eapply childo_P; [apply st_graphic|]. intros x s E (P1 & P2). split; [exact P1|]. cbn. now rewrite reload_graphic_id.
Qed.
Lemma reload_inline_id : forall x, Pil x -> reload_inlineR f rgraphic x = x.
Proof. intros [] [P1 P2]. unfold reload_inlineR, set_inlineR_file, set_inlineR_graphic. cbn in *. congruence. Qed.
Lemma reload_anchor_id : forall x, Pan x -> reload_anchorR f rgraphic x = x.
Proof. intros [] [P1 P2]. unfold reload_anchorR, set_anchorR_file, set_anchorR_graphic. cbn in *. congruence. Qed.
Definition Pdr (x : option inline * option anchor) : Prop := reload_rchild f (RDraw (fst x) (snd x)) = RDraw (fst x) (snd x).
Lemma Pdr_iff : forall x, Pdr x <-> option_map (reload_inlineR f rgraphic) (fst x) = fst x /\ option_map (reload_anchorR f rgraphic) (snd x) = snd x.
Proof.
  intros [i a]. unfold Pdr. cbn [fst snd].
  change (reload_rchild f (RDraw i a)) with (RDraw (option_map (reload_inlineR f rgraphic) i) (option_map (reload_anchorR f rgraphic) a)).
  split; [|intros [-> ->]; reflexivity]. intros E. injection E as E1 E2. auto.
Qed.
Lemma st_drawing : uP Pdr (u_drawing D f).
Proof.
  unfold u_drawing. apply loopd_P; [reflexivity|]. entries; cbn [snd].
  - eapply childo_P; [apply st_inline|]. intros x s E P. apply Pdr_iff in P as [P1 P2]. apply Pdr_iff. cbn [fst snd option_map]. now rewrite reload_inline_id.
  - eapply childo_P; [apply st_anchor|]. intros x s E P. apply Pdr_iff in P as [P1 P2]. apply Pdr_iff. cbn [fst snd option_map]. now rewrite reload_anchor_id.
Qed.

Definition Prn (x : run) : Prop := map (reload_rchild f) (runR_children x) = runR_children x.
Lemma run_push : forall c x, Prn x -> reload_rchild f c = c -> Prn (add_child c x).
Proof. intros c x P E. unfold Prn, add_child. cbn. now apply map_snoc_id. Qed.
Lemma pchildh_P : forall {A} (Q : A -> Prop) u (c : A -> rchild), uP Q u -> (forall x, Q x -> reload_rchild f (c x) = c x) -> hP Prn (pchildh u c).
Proof.
  intros A Q u c Hu Hc s a ts p. unfold pchildh. pose proof (sub_P Q (u a) (Hu a) ts) as K. destruct (sub (u a) ts) as [[x st] ts'].
  destruct st; try exact p. apply run_push; auto.
Qed.
Lemma alt_loop_P : forall rec, lP Prn rec -> forall n s ts, Prn s -> Prn (val (alt_loop n rec s ts)).
Proof.
  intros rec Hr. induction n as [|n IH]; intros s ts p; [exact p|]. cbn [alt_loop].
  assert (K : forall ts', Prn (val (let (s0, ts'') := skip ts' in match s0 with SOk => alt_loop n rec s ts'' | _ => (s, s0, ts'') end))).
  { intros ts'. destruct (skip ts') as [[] ts'']; try exact p. now apply IH. }
  destruct ts as [|t ts]; [exact p|]. destruct t; try exact p; try apply K.
  - destruct (String.eqb (snd q) "Choice" && _)%bool; [|apply K]. destruct ts as [|[] ts]; try exact p. now apply Hr.
  - destruct (String.eqb (snd q) "AlternateContent"); [exact p|apply K].
Qed.
Lemma run_parse_P : forall n, lP Prn (run_parse D f n).
Proof.
  induction n as [|n IH]; intros s l a ts p; [exact p|]. cbn [run_parse].
  apply (eswitch_P Prn); [|exact p]. entries; cbn [snd]; try entry.
  - intros s0 a0 t0 p0. destruct (str t0) as [[x st] t1]. destruct st; exact p0.
  - apply (pchildh_P (fun _ => True)); [apply any_P|reflexivity].
  - apply (pchildh_P Pdr); [apply st_drawing|auto].
  - apply flat_P. intros _ s0 p0. now apply run_push.
  - apply (pchildh_P (fun _ => True)); [apply any_P|reflexivity].
  - intros s0 a0 t0 p0. now apply alt_loop_P.
Qed.
Lemma st_run : forall s, Prn s -> uP Prn (u_run D f s).
Proof.
  intros s p a ts. unfold u_run, attrs_loop.
  assert (K := attrs_P Prn [("space", av set_runR_space)] ltac:(entries; entry) a s p).
  match goal with |- context [match ?x with (_, _) => _ end] => change (Prn (fst x)) in K; destruct x as [s' st] end.
  destruct st; try exact K. apply loop_P; auto. intros s0 l a0 t0 p0. now apply run_parse_P.
Qed.
End Knot.

Lemma reload_run_id : forall f x, Prn f x -> reload_runR (reload_rchild f) x = x.
Proof. intros f [] P. unfold reload_runR. unfold Prn in P. cbn in *. now rewrite P. Qed.
Section Para.
Variable D : decs.
Hypothesis DP : forall f, uP (fun x => reload_para f x = x) (d_para D f).
Hypothesis DC : forall f, uP (fun x => reload_canvas f x = x) (d_canvas D f).
Hypothesis DG : forall f, uP (fun x => reload_group f x = x) (d_group D f).
Lemma st_link : uP (Prn None) (u_link D).
Proof.
  unfold u_link. apply loopd_P; [reflexivity|]. entries. cbn [snd].
  apply (childin_P _ (Prn None)); [intros s p; now apply st_run|auto].
Qed.
Definition Ppa f (x : option ppr * list pchild) : Prop := option_map reload_ppr (fst x) = fst x /\ map (reload_pchild f) (snd x) = snd x.
Lemma st_para : forall f, uP (fun x => reload_para f x = x) (u_paraR D f).
Proof.
  intros f a ts. unfold u_paraR.
  match goal with |- context [loop ?h ?s ts] => assert (K : Ppa f (val (loop h s ts))) end.
  { apply loop_P; [|split; reflexivity]. apply eswitch_P. entries; cbn [snd].
    - intros s a0 t0 p. cbv zeta.
      apply (child_P (Ppa f) (Prn None) (u_link D)); auto; [apply st_link|]. intros x s0 E [P1 P2]. split; [exact P1|]. cbn [fst snd].
      apply map_snoc_id; auto. cbn [reload_pchild]. now rewrite reload_run_id.
    - eapply child_P; [apply st_run; auto; reflexivity|]. intros x s0 E [P1 P2]. split; [exact P1|]. cbn [fst snd].
      apply map_snoc_id; auto. cbn [reload_pchild]. now rewrite reload_run_id.
    - eapply child_P; [apply any_P|]. intros x s0 E [P1 P2]. split; [exact P1|]. cbn [fst snd]. apply map_snoc_id; auto.
    - eapply child_P; [apply st_ppr|]. intros x s0 E [P1 P2]. split; [|exact P2]. cbn [fst snd option_map]. now rewrite reload_ppr_id. }
  destruct (loop _ _ ts) as [[s st] ts']. destruct K as [P1 P2]. cbn [val fst snd] in *.
  assert (R1 : reload_para f (mk_para (fst s) (snd s) f) = mk_para (fst s) (snd s) f) by (unfold mk_para; cbn; now rewrite P1, P2).
  assert (R2 : reload_para f (mk_para (fst s) [] f) = mk_para (fst s) [] f) by (unfold mk_para; cbn; now rewrite P1).
  destruct st; [exact R1|exact R2|exact R2|exact R2].
Qed.
End Para.

Lemma st_tie : forall n f, uP (fun x => reload_para f x = x) (d_para (tie n) f) /\ uP (fun x => reload_canvas f x = x) (d_canvas (tie n) f) /\
  uP (fun x => reload_group f x = x) (d_group (tie n) f).
Proof.
  induction n as [|n IH]; intros f.
  - split; [|split]; intros a ts; reflexivity.
  - assert (I1 : forall f, uP (fun x => reload_para f x = x) (d_para (tie n) f)) by (intros; exact (proj1 (IH _))).
    assert (I2 : forall f, uP (fun x => reload_canvas f x = x) (d_canvas (tie n) f)) by (intros; exact (proj1 (proj2 (IH _)))).
    assert (I3 : forall f, uP (fun x => reload_group f x = x) (d_group (tie n) f)) by (intros; exact (proj2 (proj2 (IH _)))).
    split; [|split].
    + exact (st_para (tie n) I1 I2 I3 f).
    + cbn [tie d_canvas]. apply (wrap_P (Pcv f) _ (u_canvasR (tie n) f) (fun _ x => Canvas x)); [now apply st_canvasR|]. intros _ x. apply reload_canvas_id.
    + cbn [tie d_group]. apply (wrap_P (Pgr f) _ (u_groupR (tie n) f) (fun _ x => Group x)); [now apply st_groupR|]. intros _ x. apply reload_group_id.
Qed.
Lemma st_upara : forall f, uP (fun x => reload_para f x = x) (u_para f).
Proof. intros f a ts. unfold u_para. exact (proj1 (st_tie _ f) a ts). Qed.

(** ** tables *)
Section Tables.
Variable f : option nat.
Definition Pce (x : cell) : Prop := cell_file x = f /\ map (reload_para f) (cell_paras x) = cell_paras x.
Lemma st_cell : uP Pce (u_cell f).
Proof.
  unfold u_cell. apply loopd_P; [split; reflexivity|]. entries; cbn [snd]; try entry.
  eapply child_P; [apply st_upara|]. intros x s E [P1 P2]. split; [exact P1|]. cbn. now apply map_snoc_id.
Qed.
Lemma reload_cell_id : forall x, Pce x -> reload_cell f x = x.
Proof. intros [] [P1 P2]. unfold reload_cell. cbn in *. congruence. Qed.
Definition Prw (x : row) : Prop := map (reload_cell f) (row_cells x) = row_cells x.
Lemma st_row : uP Prw (u_row f).
Proof.
  unfold u_row. apply loopd_P; [reflexivity|]. entries; cbn [snd]; try entry.
  eapply child_P; [apply st_cell|]. intros x s E P. unfold Prw. cbn. apply map_snoc_id; auto. now apply reload_cell_id.
Qed.
Lemma reload_row_id : forall x, Prw x -> reload_row f x = x.
Proof. intros [] P. unfold reload_row. unfold Prw in P. cbn in *. congruence. Qed.
Lemma st_grid : uP (fun l => reload_grid l = l) u_grid.
Proof.
  unfold u_grid. apply loopd_P; [reflexivity|]. entries; cbn [snd]. eapply child_P; [apply any_P|].
  intros x s _ E. unfold push, reload_grid in *. rewrite filter_app, E. reflexivity.
Qed.
(** the flags of the look were read from one byte *)
Definition byte_flag (v : i64) : Prop := (0 <= iv v < 256)%Z.
Definition Plk (x : look) : Prop := Forall byte_flag (look_flags x).
Lemma byte_dig : forall c, byte_flag (i64_of (Z.of_N ((N_of_ascii c + 208) mod 256))).
Proof.
  intros c. unfold byte_flag. cbn [iv i64_of]. pose proof (N.mod_lt (N_of_ascii c + 208) 256 ltac:(lia)) as M. set (m := ((N_of_ascii c + 208) mod 256)%N) in *. clearbody m.
  rewrite wrap64_id; [lia|]. unfold in64. apply andb_true_intro. split; [apply Z.leb_le|apply Z.ltb_lt]; lia.
Qed.
Ltac flags := unfold Plk, look_flags in *; repeat match goal with F : Forall _ (_ :: _) |- _ => inversion F; clear F; subst end;
  cbn [look_firstRow look_lastRow look_firstCol look_lastCol look_noHBand look_noVBand set_look_firstRow set_look_lastRow set_look_firstCol
       set_look_lastCol set_look_noHBand set_look_noVBand set_look_val];
  repeat (apply Forall_cons; [first [assumption | apply byte_dig]|]); apply Forall_nil.
Lemma adig_P : forall set, (forall c s, Plk s -> Plk (set (i64_of (Z.of_N ((N_of_ascii c + 208) mod 256))) s)) -> aP Plk (adig set).
Proof. intros set Hs s [|c v] p; [exact p|]. apply Hs. exact p. Qed.
Lemma st_look : uP Plk u_look.
Proof.
  unfold u_look. apply leafd_P.
  - repeat (apply Forall_cons; [split; cbn; lia|]). apply Forall_nil.
  - entries; cbn [snd]; try (apply adig_P; intros c s P; flags).
    intros s v p. unfold ane, av. destruct (String.eqb v ""); [exact p|]. cbn [fst]. flags.
Qed.
Definition Ptp (x : tblpr) : Prop := match tblpr_look x with Some l => Plk l | None => True end.
Lemma st_tblpr : uP Ptp u_tblpr.
Proof.
  unfold u_tblpr. apply loopd_P; [exact I|]. entries; cbn [snd]; try entry.
  - apply then_skip_P. entry.
  - eapply childo_P; [apply st_look|]. intros x s E _. exact E.
Qed.
Definition Pta (x : table) : Prop := match table_props x with Some p => Ptp p | None => True end /\
  option_map reload_grid (table_grid x) = table_grid x /\ map (reload_row f) (table_rows x) = table_rows x.
Lemma st_table : uP Pta (u_table f).
Proof.
  unfold u_table. apply loopd_P; [repeat split|]. entries; cbn [snd].
  - eapply child_P; [apply st_row|]. intros x s E (P1 & P2 & P3). split; [exact P1|split; [exact P2|]]. cbn. apply map_snoc_id; auto. now apply reload_row_id.
  - eapply childo_P; [apply st_tblpr|]. intros x s E (P1 & P2 & P3). split; [exact E|split; [exact P2|exact P3]].
  - eapply childo_P; [apply st_grid|]. intros x s E (P1 & P2 & P3). split; [exact P1|split; [|exact P3]]. cbn. now rewrite E.
Qed.
Definition Pit (x : item) : Prop := reload_item f x = reflag_item x /\ Forall byte_flag (body_flags [x]).
Lemma Pit_table : forall t, Pta t -> Pit (ITable t).
Proof.
  intros [o gr rw] (P1 & P2 & P3). cbn [table_props table_grid table_rows] in *.
  assert (E : reload_item f (ITable (mk_table o gr rw)) = ITable (mk_table (option_map reload_tblpr o) gr rw)).
  { rewrite <- P2 at 2. rewrite <- P3 at 2. reflexivity. }
  unfold Pit. rewrite E. destruct o as [[a b c d g k]|].
  - split; [destruct k; reflexivity|]. unfold body_flags. cbn. unfold Ptp in P1. cbn in P1. destruct k; [|apply Forall_nil]. rewrite app_nil_r. exact P1.
  - split; [reflexivity|apply Forall_nil].
Qed.
Lemma body_flags_app : forall l m, body_flags (l ++ m) = body_flags l ++ body_flags m.
Proof. intros. apply flat_map_app. Qed.
Lemma st_body : forall s, Forall Pit s -> uP (Forall Pit) (u_body f s).
Proof.
  intros s p. unfold u_body. apply loopd_P; [exact p|]. entries; cbn [snd].
  - eapply child_P; [apply st_upara|]. intros x s0 E P. apply Forall_app. split; [exact P|]. apply Forall_cons; [|apply Forall_nil].
    split; [|apply Forall_nil]. cbn. now rewrite E.
  - eapply child_P; [apply st_table|]. intros x s0 E P. apply Forall_app. split; [exact P|]. apply Forall_cons; [|apply Forall_nil]. now apply Pit_table.
  - eapply child_P; [apply any_P|]. intros x s0 E P. apply Forall_app. split; [exact P|]. apply Forall_cons; [|apply Forall_nil].
    split; [reflexivity|apply Forall_nil].
Qed.
Lemma st_document : uP (Forall Pit) (u_document f).
Proof.
  unfold u_document. apply loopd_P; [apply Forall_nil|]. entries; cbn [snd].
  apply (childin_P _ (Forall Pit)); [intros s p; now apply st_body|auto].
Qed.
Lemma st_parse : forall ts, Forall Pit (fst (parse_document f ts)).
Proof.
  intros ts. unfold parse_document. induction (check [] ts) as [|t l IH]; [apply Forall_nil|]. cbn [root].
  destruct t as [q a| | | | |]; try exact IH; try apply Forall_nil.
  pose proof (sub_P (Forall Pit) (u_document f a) (fun ts => st_document a ts) l) as K. destruct (sub (u_document f a) l) as [[x st] r]. exact K.
Qed.
End Tables.

(** ** what saving and loading again does to the flags *)
Lemma flag_small : forall v, digit_flag v -> reload_flag v = v.
Proof.
  intros v D. unfold digit_flag in D. apply i64_eq.
  assert (C : forall k, (iv v = Z.of_nat k)%Z -> (k <= 9)%nat -> iv (reload_flag v) = iv v).
  { intros k E K. unfold reload_flag. rewrite E. do 10 (destruct k as [|k]; [reflexivity|]). lia. }
  apply (C (Z.to_nat (iv v))); lia.
Qed.
Lemma flag_byte : forall v, byte_flag v -> digit_flag (reload_flag v).
Proof.
  intros v D. unfold byte_flag in D.
  assert (C : forallb (fun k => match itoa (Z.of_nat k) with
     | String c _ => let z := iv (i64_of (Z.of_N ((N_of_ascii c + 208) mod 256))) in ((0 <=? z) && (z <=? 9))%Z%bool | _ => true end) (seq 0 256) = true)
    by (vm_compute; reflexivity).
  rewrite forallb_forall in C. specialize (C (Z.to_nat (iv v))). rewrite Z2Nat.id in C by lia. unfold digit_flag, reload_flag.
  assert (I : In (Z.to_nat (iv v)) (seq 0 256)) by (apply in_seq; lia). specialize (C I).
  destruct (itoa (iv v)) as [|c r]; [cbn; lia|]. cbv zeta in C. apply andb_prop in C as [C1 C2]. lia.
Qed.
Lemma look_id : forall k, Forall digit_flag (look_flags k) -> reload_look k = k.
Proof.
  intros [] F. unfold look_flags in F. cbn in F. repeat match goal with F : Forall _ (_ :: _) |- _ => inversion F; clear F; subst end.
  unfold reload_look. cbn. now rewrite !flag_small.
Qed.
Lemma look_digits : forall k, Forall byte_flag (look_flags k) -> Forall digit_flag (look_flags (reload_look k)).
Proof.
  intros k F. change (look_flags (reload_look k)) with (map reload_flag (look_flags k)). rewrite Forall_map. eapply Forall_impl; [|exact F]. intros a. apply flag_byte.
Qed.
Lemma with_look_id : forall x k, item_look x = Some k -> with_look k x = x.
Proof. intros [|[[[]|] g r]|] k E; try discriminate. cbn in *. now subst. Qed.
Lemma item_look_with : forall x k k', item_look x = Some k -> item_look (with_look k' x) = Some k'.
Proof. intros [|[[[]|] g r]|] k k' E; try discriminate. reflexivity. Qed.
Lemma reflag_id : forall x, Forall digit_flag (body_flags [x]) -> reflag_item x = x.
Proof.
  intros x F. unfold reflag_item. unfold body_flags in F. cbn in F. destruct (item_look x) as [k|] eqn:E; [|reflexivity].
  rewrite app_nil_r in F. rewrite look_id by exact F. now apply with_look_id.
Qed.
Lemma reflag_digits : forall x, Forall byte_flag (body_flags [x]) -> Forall digit_flag (body_flags [reflag_item x]).
Proof.
  intros x F. unfold reflag_item. unfold body_flags in *. cbn in *. destruct (item_look x) as [k|] eqn:E.
  - rewrite (item_look_with x k) by exact E. rewrite app_nil_r in *. now apply look_digits.
  - rewrite E. apply Forall_nil.
Qed.
Lemma body_each : forall P l, Forall P (body_flags l) <-> Forall (fun x => Forall P (body_flags [x])) l.
Proof.
  intros P l. induction l as [|x l IH]; [split; intros; apply Forall_nil|].
  change (x :: l) with ([x] ++ l). rewrite body_flags_app, !Forall_app, IH. split; intros [A B]; split; auto. now inversion A.
Qed.

Lemma parsed_reload : forall f ts, map (reload_item f) (fst (parse_document f ts)) = map reflag_item (fst (parse_document f ts)).
Proof.
  intros f ts. pose proof (st_parse f ts) as F. induction F as [|x l [E _] F IH]; [reflexivity|]. cbn [map]. now rewrite E, IH.
Qed.
Theorem first_cycle : forall f ts, parse_document f (toks (m_document (fst (parse_document f ts)))) = (map reflag_item (fst (parse_document f ts)), SOk).
Proof. intros. rewrite parse_marshal. now rewrite parsed_reload. Qed.
Lemma reflag_all : forall l, Forall digit_flag (body_flags l) -> map reflag_item l = l.
Proof. intros l F. apply body_each in F. induction F as [|x l E F IH]; [reflexivity|]. cbn [map]. now rewrite reflag_id, IH. Qed.
Theorem digits_stay : forall f ts, Forall digit_flag (body_flags (fst (parse_document f ts))) ->
  parse_document f (toks (m_document (fst (parse_document f ts)))) = (fst (parse_document f ts), SOk).
Proof. intros f ts F. rewrite first_cycle. now rewrite reflag_all. Qed.
Theorem later_cycles : forall f ts,
  let once := fst (parse_document f (toks (m_document (fst (parse_document f ts))))) in
  parse_document f (toks (m_document once)) = (once, SOk).
Proof.
  intros f ts once. apply digits_stay. rewrite first_cycle. cbn [fst]. apply body_each. rewrite Forall_map.
  eapply Forall_impl; [|apply st_parse]. intros x [_ B]. now apply reflag_digits.
Qed.
End Stable.
