(** The text of a loaded document: paragraphs, tables, the body. *)
From Coq Require Import String Ascii List Bool Arith NArith ZArith Lia.
From Verif Require Import GoStr Num Lib Types XmlTok Unmarshal Docx Text DecLemmas SpecXml XmlFacts SpecStrict StrictFacts StrictFacts2 SpecRead ReadFacts.
Import ListNotations.
Local Open Scope string_scope.
Local Open Scope list_scope.

(** ** what String makes of it *)
Section Strings.
Context `{GoLib}.
Variable w : world.
Variable rs : list rel.

Lemma rconcat_app : forall A (f : A -> res string) a b s, rconcat f (a ++ b) = Ok s <->
  exists x y, rconcat f a = Ok x /\ rconcat f b = Ok y /\ s = (x ++ y)%string.
Proof.
  intros A f a b. induction a as [|t a IH]; intros s; cbn [app rconcat].
  - split; [intros E; exists "", s; auto|]. intros [x [y [E1 [E2 ->]]]]. injection E1 as <-. exact E2.
  - destruct (f t) as [u|e|]; cbn [bind].
    + destruct (rconcat f (a ++ b)) as [v|e|] eqn:E; cbn [bind].
      * destruct (proj1 (IH v) eq_refl) as [x [y [Ea [Eb ->]]]]. rewrite Ea, Eb. cbn [bind]. split.
        -- intros E1. injection E1 as <-. exists (u ++ x)%string, y. rewrite sapp_assoc. auto.
        -- intros [x' [y' [E1 [E2 ->]]]]. injection E1 as <-. injection E2 as <-. now rewrite sapp_assoc.
      * split; [discriminate|]. destruct (rconcat f a) as [x|e'|]; cbn [bind]; intros [x' [y' [E1 [E2 ->]]]]; try discriminate E1.
        exfalso. assert (X : Err e = Ok (x ++ y')%string) by (apply IH; eauto). discriminate X.
      * split; [discriminate|]. destruct (rconcat f a) as [x|e'|]; cbn [bind]; intros [x' [y' [E1 [E2 ->]]]]; try discriminate E1.
        exfalso. assert (X : Panic = Ok (x ++ y')%string) by (apply IH; eauto). discriminate X.
    + split; [discriminate|]. intros [x [y [E1 _]]]. discriminate.
    + split; [discriminate|]. intros [x [y [E1 _]]]. discriminate.
Qed.

Lemma gdata_shown : forall k f dp d s, gdata_string w k f dp d = Ok s -> exists x, s = ("![" ++ x)%string.
Proof.
  intros k f dp d s E. unfold gdata_string in E. destruct (gdataR_pic d) as [p|].
  - destruct (pic_name dp p); try discriminate. cbn [bind] in E. destruct (pic_hash w f p); try discriminate. cbn [bind] in E. injection E as <-. eexists. reflexivity.
  - destruct (gdataR_shape d); [injection E as <-; eexists; reflexivity|]. destruct (gdataR_canvas d); injection E as <-; eexists; reflexivity.
Qed.
Lemma draw_shown : forall i a s, rchild_string w (RDraw i a) = Ok s -> s = "" \/ exists x, s = ("![" ++ x)%string.
Proof.
  intros i a s E. cbn [rchild_string] in E. destruct i as [i|].
  - right. unfold inline_string, inline, anchor, graphic, gdata in *. destruct (inlineR_graphic i) as [g|]; [|discriminate E]. destruct (graphicR_data g); [|discriminate E]. eapply gdata_shown; eauto.
  - destruct a as [a|]; [|left; congruence]. right. unfold anchor_string, inline, anchor, graphic, gdata in *.
    destruct (anchorR_graphic a) as [g|]; [|injection E as <-; eexists; reflexivity].
    destruct (graphicR_data g); [|injection E as <-; eexists; reflexivity]. eapply gdata_shown; eauto.
Qed.

Lemma run_shown : forall bs l, adds_to bs l -> forall s, rconcat (rchild_string w) l = Ok s -> reads bs s.
Proof.
  intros bs l A. induction A as [|b bs l l' O A IH]; intros s E; [injection E as <-; constructor|].
  apply rconcat_app in E. destruct E as [x [y [E1 [E2 ->]]]]. specialize (IH _ E2).
  destruct b; cbn [add_one] in O.
  - destruct l as [|[t| | |] [|]]; try contradiction. cbn in E1. injection E1 as <-. rewrite O, sapp_nil_r. now constructor.
  - destruct l as [|[ | | |] [|]]; try contradiction. cbn in E1. injection E1 as <-. cbn. now constructor.
  - destruct l as [|[ | | |] [|]]; try contradiction. cbn in E1. injection E1 as <-. cbn. now constructor.
  - destruct l as [|[ | | |] [|]]; try contradiction. cbn [rconcat] in E1. destruct (rchild_string w (RDraw i a)) as [d| |] eqn:Ed; try discriminate.
    cbn [bind] in E1. injection E1 as <-. rewrite sapp_nil_r. apply rd_drawing; [|exact IH]. eapply draw_shown; eauto.
  - destruct l; [|contradiction]. injection E1 as <-. cbn. now constructor.
Qed.
Lemma run_plain : forall bs l, adds_to bs l -> ~ In BDrawing bs -> exists s, rconcat (rchild_string w) l = Ok s.
Proof.
  intros bs l A. induction A as [|b bs l l' O A IH]; intros N; [exists ""; reflexivity|].
  destruct IH as [y Ey]; [intros I; apply N; now right|].
  assert (X : exists x, rconcat (rchild_string w) l = Ok x).
  { destruct b; cbn [add_one] in O; try (destruct l as [|[ | | |] [|]]; try contradiction; eexists; reflexivity).
    exfalso. apply N. now left. }
  destruct X as [x Ex]. exists (x ++ y)%string. apply rconcat_app. eauto.
Qed.

(** the part of a paragraph that a child element becomes *)
Definition part (t : tree) (l : list pchild) : Prop :=
  (named "r" t = true /\ exists x, l = [PRun x] /\ adds run0 (run_bits t) x) \/
  (exists q a c x, t = Elem q a c /\ snd q = "hyperlink" /\ l = [PLink (link_ref a) x] /\ adds run0 (flat_map run_bits (filter (named "r") c)) x) \/
  (named "r" t = false /\ named "hyperlink" t = false /\ (l = [] \/ exists x, l = [PRPr x])).
Inductive parts : list tree -> list pchild -> Prop :=
| ps_end : parts [] []
| ps_one : forall t c l l', part t l -> parts c l' -> parts (t :: c) (l ++ l').

Lemma refer_found : forall g id, match refer_target g id with Ok t => t | _ => id end = target_in (rels g) id.
Proof.
  intros g id. unfold refer_target, target_in. induction (rels g) as [|r l IH]; [reflexivity|]. cbn [refer_target_in find].
  destruct (String.eqb (rel_id r) id); [reflexivity|exact IH].
Qed.

Lemma parts_shown : forall i d c l, nth_error w i = Some d -> rels (d_reg d) = rs -> parts c l -> forall s, rconcat (pchild_string w (Some i)) l = Ok s -> reads_para rs c s.
Proof.
  intros i d c l Hi <- P. induction P as [|t c l l' Pt P IH]; intros s E; [injection E as <-; constructor|].
  apply rconcat_app in E. destruct E as [x [y [E1 [E2 ->]]]]. specialize (IH _ E2).
  destruct Pt as [[N [r [-> A]]]|[[q [a [k [r [-> [Q [-> A]]]]]]]|[N1 [N2 X]]]].
  - cbn [rconcat pchild_string] in E1. destruct (rconcat (rchild_string w) (runR_children r)) as [u| |] eqn:Eu; try discriminate. cbn [bind] in E1. injection E1 as <-.
    rewrite sapp_nil_r. apply rp_run; auto. destruct A as [_ [l [El A]]]. cbn in El. rewrite El in Eu. eapply run_shown; eauto.
  - cbn [rconcat pchild_string] in E1. unfold file_reg in E1. rewrite Hi in E1. cbn [bind] in E1. rewrite refer_found in E1.
    match type of E1 with Ok ?X = Ok x => assert (Ex : X = x) by congruence; rewrite <- Ex; clear E1 Ex end. rewrite sapp_nil_r.
    destruct A as [A _]. rewrite A. rewrite <- !sapp_assoc. now apply rp_link.
  - apply rp_other; auto. destruct X as [->|[x' ->]]; cbn in E1; injection E1 as <-; exact IH.
Qed.
Lemma parts_plain : forall i d c l, nth_error w i = Some d -> parts c l -> (forall r, In r c -> named "r" r = true -> ~ In BDrawing (run_bits r)) ->
  exists s, rconcat (pchild_string w (Some i)) l = Ok s.
Proof.
  intros i d c l Hi P. induction P as [|t c l l' Pt P IH]; intros N; [exists ""; reflexivity|].
  destruct IH as [y Ey]; [intros r I; apply N; now right|].
  assert (X : exists x, rconcat (pchild_string w (Some i)) l = Ok x).
  { destruct Pt as [[Nm [r [-> A]]]|[[q [a [k [r [-> [Q [-> A]]]]]]]|[N1 [N2 X]]]].
    - destruct A as [_ [l [El A]]]. cbn in El. destruct (run_plain _ _ A) as [x Ex]; [apply N; [now left|exact Nm]|].
      cbn [rconcat pchild_string]. rewrite El, Ex. cbn. eauto.
    - cbn [rconcat pchild_string]. unfold file_reg. rewrite Hi. cbn. eauto.
    - destruct X as [->|[x' ->]]; cbn; eauto. }
  destruct X as [x Ex]. exists (x ++ y)%string. apply rconcat_app. eauto.
Qed.
End Strings.

(** ** decoders *)
Section Decode.
Context `{GoLib}.

Lemma chain_adds : forall c s s', chain (fun s t s' => tidy t -> adds s (if named "r" t then run_bits t else []) s') s c s' -> Forall tidy c ->
  adds s (flat_map run_bits (filter (named "r") c)) s'.
Proof.
  induction c as [|t c IH]; intros s s' C T; cbn in C; [subst; now apply adds_none|]. destruct C as [s1 [R C]]. inversion T as [|? ? T1 T2]; subst.
  specialize (IH _ _ C T2). specialize (R T1). cbn [filter]. destruct (named "r" t).
  - cbn [flat_map]. eapply adds_trans; eauto.
  - exact (adds_trans _ [] _ _ _ R IH).
Qed.

Lemma numeric_mark : forall c q k, numeric (ftoks c ++ TEnd q :: k) -> numeric (ftoks c ++ TEnd q :: TEof :: k).
Proof. intros c q k N q' a' I. apply N. apply in_app_or in I. apply in_or_app. cbn in *. intuition discriminate. Qed.

Section Knot.
Variable D : decs.
Hypothesis DP : forall l f, uS l (d_para D f).
Hypothesis DC : forall l f, uS l (d_canvas D f).
Hypothesis DG : forall l f, uS l (d_group D f).

Lemma link_decoded : forall q a c k K s' r, Forall tidy c -> numeric (ftoks c ++ TEnd q :: TEof :: k) -> wfm K k ->
  u_link D a (ftoks c ++ TEnd q :: TEof :: k) = (s', SOk, r) -> adds run0 (flat_map run_bits (filter (named "r") c)) s'.
Proof.
  intros q a c k K s' r T N W E. unfold u_link, loopd, loop in E. apply chain_adds; [|exact T].
  eapply loop_forest; [| | |exact N|exact W|exact E].
  - clear -DP DC DG. intros s q a c k K s' ts' An N W E. unfold eswitch in E. cbn [switch named] in *. destruct (String.eqb (snd q) "r") eqn:Er.
    + unfold childin in E. eapply (decode_exact (u_run D None s)) in E; [|apply s_run; assumption|exact An|exact N|exact W].
      destruct E as [-> [x [-> [r E]]]]. split; [reflexivity|]. intros T. apply tidy_kids in T. unfold run_bits. cbn [children]. eapply run_decoded; eauto. now apply numeric_mark.
    + unfold skipping in E. rewrite skip_forest in E. injection E as <- <-. split; [reflexivity|]. intros _. now apply adds_none.
  - intros s x _. now apply adds_none.
  - intros s _. now apply adds_none.
Qed.

Lemma paraR_decoded : forall f q a c k K p r, Forall tidy c -> numeric (ftoks c ++ TEnd q :: TEof :: k) -> wfm K k ->
  u_paraR D f a (ftoks c ++ TEnd q :: TEof :: k) = (p, SOk, r) -> para_file p = f /\ parts c (para_children p).
Proof.
  intros f q a c k K p r T N W E. unfold u_paraR in E.
  match type of E with context [loop ?h0 ?s0 ?t0] => destruct (loop h0 s0 t0) as [[s st] ts'] eqn:El end.
  destruct st; try discriminate. injection E as <- <-. split; [reflexivity|]. cbn [para_children].
  assert (C : chain (fun s t s' => tidy t -> exists l, snd s' = snd s ++ l /\ part t l) (@None ppr, @nil pchild) c s).
  { unfold loop in El. eapply loop_forest; [| | |exact N|exact W|exact El].
    - clear -DP DC DG. intros s q a c k K s' ts' An N W E. unfold eswitch in E. cbn [switch] in E.
      destruct (String.eqb (snd q) "hyperlink") eqn:E1.
      { unfold child in E. eapply decode_exact in E; [|apply s_link; assumption|exact An|exact N|exact W].
        destruct E as [-> [x [-> [r E]]]]. split; [reflexivity|]. intros T. apply tidy_kids in T. cbn [snd]. eexists. split; [reflexivity|]. right. left.
        exists q, a, c, x. split; [reflexivity|]. split; [now apply String.eqb_eq|]. split; [unfold link_ref; now rewrite !first_get|]. eapply link_decoded; eauto. now apply numeric_mark. }
      destruct (String.eqb (snd q) "r") eqn:E2.
      { unfold child in E. eapply decode_exact in E; [|apply s_run; assumption|exact An|exact N|exact W].
        destruct E as [-> [x [-> [r E]]]]. split; [reflexivity|]. intros T. apply tidy_kids in T. cbn [snd]. eexists. split; [reflexivity|]. left.
        split; [exact E2|]. exists x. split; [reflexivity|]. unfold run_bits. cbn [children]. eapply run_decoded; eauto. now apply numeric_mark. }
      destruct (String.eqb (snd q) "rPr") eqn:E3.
      { unfold child in E. eapply decode_exact in E; [|apply String.eqb_eq in E3; rewrite E3; apply s_rpr|exact An|exact N|exact W].
        destruct E as [-> [x [-> _]]]. split; [reflexivity|]. intros _. cbn [snd]. eexists. split; [reflexivity|]. right. right. cbn [named]. rewrite E1, E2. eauto. }
      destruct (String.eqb (snd q) "pPr") eqn:E4.
      { unfold child in E. eapply decode_exact in E; [|apply String.eqb_eq in E4; rewrite E4; apply s_ppr|exact An|exact N|exact W].
        destruct E as [-> [x [-> _]]]. split; [reflexivity|]. intros _. cbn [snd]. exists []. rewrite app_nil_r. split; [reflexivity|]. right. right. cbn [named]. rewrite E1, E2. eauto. }
      unfold skipping in E. rewrite skip_forest in E. injection E as <- <-. split; [reflexivity|]. intros _. exists []. rewrite app_nil_r. split; [reflexivity|]. right. right. cbn [named]. rewrite E1, E2. eauto.
    - intros s1 x _. exists []. rewrite app_nil_r. split; [reflexivity|]. right. right. auto.
    - intros s1 _. exists []. rewrite app_nil_r. split; [reflexivity|]. right. right. auto. }
  clear -C T. enough (G : forall s0, chain (fun s t s' => tidy t -> exists l, snd s' = snd s ++ l /\ part t l) s0 c s -> exists l, snd s = snd s0 ++ l /\ parts c l).
  { destruct (G _ C) as [l [El P]]. cbn in El. now rewrite El. }
  clear C. induction T as [|t c T1 T IH]; intros s0 C; cbn in C.
  - subst. exists []. rewrite app_nil_r. split; [reflexivity|constructor].
  - destruct C as [s1 [R C]]. destruct (R T1) as [l [E1 P1]]. destruct (IH _ C) as [l' [E2 P2]]. exists (l ++ l'). rewrite E2, E1, app_assoc. split; [reflexivity|]. now constructor.
Qed.
End Knot.

Lemma para_decoded : forall f q a c k K p r, Forall tidy c -> numeric (ftoks c ++ TEnd q :: TEof :: k) -> wfm K k ->
  u_para f a (ftoks c ++ TEnd q :: TEof :: k) = (p, SOk, r) -> para_file p = f /\ parts c (para_children p).
Proof.
  intros f q a c k K p r T N W E. unfold u_para in E. cbn [tie d_para] in E.
  eapply paraR_decoded; [| | |exact T|exact N|exact W|exact E]; intros; apply tie_S.
Qed.

(** ** the parts of a document *)
Variable w : world.
Variable i : nat.
Variable d : docx.
Hypothesis Hi : nth_error w i = Some d.
Notation rs := (rels (d_reg d)).

Lemma para_shows : forall q a c k K p r, Forall tidy c -> numeric (ftoks c ++ TEnd q :: TEof :: k) -> wfm K k ->
  u_para (Some i) a (ftoks c ++ TEnd q :: TEof :: k) = (p, SOk, r) -> shows_para w rs (Elem q a c) p.
Proof.
  intros q a c k K p r T N W E. destruct (para_decoded _ _ _ _ _ _ _ _ T N W E) as [F P]. unfold shows_para, para_string. rewrite F. cbn [children]. split.
  - intros s Es. eapply parts_shown; eauto.
  - intros ND. eapply parts_plain; eauto.
Qed.

(** a loop that appends what it decodes from the children with a name *)
Lemma chain_list : forall X A (get : X -> list A) n (Q : tree -> A -> Prop) c s s',
  chain (fun s t s' => tidy t -> (named n t = true /\ exists x, get s' = get s ++ [x] /\ Q t x) \/ (named n t = false /\ get s' = get s)) s c s' ->
  Forall tidy c -> exists l, get s' = get s ++ l /\ Forall2 Q (filter (named n) c) l.
Proof.
  intros X A get n Q. induction c as [|t c IH]; intros s s' C T; cbn in C.
  - subst. exists []. rewrite app_nil_r. split; [reflexivity|constructor].
  - destruct C as [s1 [R C]]. inversion T as [|? ? T1 T2]; subst. destruct (IH _ _ C T2) as [l [E F]]. cbn [filter].
    destruct (R T1) as [[Nm [x [Ex Q1]]]|[Nm Ex]]; rewrite Nm, E, Ex.
    + exists (x :: l). rewrite <- app_assoc. split; [reflexivity|]. now constructor.
    + exists l. auto.
Qed.

Lemma cell_shows : forall q a c k K x r, Forall tidy c -> numeric (ftoks c ++ TEnd q :: TEof :: k) -> wfm K k ->
  u_cell (Some i) a (ftoks c ++ TEnd q :: TEof :: k) = (x, SOk, r) -> shows_cell w rs (Elem q a c) x.
Proof.
  intros q a c k K x r T N W E. unfold u_cell, loopd, loop in E.
  assert (C := chain_list cell para cell_paras "p" (shows_para w rs) c (set_cell_file (Some i) cell0) x).
  destruct C as [l [El F]]; [|exact T|unfold shows_cell; cbn [children]; cbn in El; now rewrite El].
  eapply loop_forest; [| | |exact N|exact W|exact E].
  - clear -Hi. intros s q a c k K s' ts' An N W E. unfold eswitch in E. cbn [switch named] in *. destruct (String.eqb (snd q) "p") eqn:E1.
    + unfold child in E. eapply decode_exact in E; [|apply s_para|exact An|exact N|exact W]. destruct E as [-> [x [-> [r E]]]]. split; [reflexivity|]. intros T. left. split; [reflexivity|].
      exists x. split; [reflexivity|]. eapply para_shows; eauto; [now apply tidy_kids in T|now apply numeric_mark].
    + destruct (String.eqb (snd q) "tcPr") eqn:E2.
      * unfold childo, child in E. eapply decode_exact in E; [|apply s_tcpr|exact An|exact N|exact W]. destruct E as [-> [x [-> _]]]. split; [reflexivity|]. intros _. right. auto.
      * unfold skipping in E. rewrite skip_forest in E. injection E as <- <-. auto.
  - intros. right. auto.
  - intros. right. auto.
Qed.
Lemma row_shows : forall q a c k K x r, Forall tidy c -> numeric (ftoks c ++ TEnd q :: TEof :: k) -> wfm K k ->
  u_row (Some i) a (ftoks c ++ TEnd q :: TEof :: k) = (x, SOk, r) -> shows_row w rs (Elem q a c) x.
Proof.
  intros q a c k K x r T N W E. unfold u_row, loopd, loop in E.
  assert (C := chain_list row cell row_cells "tc" (shows_cell w rs) c row0 x).
  destruct C as [l [El F]]; [|exact T|unfold shows_row; cbn [children]; cbn in El; now rewrite El].
  eapply loop_forest; [| | |exact N|exact W|exact E].
  - clear -Hi. intros s q a c k K s' ts' An N W E. unfold eswitch in E. cbn [switch named] in *. destruct (String.eqb (snd q) "trPr") eqn:E2.
    + unfold childo, child in E. eapply decode_exact in E; [|apply s_trpr|exact An|exact N|exact W]. destruct E as [-> [x [-> _]]]. split; [reflexivity|]. intros _. right.
      apply String.eqb_eq in E2. rewrite E2. auto.
    + destruct (String.eqb (snd q) "tc") eqn:E1.
      * unfold child in E. eapply decode_exact in E; [|apply s_cell|exact An|exact N|exact W]. destruct E as [-> [x [-> [r E]]]]. split; [reflexivity|]. intros T. left. split; [reflexivity|].
        exists x. split; [reflexivity|]. eapply cell_shows; eauto; [now apply tidy_kids in T|now apply numeric_mark].
      * unfold skipping in E. rewrite skip_forest in E. injection E as <- <-. auto.
  - intros. right. auto.
  - intros. right. auto.
Qed.
Lemma table_shows : forall q a c k K x r, Forall tidy c -> numeric (ftoks c ++ TEnd q :: TEof :: k) -> wfm K k ->
  u_table (Some i) a (ftoks c ++ TEnd q :: TEof :: k) = (x, SOk, r) -> Forall2 (shows_row w rs) (filter (named "tr") c) (table_rows x).
Proof.
  intros q a c k K x r T N W E. unfold u_table, loopd, loop in E.
  assert (C := chain_list table row table_rows "tr" (shows_row w rs) c table0 x).
  destruct C as [l [El F]]; [|exact T|cbn in El; now rewrite El].
  eapply loop_forest; [| | |exact N|exact W|exact E].
  - clear -Hi. intros s q a c k K s' ts' An N W E. unfold eswitch in E. cbn [switch named] in *. destruct (String.eqb (snd q) "tr") eqn:E1.
    + unfold child in E. eapply decode_exact in E; [|apply s_row|exact An|exact N|exact W]. destruct E as [-> [x [-> [r E]]]]. split; [reflexivity|]. intros T. left. split; [reflexivity|].
      exists x. split; [reflexivity|]. eapply row_shows; eauto; [now apply tidy_kids in T|now apply numeric_mark].
    + destruct (String.eqb (snd q) "tblPr") eqn:E2.
      { unfold childo, child in E. eapply decode_exact in E; [|apply s_tblpr|exact An|exact N|exact W]. destruct E as [-> [x [-> _]]]. split; [reflexivity|]. intros _. right. auto. }
      destruct (String.eqb (snd q) "tblGrid") eqn:E3.
      { unfold childo, child in E. eapply decode_exact in E; [|apply s_grid|exact An|exact N|exact W]. destruct E as [-> [x [-> _]]]. split; [reflexivity|]. intros _. right. auto. }
      unfold skipping in E. rewrite skip_forest in E. injection E as <- <-. auto.
  - intros. right. auto.
  - intros. right. auto.
Qed.

Definition block (t : tree) : bool := (named "p" t || named "tbl" t || named "sectPr" t)%bool.
Lemma body_shows : forall s q a c k K s' r, Forall tidy c -> numeric (ftoks c ++ TEnd q :: TEof :: k) -> wfm K k ->
  u_body (Some i) s a (ftoks c ++ TEnd q :: TEof :: k) = (s', SOk, r) -> exists l, s' = s ++ l /\ Forall2 (shows w rs) (filter block c) l.
Proof.
  intros s q a c k K s' r T N W E. unfold u_body, loopd, loop in E.
  assert (C : chain (fun s t s' => tidy t -> (block t = true /\ exists x, s' = s ++ [x] /\ shows w rs t x) \/ (block t = false /\ s' = s)) s c s').
  { eapply loop_forest; [| | |exact N|exact W|exact E].
    - clear -Hi. intros s q a c k K s' ts' An N W E. unfold eswitch in E. unfold block. cbn [switch named] in *. destruct (String.eqb (snd q) "p") eqn:E1.
      { unfold child in E. eapply decode_exact in E; [|apply s_para|exact An|exact N|exact W]. destruct E as [-> [x [-> [r E]]]]. split; [reflexivity|]. intros T. left. split; [reflexivity|].
        exists (IPara x). split; [reflexivity|]. split; [exact E1|]. eapply para_shows; eauto; [now apply tidy_kids in T|now apply numeric_mark]. }
      destruct (String.eqb (snd q) "tbl") eqn:E2.
      { unfold child in E. eapply decode_exact in E; [|apply s_table|exact An|exact N|exact W]. destruct E as [-> [x [-> [r E]]]]. split; [reflexivity|]. intros T. left. split; [reflexivity|].
        exists (ITable x). split; [reflexivity|]. split; [exact E2|]. cbn [children]. eapply table_shows; eauto; [now apply tidy_kids in T|now apply numeric_mark]. }
      destruct (String.eqb (snd q) "sectPr") eqn:E3.
      { unfold child in E. eapply decode_exact in E; [|apply s_sect|exact An|exact N|exact W]. destruct E as [-> [x [-> [r E]]]]. split; [reflexivity|]. intros T. left. split; [reflexivity|].
        exists (ISect x). split; [reflexivity|]. exact E3. }
      unfold skipping in E. rewrite skip_forest in E. injection E as <- <-. auto.
    - intros. right. auto.
    - intros. right. auto. }
  clear -C T. revert s C. induction T as [|t c T1 T IH]; intros s C; cbn in C.
  - subst. exists []. rewrite app_nil_r. split; [reflexivity|constructor].
  - destruct C as [s1 [R C]]. destruct (IH _ C) as [l [E F]]. cbn [filter]. destruct (R T1) as [[Nm [x [Ex Q1]]]|[Nm Ex]]; rewrite Nm, E, Ex.
    + exists (x :: l). rewrite <- app_assoc. split; [reflexivity|]. now constructor.
    + exists l. auto.
Qed.

Lemma document_shows : forall q a c k K s' r, Forall tidy c -> numeric (ftoks c ++ TEnd q :: TEof :: k) -> wfm K k ->
  u_document (Some i) a (ftoks c ++ TEnd q :: TEof :: k) = (s', SOk, r) -> Forall2 (shows w rs) (blocks (Elem q a c)) s'.
Proof.
  intros q a c k K s' r T N W E. unfold u_document, loopd, loop in E.
  assert (C : chain (fun s t s' => tidy t -> exists l, s' = s ++ l /\ Forall2 (shows w rs) (if named "body" t then filter block (children t) else []) l) [] c s').
  { eapply loop_forest; [| | |exact N|exact W|exact E].
    - clear -Hi. intros s q a c k K s' ts' An N W E. unfold eswitch in E. cbn [switch named children] in *. destruct (String.eqb (snd q) "body") eqn:E1.
      + unfold childin in E. eapply (decode_exact (u_body (Some i) s)) in E; [|apply s_body|exact An|exact N|exact W]. destruct E as [-> [x [-> [r E]]]]. split; [reflexivity|]. intros T.
        eapply body_shows; eauto; [now apply tidy_kids in T|now apply numeric_mark].
      + unfold skipping in E. rewrite skip_forest in E. injection E as <- <-. split; [reflexivity|]. intros _. exists []. rewrite app_nil_r. split; [reflexivity|constructor].
    - intros. exists []. rewrite app_nil_r. split; [reflexivity|constructor].
    - intros. exists []. rewrite app_nil_r. split; [reflexivity|constructor]. }
  clear -C T. unfold blocks, body_children. cbn [children].
  enough (G : forall s, chain (fun s t s' => tidy t -> exists l, s' = s ++ l /\ Forall2 (shows w rs) (if named "body" t then filter block (children t) else []) l) s c s' ->
     exists l, s' = s ++ l /\ Forall2 (shows w rs) (filter block (flat_map children (filter (named "body") c))) l).
  { destruct (G _ C) as [l [-> F]]. exact F. }
  clear C. induction T as [|t c T1 T IH]; intros s C; cbn in C.
  - subst. exists []. rewrite app_nil_r. split; [reflexivity|constructor].
  - destruct C as [s1 [R C]]. destruct (R T1) as [l1 [E1 F1]]. destruct (IH _ C) as [l2 [E2 F2]]. exists (l1 ++ l2). rewrite E2, E1, app_assoc. split; [reflexivity|].
    cbn [filter]. destruct (named "body" t); [cbn [flat_map]; rewrite filter_app; now apply Forall2_app|]. inversion F1; subst. exact F2.
Qed.

Lemma loaded_shows : forall ts items, numeric ts -> ~ In TEof ts -> parse_document (Some i) ts = (items, SOk) ->
  exists pre q a c post, ts = pre ++ toks (Elem q a c) ++ post /\ prolog pre /\ (tidy (Elem q a c) -> Forall2 (shows w rs) (blocks (Elem q a c)) items).
Proof.
  intros ts items N NE E. unfold parse_document in E.
  apply root_tree in E; auto; [|intros; apply s_document].
  destruct E as [pre [q [a [c [post [ts' [-> [P E]]]]]]]]. exists pre, q, a, c, post. split; [reflexivity|]. split; [exact P|]. intros T.
  unfold sub in E. rewrite push_eof_forest in E.
  destruct (u_document (Some i) a (ftoks c ++ TEnd q :: TEof :: check [] post)) as [[x st] r] eqn:Eu.
  assert (st = SOk /\ x = items) as [-> ->]. { destruct st; destruct (pop_eof r); try discriminate E; inversion E; subst; auto. }
  eapply document_shows; [now apply tidy_kids in T| | |exact Eu].
  - intros q' a' I. apply in_app_or in I. destruct I as [I|[I|[I|I]]]; try discriminate.
    + apply N. apply in_or_app. right. apply in_or_app. left. rewrite <- (app_nil_r (toks _)), toks_elem. right. apply in_or_app. left. exact I.
    + revert q' a' I. apply check_numeric. apply numeric_app in N. apply numeric_app in N. exact N.
  - apply (check_wfm post []).
Qed.
End Decode.
