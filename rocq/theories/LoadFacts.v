(** Fitting elements are loaded without an error. *)
From Coq Require Import String Ascii List Bool Arith NArith ZArith Lia.
From Verif Require Import GoStr Num Lib Types XmlTok Unmarshal DecLemmas DecFuel SpecXml SpecNum SpecInt SpecStrict SpecSkip SpecRead SpecForm SpecError SpecLoad
  NumFacts IntFacts IntFacts2 ReadFacts RoundTrip2 SkipFacts Lex Docx Pack ErrorFacts FormFacts WellFacts.
Import ListNotations.
Local Open Scope string_scope.
Local Open Scope list_scope.

Section Load.
Context `{GoLib}.

(** what may be left of the content of an element: elements, and ends of
    elements the loop has gone into *)
Inductive strm : list token -> Prop :=
| s_nil : strm []
| s_end : forall q ts, strm ts -> strm (TEnd q :: ts)
| s_tree : forall t ts, fit t -> strm ts -> strm (toks t ++ ts).
Lemma strm_forest : forall c ts, Forall fit c -> strm ts -> strm (ftoks c ++ ts).
Proof. intros c ts F S. induction F as [|t c T F IH]; auto. rewrite ftoks_cons, <- app_assoc. now constructor. Qed.

(** results: the bound of the recursion is met, or all is well *)
Definition okl {X} (k : list token) (r : out X) : Prop :=
  let '(_, st, ts) := r in st = SFuel \/ (st = SOk /\ exists u, ts = u ++ TEof :: k /\ strm u).
Definition oku {X} (k : list token) (r : out X) : Prop :=
  let '(_, st, ts) := r in st = SFuel \/ (st = SOk /\ ts = TEof :: k).
Definition aL (e n : string) {X} (h : ahnd X) : Prop := forall s v, value_ok e n v -> snd (h s v) = SOk.
Definition uL (e : string) {A} (u : list attr -> list token -> out A) : Prop :=
  forall q a c k, snd q = e -> fit (Elem q a c) -> oku k (u a (ftoks c ++ TEnd q :: TEof :: k)).
Definition hL (e : string) {X} (h : hnd X) : Prop :=
  forall s q a c u k, snd q = e -> fit (Elem q a c) -> strm u -> okl k (h s a (ftoks c ++ TEnd q :: u ++ TEof :: k)).
Definition lL {X} (h : X -> string -> list attr -> list token -> out X) : Prop := forall e, hL e (fun s a ts => h s e a ts).

Lemma skipping_L : forall {X} (s : X) c q u k, strm u -> okl k (skipping s (ftoks c ++ TEnd q :: u ++ TEof :: k)).
Proof. intros. unfold skipping. rewrite skip_forest. right. eauto. Qed.

Lemma switch_L : forall {X} (cs : list (string * hnd X)) dflt e, Forall (fun c => hL (fst c) (snd c)) cs -> (forall e, hL e dflt) ->
  hL e (fun s a ts => switch cs dflt e s a ts).
Proof.
  intros X cs dflt e F D. induction F as [|[n h] cs Hh F IH]; cbn [switch]; [apply D|].
  destruct (String.eqb_spec e n) as [->|_]; [exact Hh|exact IH].
Qed.
Lemma eswitch_L : forall {X} (cs : list (string * hnd X)), Forall (fun c => hL (fst c) (snd c)) cs -> lL (eswitch cs).
Proof. intros X cs F e. unfold eswitch. apply switch_L; auto. intros e' s q a c u k _ _ S. now apply skipping_L. Qed.

Lemma loop_L : forall {X} (h : X -> string -> list attr -> list token -> out X), lL h ->
  forall n s u k, strm u -> oku k (loop_n n h s (u ++ TEof :: k)).
Proof.
  intros X h Hh. induction n as [|n IH]; intros s u k S; [now left|]. inversion S as [|q u' S'|t u' F S']; subst; cbn [app loop_n].
  - right. auto.
  - now apply IH.
  - rewrite <- app_assoc. inversion F as [q a c V SO AC PO FC|x|]; subst.
    + rewrite toks_elem. cbn [loop_n].
      pose proof (Hh (snd q) s q a c u' k eq_refl F S') as G. cbn beta in G.
      destruct (h s (snd q) a _) as [[s' st] ts']. cbn in G. destruct G as [->|(-> & u2 & -> & S2)]; [now left|]. now apply IH.
    + cbn [toks app loop_n]. now apply IH.
    + cbn [toks app loop_n]. now apply IH.
Qed.
Lemma loop_uL : forall {X} e (h : X -> string -> list attr -> list token -> out X) s, lL h -> uL e (fun _ ts => loop h s ts).
Proof.
  intros X e h s Hh q a c k _ F. inversion F as [q' a' c' V SO AC PO FC| |]; subst.
  change (oku k (loop h s (ftoks c ++ [TEnd q] ++ TEof :: k))). rewrite app_assoc. apply (loop_L h Hh).
  apply strm_forest; auto. repeat constructor.
Qed.

Lemma sub_L : forall {A} e (u : list attr -> list token -> out A) q a c r, uL e u -> snd q = e -> fit (Elem q a c) ->
  let '(_, st, ts) := sub (u a) (ftoks c ++ TEnd q :: r) in st = SFuel \/ (st = SOk /\ ts = r).
Proof.
  intros A e u q a c r Hu E F. unfold sub. rewrite push_eof_forest. specialize (Hu q a c r E F).
  destruct (u a _) as [[x st] ts']. cbn in Hu. destruct Hu as [->|[-> ->]]; [|right; auto]. destruct (pop_eof ts'); now left.
Qed.
Lemma child_L : forall {X A} e (u : list attr -> list token -> out A) (set : A -> X -> X), uL e u -> hL e (child u set).
Proof.
  intros X A e u set Hu s q a c v k E F S. unfold child, decode. pose proof (sub_L e u q a c (v ++ TEof :: k) Hu E F) as G.
  destruct (sub (u a) _) as [[x st] ts']. destruct G as [->|[-> ->]]; [now left|]. right. eauto.
Qed.
Lemma childo_L : forall {X A} e (u : list attr -> list token -> out A) (set : option A -> X -> X), uL e u -> hL e (childo u set).
Proof. intros. unfold childo. now apply child_L. Qed.
Lemma childin_L : forall {X A} e (u : A -> list attr -> list token -> out A) (get : X -> A) (set : A -> X -> X),
  (forall x, uL e (u x)) -> hL e (childin u get set).
Proof. intros X A e u get set Hu s q a c v k E F S. exact (child_L e (u (get s)) set (Hu (get s)) s q a c v k E F S). Qed.
Lemma child_attr_L : forall {X A} e (u : list attr -> list token -> out A) (set : list attr -> A -> X -> X),
  uL e u -> hL e (fun s a ts => child u (set a) s a ts).
Proof. intros X A e u set Hu s q a c v k E F S. exact (child_L e u (set a) Hu s q a c v k E F S). Qed.
(** nothing of the content is read *)
Lemma stay : forall {X} (s : X) q a c u k, fit (Elem q a c) -> strm u -> okl k (s, SOk, ftoks c ++ TEnd q :: u ++ TEof :: k).
Proof.
  intros X s q a c u k F S. inversion F; subst. right. split; auto. exists (ftoks c ++ TEnd q :: u). split; [now rewrite <- app_assoc|].
  apply strm_forest; auto. now constructor.
Qed.
Lemma flat_L : forall {X} e (g : list attr -> X -> X), hL e (flat g).
Proof. intros X e g s q a c u k _ F S. apply (stay (g a s) q a); auto. Qed.
Lemma fval_L : forall {X} e (g : option string -> X -> X), hL e (fval g).
Proof. intros. apply flat_L. Qed.
Lemma fset_L : forall {X} e (g : bool -> X -> X), hL e (fset g).
Proof. intros. apply flat_L. Qed.

Lemma fit_values : forall q a c, fit (Elem q a c) -> forall n v, In (n, v) a -> value_ok (snd q) (snd n) v.
Proof. intros q a c F. now inversion F. Qed.
Lemma get_att_in : forall a n, get_att a n <> "" -> exists q, In (q, get_att a n) a /\ snd q = n.
Proof.
  induction a as [|[q v] a IH]; intros n E; cbn [get_att] in *; [congruence|].
  destruct (String.eqb_spec (snd q) n) as [Q|_]; [exists q; split; auto; now left|].
  destruct (IH n E) as (q' & I & Q). exists q'. split; auto. now right.
Qed.
Lemma get_att_int : forall q a c n, fit (Elem q a c) -> is_int_attr (snd q) n = true -> get_att a n <> "" -> exists x, get_int (get_att a n) = GVal x.
Proof.
  intros q a c n F B E. destruct (get_att_in a n E) as (q' & I & <-). destruct (fit_values q a c F _ _ I) as [V _].
  destruct (V B) as [[Z _]|X]; [contradiction|exact X].
Qed.
Lemma fnum_L : forall {X} e n (g : option i64 -> X -> X), is_int_attr e n = true -> hL e (fnum n g).
Proof.
  intros X e n g B s q a c u k E F S. subst e. unfold fnum. destruct (String.eqb_spec (get_att a n) "") as [_|NE]; [now apply (stay s q a)|].
  destruct (get_att_int q a c n F B NE) as [x ->]. now apply (stay _ q a).
Qed.
Lemma attrs_L : forall {X} e (cs : list (string * ahnd X)), Forall (fun c => aL e (fst c) (snd c)) cs ->
  forall a s, (forall n v, In (n, v) a -> value_ok e (snd n) v) -> snd (attrs (aswitch cs) s a) = SOk.
Proof.
  intros X e cs F. induction a as [|[q v] a IH]; intros s A; cbn [attrs]; [reflexivity|].
  assert (K : snd (aswitch cs s (snd q) v) = SOk).
  { assert (V : value_ok e (snd q) v) by (apply A; now left). unfold aswitch. clear IH A.
    induction F as [|[n h] cs Hh F IHc]; cbn [switch]; [reflexivity|]. destruct (String.eqb_spec (snd q) n) as [<-|_]; auto. }
  destruct (aswitch cs s (snd q) v) as [s' st]. cbn in K. subst st. apply IH. intros. apply A. now right.
Qed.
Lemma fattrs_L : forall {X Y} e (cs : list (string * ahnd Y)) (get : X -> Y) set,
  Forall (fun c => aL e (fst c) (snd c)) cs -> hL e (fattrs (aswitch cs) get set).
Proof.
  intros X Y e cs get set A s q a c u k E F S. subst e. unfold fattrs. pose proof (attrs_L _ cs A a (get s) (fit_values q a c F)) as Q.
  destruct (attrs (aswitch cs) (get s) a) as [y st]. cbn in Q. subst st. now apply (stay _ q a).
Qed.
Lemma fattrs_after_L : forall {X Y} e (cs : list (string * ahnd Y)) y0 (set : Y -> X -> X),
  Forall (fun c => aL e (fst c) (snd c)) cs -> hL e (fattrs_after (aswitch cs) y0 set).
Proof.
  intros X Y e cs y0 set A s q a c u k E F S. subst e. unfold fattrs_after. pose proof (attrs_L _ cs A a y0 (fit_values q a c F)) as Q.
  destruct (attrs (aswitch cs) y0 a) as [y st]. cbn in Q. subst st. now apply (stay _ q a).
Qed.
(** handlers that read attributes only and leave the content *)
Definition hA (e : string) {X} (h : hnd X) : Prop :=
  forall s q a c ts, snd q = e -> fit (Elem q a c) -> exists s', h s a ts = (s', SOk, ts).
Lemma hA_L : forall {X} e (h : hnd X), hA e h -> hL e h.
Proof. intros X e h Hh s q a c u k E F S. destruct (Hh s q a c (ftoks c ++ TEnd q :: u ++ TEof :: k) E F) as [s' ->]. now apply (stay s' q a). Qed.
Lemma then_skip_L : forall {X} e (h : hnd X), hA e h -> hL e (then_skip h).
Proof.
  intros X e h Hh s q a c u k E F S. unfold then_skip. destruct (Hh s q a c (ftoks c ++ TEnd q :: u ++ TEof :: k) E F) as [s' ->].
  now apply skipping_L.
Qed.
Lemma flat_A : forall {X} e (g : list attr -> X -> X), hA e (flat g).
Proof. intros X e g s q a c ts _ _. eexists. reflexivity. Qed.
Lemma fattrs_after_A : forall {X Y} e (cs : list (string * ahnd Y)) y0 (set : Y -> X -> X),
  Forall (fun c => aL e (fst c) (snd c)) cs -> hA e (fattrs_after (aswitch cs) y0 set).
Proof.
  intros X Y e cs y0 set A s q a c ts E F. subst e. unfold fattrs_after. pose proof (attrs_L _ cs A a y0 (fit_values q a c F)) as Q.
  destruct (attrs (aswitch cs) y0 a) as [y st]. cbn in Q. subst st. eexists. reflexivity.
Qed.
Lemma leafd_L : forall {X} e (cs : list (string * ahnd X)) s, In e solid -> Forall (fun c => aL e (fst c) (snd c)) cs -> uL e (leafd cs s).
Proof.
  intros X e cs s I A q a c k E F. subst e. unfold leafd, leaf. pose proof (attrs_L _ cs A a s (fit_values q a c F)) as Q.
  destruct (attrs (aswitch cs) s a) as [y st]. cbn in Q. subst st. inversion F as [q' a' c' V SO AC PO FC| |]; subst. rewrite (SO I). right. auto.
Qed.
Lemma loopd_L : forall {X} e (cs : list (string * hnd X)) s, Forall (fun c => hL (fst c) (snd c)) cs -> uL e (loopd cs s).
Proof. intros X e cs s F. unfold loopd. apply loop_uL. now apply eswitch_L. Qed.
Lemma attrs_loop_L : forall {X} e (ac : list (string * ahnd X)) h s,
  Forall (fun c => aL e (fst c) (snd c)) ac -> lL h -> uL e (attrs_loop (aswitch ac) h s).
Proof.
  intros X e ac h s A Hh q a c k E F. subst e. unfold attrs_loop. pose proof (attrs_L _ ac A a s (fit_values q a c F)) as Q.
  destruct (attrs (aswitch ac) s a) as [y st]. cbn in Q. subst st. exact (loop_uL (snd q) h y Hh q a c k eq_refl F).
Qed.
Lemma nested_L : forall {X} e (ac : list (string * ahnd X)) (cs : list (string * hnd X)) s,
  Forall (fun c => aL e (fst c) (snd c)) ac -> Forall (fun c => hL (fst c) (snd c)) cs -> uL e (nested ac cs s).
Proof. intros X e ac cs s A F. unfold nested. apply attrs_loop_L; auto. now apply eswitch_L. Qed.

Lemma av_L : forall {X} e n (set : string -> X -> X), aL e n (av set).
Proof. intros X e n set s v _. reflexivity. Qed.
Lemma ai_L : forall {X} e n (set : i64 -> X -> X), is_int_attr e n = true -> mem e may_be_empty = false -> aL e n (ai set).
Proof.
  intros X e n set B M s v [V _]. unfold ai. destruct (V B) as [[_ I]|[x ->]]; [|reflexivity]. exfalso. unfold mem in M.
  assert (T : existsb (String.eqb e) may_be_empty = true) by (apply existsb_exists; exists e; split; auto; apply String.eqb_refl). congruence.
Qed.
Lemma ain_L : forall {X} e n (set : i64 -> X -> X), is_int_attr e n = true -> mem e may_be_empty = false -> aL e n (ain set).
Proof.
  intros X e n set B M s v [V _]. unfold ain. destruct (V B) as [[_ I]|[x ->]]; [|reflexivity]. exfalso. unfold mem in M.
  assert (T : existsb (String.eqb e) may_be_empty = true) by (apply existsb_exists; exists e; split; auto; apply String.eqb_refl). congruence.
Qed.
Lemma aig_L : forall {X} e n (set : i64 -> X -> X), aL e n (aig set).
Proof. intros X e n set s v _. reflexivity. Qed.
Lemma aatoi_L : forall {X} e n (set : i64 -> X -> X), is_decimal_attr e n = true -> aL e n (aatoi set).
Proof.
  intros X e n set B s v [_ V]. destruct (V B) as (z & T & I). unfold aatoi. rewrite parse_int_zval, (proj1 (spells_iff _ _) T), I. reflexivity.
Qed.
Lemma adig_L : forall {X} e n (set : i64 -> X -> X), aL e n (adig set).
Proof. intros X e n set s v _. unfold adig. now destruct v. Qed.
Lemma ane_av_L : forall {X} e n (set : string -> X -> X), aL e n (ane (av set)).
Proof. intros X e n set s v _. unfold ane. now destruct (String.eqb v ""). Qed.
Lemma ane_ai_L : forall {X} e n (set : i64 -> X -> X), is_int_attr e n = true -> aL e n (ane (ai set)).
Proof. intros X e n set B s v [V _]. unfold ane, ai. destruct (String.eqb_spec v "") as [_|N]; [reflexivity|]. destruct (V B) as [[Z _]|[x ->]]; [contradiction|reflexivity]. Qed.
Lemma ane_ain_L : forall {X} e n (set : i64 -> X -> X), is_int_attr e n = true -> aL e n (ane (ain set)).
Proof. intros X e n set B s v [V _]. unfold ane, ain. destruct (String.eqb_spec v "") as [_|N]; [reflexivity|]. destruct (V B) as [[Z _]|[x ->]]; [contradiction|reflexivity]. Qed.

Lemma str_n_L : forall n acc c q r,
  let '(x, st, ts) := str_n n acc (ftoks c ++ TEnd q :: r) in st = SFuel \/ (st = SOk /\ ts = r /\ x = (acc ++ chardata c)%string).
Proof.
  induction n as [|n IH]; intros acc c q r; [now left|]. destruct c as [|[q' a' c'|x|] c]; cbn [ftoks flat_map app str_n].
  - right. cbn [chardata]. now rewrite sapp_nil_r.
  - change (flat_map toks c) with (ftoks c). rewrite <- app_assoc, toks_elem. rewrite skip_forest. exact (IH acc c q r).
  - cbn [toks app]. change (flat_map toks c) with (ftoks c). pose proof (IH (acc ++ x)%string c q r) as G. cbn [chardata]. rewrite sapp_assoc in G. exact G.
  - cbn [toks app]. exact (IH acc c q r).
Qed.
Lemma wrap_L : forall {A B} e (u : list attr -> list token -> out A) (c : list attr -> A -> B),
  uL e u -> uL e (fun a ts => let '(x, st, ts') := u a ts in (c a x, st, ts')).
Proof. intros A B e u c Hu q a c' k E F. specialize (Hu q a c' k E F). destruct (u a _) as [[x st] ts']. exact Hu. Qed.

Ltac atab := repeat (first [apply Forall_nil | apply Forall_cons]); cbn [fst snd];
  first [apply av_L | apply aig_L | apply adig_L | apply aatoi_L; reflexivity | apply ai_L; reflexivity | apply ain_L; reflexivity
        | apply ane_av_L | apply ane_ai_L; reflexivity | apply ane_ain_L; reflexivity].
Ltac hnd1 tac :=
  cbn [fst snd];
  first [ apply fset_L | apply fval_L | apply flat_L | apply fnum_L; reflexivity
        | apply fattrs_L; atab | apply fattrs_after_L; atab
        | apply then_skip_L; first [apply flat_A | apply fattrs_after_A; atab]
        | apply childo_L; tac | apply childin_L; intros; tac | apply child_L; tac | idtac ].
Ltac tab tac := repeat (first [apply Forall_nil | apply Forall_cons]); hnd1 tac.
Ltac issolid := cbn; intuition.
Ltac dec tac := first [ solve [tac] | apply leafd_L; [issolid | atab] | apply loopd_L; tab tac | apply nested_L; [atab | tab tac] ].

Lemma l_rfonts : uL "rFonts" u_rfonts. Proof. unfold u_rfonts. dec idtac. Qed.
Lemma l_spacing : uL "spacing" u_spacing. Proof. unfold u_spacing. dec idtac. Qed.
Lemma l_ind : uL "ind" u_ind. Proof. unfold u_ind. dec idtac. Qed.
Lemma l_shade : uL "shd" u_shade. Proof. unfold u_shade. dec idtac. Qed.
Lemma l_rpr : uL "rPr" u_rpr.
Proof. unfold u_rpr. dec ltac:(first [apply l_rfonts | apply l_spacing | apply l_shade]). Qed.
Lemma l_tab : uL "tab" u_tab. Proof. unfold u_tab. dec idtac. Qed.
Lemma l_tabs : uL "tabs" u_tabs.
Proof.
  unfold u_tabs. apply loop_uL. intros e. apply (switch_L _ (flat (fun _ s => s))).
  - constructor; [|constructor]. apply child_L, l_tab.
  - intros. apply flat_L.
Qed.
Lemma l_ppr : uL "pPr" u_ppr.
Proof. unfold u_ppr. dec ltac:(first [apply l_tabs | apply l_spacing | apply l_ind | apply l_shade | apply l_rpr]). Qed.

Lemma text_loop_L : forall u s k, strm u -> oku k (text_loop s (u ++ TEof :: k)).
Proof.
  assert (N : forall u, strm u -> Forall (fun t => t <> TErr /\ t <> TEof) u).
  { intros u S. induction S as [|q ts S IH|t ts F S IH]; [constructor|constructor; auto; split; discriminate|]. apply Forall_app. split; auto. clear.
    induction t as [q a c F|s|] using tree_ind'; [|repeat constructor; discriminate|repeat constructor; discriminate].
    cbn [toks]. constructor; [split; discriminate|]. apply Forall_app. split; [|repeat constructor; discriminate].
    induction F as [|t c T F IH]; [constructor|]. cbn [flat_map]. apply Forall_app. auto. }
  intros u s k S. apply N in S. revert s. induction S as [|t u [T1 T2] F IH]; intros s; cbn [app text_loop]; [right; auto|].
  destruct t; try apply IH; congruence.
Qed.
Lemma l_text : forall e, uL e u_text.
Proof.
  intros e q a c k _ F. inversion F as [q' a' c' V SO AC PO FC| |]; subst. unfold u_text.
  change (ftoks c ++ TEnd q :: TEof :: k) with (ftoks c ++ [TEnd q] ++ TEof :: k). rewrite app_assoc. apply text_loop_L. apply strm_forest; auto. repeat constructor.
Qed.
Lemma l_br : uL "br" u_br.
Proof. intros q a c k E F. inversion F as [q' a' c' V SO AC PO FC| |]; subst. rewrite SO; [|rewrite E; issolid]. right. auto. Qed.

Lemma l_extent : uL "extent" u_extent. Proof. unfold u_extent. dec idtac. Qed.
Lemma l_effect : uL "effectExtent" u_effect. Proof. unfold u_effect. dec idtac. Qed.
Lemma l_docpr : uL "docPr" u_docpr. Proof. unfold u_docpr. dec idtac. Qed.
Lemma l_nonvis : uL "cNvPr" u_nonvis. Proof. unfold u_nonvis. dec idtac. Qed.

(** handlers written out by hand: no call of a decoder inside *)
Ltac plain := apply hA_L; intros ? q a c ? E F; cbv beta zeta;
  match goal with |- context [String.eqb (get_att a ?n) ""] =>
    destruct (String.eqb_spec (get_att a n) "") as [_|NE]; [eexists; reflexivity|];
    let Q := fresh in assert (Q : exists x, get_int (get_att a n) = GVal x) by (apply (get_att_int q a c n F); [rewrite E; reflexivity|exact NE]);
    destruct Q as [? ->]; eexists; reflexivity end.

Lemma l_frame : forall e, uL e u_frame. Proof. intros. unfold u_frame. dec idtac. plain. Qed.
Lemma l_cnvpicpr : forall e s, uL e (u_cnvpicpr s). Proof. intros. unfold u_cnvpicpr. dec idtac. Qed.
Lemma l_nvpic : forall e, uL e u_nvpic.
Proof. intros. unfold u_nvpic. dec ltac:(apply l_cnvpicpr). plain. Qed.
Lemma l_ablip : forall e s, uL e (u_ablip s). Proof. intros. unfold u_ablip. dec idtac. Qed.
Lemma l_stretch : forall e s, uL e (u_stretch s). Proof. intros. unfold u_stretch. dec idtac. Qed.
Lemma l_picblip : forall e, uL e u_picblip.
Proof. intros. unfold u_picblip. dec ltac:(first [apply l_ablip | apply l_stretch]). Qed.
Lemma l_xfrm : forall s, uL "xfrm" (u_xfrm s). Proof. intros. unfold u_xfrm. dec idtac. Qed.
Lemma l_geom : forall e, uL e u_geom. Proof. intros. unfold u_geom. dec idtac. Qed.
Lemma l_picsp : forall e, uL e u_picsp. Proof. intros. unfold u_picsp. dec ltac:(first [apply l_xfrm | apply l_geom]). Qed.
Lemma l_pic : forall e, uL e u_pic. Proof. intros. unfold u_pic. dec ltac:(first [apply l_nvpic | apply l_picblip | apply l_picsp]). Qed.
Lemma l_picx : forall e, uL e u_picx.
Proof. intros. unfold u_picx. apply (wrap_L e u_pic (fun a x => set_pic_xmlpic (get_att a "pic") x)). apply l_pic. Qed.
Lemma l_solid : forall e, uL e u_solid. Proof. intros. unfold u_solid. dec idtac. Qed.
Lemma l_lend : forall e, In e solid -> uL e u_lend. Proof. intros e I. unfold u_lend. apply leafd_L; auto. atab. Qed.
Lemma l_aline : uL "ln" u_aline. Proof. unfold u_aline. dec ltac:(first [apply l_solid | apply l_lend; issolid]). Qed.
Lemma l_tile : uL "tile" u_tile. Proof. unfold u_tile. dec idtac. Qed.
Lemma l_blipfill : uL "blipFill" u_blipfill. Proof. unfold u_blipfill. dec ltac:(first [apply l_ablip | apply l_tile]). Qed.
Lemma l_sppr : forall e, uL e u_sppr.
Proof. intros. unfold u_sppr. dec ltac:(first [apply l_xfrm | apply l_solid | apply l_blipfill | apply l_aline]). Qed.
Lemma l_cnvcn : forall e, uL e u_cnvcn. Proof. intros. unfold u_cnvcn. dec idtac. Qed.
Lemma l_splocks : uL "spLocks" u_splocks. Proof. unfold u_splocks. dec idtac. Qed.
Lemma l_cnvsp : uL "cNvSpPr" u_cnvsp. Proof. unfold u_cnvsp. dec ltac:(apply l_splocks). Qed.
Lemma l_bodypr : forall e, uL e u_bodypr. Proof. intros. unfold u_bodypr. dec idtac. Qed.
Lemma l_bg : forall e, uL e u_bg. Proof. intros. unfold u_bg. dec idtac. Qed.
Lemma l_whole : forall e, uL e u_whole. Proof. intros. unfold u_whole. dec ltac:(apply l_aline). Qed.
Lemma l_gcnv : forall e, uL e u_gcnv. Proof. intros. unfold u_gcnv. dec idtac. Qed.

Lemma xml_int_L : forall v c q r, offset_ok (chardata c) ->
  let '(_, st, ts) := xml_int v (ftoks c ++ TEnd q :: r) in st = SFuel \/ (st = SOk /\ ts = r).
Proof.
  intros v c q r O. unfold xml_int, str. pose proof (str_n_L (S (size (ftoks c ++ TEnd q :: r))) "" c q r) as G.
  destruct (str_n _ "" _) as [[x st] ts]. destruct G as [->|(-> & -> & ->)]; [now left|]. cbn [append].
  destruct (String.eqb_spec (chardata c) "") as [_|NE]; [right; auto|]. destruct O as [Z|(b & t & b' & z & E & W & T & W' & I)]; [contradiction|].
  rewrite E, (trim_number b t b' z W T W'), parse_int_zval, (proj1 (spells_iff _ _) T), I. right. auto.
Qed.
Lemma l_wpos : forall e, uL e u_wpos.
Proof.
  intros e q a c k E F. unfold u_wpos. refine (loop_uL e _ _ _ q a c k E F). apply eswitch_L. constructor; [|constructor]. cbn [fst snd].
  intros s q1 a1 c1 u k1 E1 F1 S. inversion F1 as [q' a' c' V SO AC PO FC| |]; subst.
  pose proof (xml_int_L (wpos_off s) c1 q1 (u ++ TEof :: k1) (PO E1)) as G. destruct (xml_int _ _) as [[n st] ts].
  destruct G as [->|[-> ->]]; [now left|]. right. eauto.
Qed.

Section Knot.
Variable D : decs.
Hypothesis DP : forall e f, uL e (d_para D f).
Hypothesis DC : forall e f, uL e (d_canvas D f).
Hypothesis DG : forall e f, uL e (d_group D f).
Variable f : option nat.

Lemma l_txcontent : forall e, uL e (u_txcontent D f). Proof. intros. unfold u_txcontent. dec ltac:(apply DP). Qed.
Lemma l_txbx : forall e, uL e (u_txbx D f). Proof. intros. unfold u_txbx. dec ltac:(apply l_txcontent). Qed.
Lemma l_shape : forall e, uL e (u_shape D f).
Proof.
  intros. unfold u_shape. apply (wrap_L e (u_shapeR D f) (fun _ x => Shape x)). unfold u_shapeR.
  dec ltac:(first [apply l_nonvis | apply l_cnvcn | apply l_cnvsp | apply l_sppr | apply l_txbx | apply l_bodypr]).
Qed.
Lemma l_canvasR : forall e, uL e (u_canvasR D f).
Proof. intros. unfold u_canvasR. dec ltac:(first [apply l_bg | apply l_whole | apply l_shape | apply l_picx | apply DG]). Qed.
Lemma l_gshape : forall e, uL e (u_gshape D f).
Proof. intros. unfold u_gshape. dec ltac:(first [apply l_nonvis | apply l_gcnv | apply l_sppr | apply l_pic | apply l_shape | apply DC]). Qed.
Lemma l_groupR : forall e, uL e (u_groupR D f).
Proof. intros. unfold u_groupR. dec ltac:(first [apply l_gshape | apply l_gcnv | apply l_sppr | apply l_pic | apply l_shape | apply DC]). Qed.
Lemma l_gdata : forall e, uL e (u_gdata D f).
Proof. intros. unfold u_gdata. dec ltac:(first [apply l_picx | apply l_shape | apply DC | apply DG]). Qed.
Lemma l_graphic : forall e, uL e (u_graphic D f).
Proof.
  intros. unfold u_graphic. apply nested_L; [atab|]. constructor; [|constructor]. cbn [fst snd].
  apply (child_attr_L "graphicData" (u_gdata D f) (fun a x => set_graphicR_data (Some (set_gdataR_uri (get_att a "uri") x)))).
  apply l_gdata.
Qed.
Lemma l_inline : uL "inline" (u_inline D f).
Proof. unfold u_inline. dec ltac:(first [apply l_docpr | apply l_frame | apply l_graphic]). Qed.
Lemma l_anchor : uL "anchor" (u_anchor D f).
Proof.
  unfold u_anchor.
  dec ltac:(first [apply l_docpr | apply l_frame | apply l_graphic | apply l_wpos | apply l_extent | apply l_effect]).
Qed.
Lemma l_drawing : forall e, uL e (u_drawing D f).
Proof. intros. unfold u_drawing. dec ltac:(first [apply l_inline | apply l_anchor]). Qed.

Lemma pchildh_L : forall {A} e (u : list attr -> list token -> out A) c, uL e u -> hL e (pchildh u c).
Proof.
  intros A e u c Hu s q a c' v k E F S. unfold pchildh. pose proof (sub_L e u q a c' (v ++ TEof :: k) Hu E F) as G.
  destruct (sub (u a) _) as [[x st] ts']. destruct G as [->|[-> ->]]; [now left|]. right. eauto.
Qed.

Lemma alt_loop_L : forall rec : run -> string -> list attr -> list token -> out run, lL rec ->
  forall n s c q u k, Forall fit c -> led c -> snd q = "AlternateContent" -> strm u -> okl k (alt_loop n rec s (ftoks c ++ TEnd q :: u ++ TEof :: k)).
Proof.
  intros rec HR. induction n as [|n IH]; intros s c q u k F LD E S; [now left|]. destruct c as [|[q1 a1 c1|x|] c]; try contradiction.
  - cbn [ftoks flat_map app alt_loop]. rewrite E. cbn [String.eqb Ascii.eqb Bool.eqb]. right. eauto.
  - inversion F as [|? ? F1 F2]; subst. rewrite ftoks_cons, <- app_assoc, toks_elem. cbn [alt_loop led] in *. rewrite <- supported_get.
    destruct (supported q1 a1) eqn:S1.
    2: { destruct LD as [B|LD]; [discriminate|]. rewrite skip_forest. now apply IH. }
    assert (S2 : strm (ftoks c ++ TEnd q :: u)) by (apply strm_forest; auto; now constructor).
    inversion F1 as [q' a' c' V SO AC PO FC| |]; subst.
    destruct c1 as [|t1 c1]; [|inversion FC as [|? ? Ft Fc]; subst; destruct t1 as [q2 a2 c2|x|]].
    + cbn [ftoks flat_map app]. change (flat_map toks c) with (ftoks c). right. split; auto. exists (ftoks c ++ TEnd q :: u). split; auto. now rewrite <- app_assoc.
    + rewrite ftoks_cons, <- app_assoc, toks_elem.
      replace (ftoks c1 ++ TEnd q1 :: ftoks c ++ TEnd q :: u ++ TEof :: k) with ((ftoks c1 ++ TEnd q1 :: ftoks c ++ TEnd q :: u) ++ TEof :: k)
        by (repeat first [rewrite <- app_assoc | progress cbn [app]]; reflexivity).
      apply (HR (snd q2) s q2 a2 c2); auto. apply strm_forest; auto. now constructor.
    + rewrite ftoks_cons. cbn [toks app]. right. split; auto. exists (ftoks c1 ++ TEnd q1 :: ftoks c ++ TEnd q :: u).
      split; [repeat first [rewrite <- app_assoc | progress cbn [app]]; reflexivity|]. apply strm_forest; auto. now constructor.
    + rewrite ftoks_cons. cbn [toks app]. right. split; auto. exists (ftoks c1 ++ TEnd q1 :: ftoks c ++ TEnd q :: u).
      split; [repeat first [rewrite <- app_assoc | progress cbn [app]]; reflexivity|]. apply strm_forest; auto. now constructor.
Qed.

Lemma run_parse_L : forall n, lL (run_parse D f n).
Proof.
  induction n as [|n IH]; intros e; [intros s q a c u k _ _ _; now left|]. cbn [run_parse].
  match goal with |- hL e (fun s a ts => eswitch ?cs s e a ts) => refine (eswitch_L cs _ e) end.
  repeat (first [apply Forall_nil | apply Forall_cons]); cbn [fst snd].
  - apply childo_L, l_rpr.
  - intros s q a c u k E F S. unfold str. pose proof (str_n_L (Datatypes.S (size (ftoks c ++ TEnd q :: u ++ TEof :: k))) "" c q (u ++ TEof :: k)) as G.
    destruct (str_n _ "" _) as [[x st] ts]. destruct G as [->|(-> & -> & _)]; [now left|]. right. eauto.
  - apply pchildh_L, l_text.
  - apply pchildh_L, l_drawing.
  - apply flat_L.
  - apply pchildh_L, l_br.
  - intros s q a c u k E F S. inversion F as [q' a' c' V SO AC PO FC| |]; subst. apply alt_loop_L; auto.
Qed.

Lemma l_run : forall e s, uL e (u_run D f s).
Proof.
  intros e s. unfold u_run. apply attrs_loop_L; [atab|]. intros e1 s1 q a c u k E F S. eapply run_parse_L; eauto.
Qed.
End Knot.

Lemma l_link : forall D, (forall e f, uL e (d_para D f)) -> (forall e f, uL e (d_canvas D f)) -> (forall e f, uL e (d_group D f)) ->
  forall e, uL e (u_link D).
Proof. intros D DP DC DG e. unfold u_link. apply loopd_L. constructor; [|constructor]. cbn [fst snd]. apply childin_L. intros. now apply l_run. Qed.

Lemma l_paraR : forall D, (forall e f, uL e (d_para D f)) -> (forall e f, uL e (d_canvas D f)) -> (forall e f, uL e (d_group D f)) ->
  forall e f, uL e (u_paraR D f).
Proof.
  intros D DP DC DG e f q a c k E F. unfold u_paraR.
  match goal with |- context [loop ?h ?s ?ts] =>
    assert (G : oku k (loop h s ts)); [|destruct (loop h s ts) as [[s' st] ts']] end.
  { refine (loop_uL e _ _ _ q a c k E F). apply eswitch_L.
    repeat (first [apply Forall_nil | apply Forall_cons]); cbn [fst snd].
    - intros s1 q1 a1 c1 u1 k1 E1 F1 S1. cbv zeta.
      exact (child_L "hyperlink" (u_link D) (fun x s2 => (fst s2, snd s2 ++ [PLink (if String.eqb (get_att a1 "anchor") "" then get_att a1 "id" else get_att a1 "anchor") x]))
        (l_link D DP DC DG _) s1 q1 a1 c1 u1 k1 E1 F1 S1).
    - apply child_L. now apply l_run.
    - apply child_L, l_rpr.
    - apply child_L, l_ppr. }
  destruct G as [->|[-> ->]]; [now left|]. right. auto.
Qed.

Lemma tie_L : forall n e f, uL e (d_para (tie n) f) /\ uL e (d_canvas (tie n) f) /\ uL e (d_group (tie n) f).
Proof.
  induction n as [|n IH]; intros e f; [split; [|split]; intros q a c k _ _; now left|].
  assert (DP : forall e f, uL e (d_para (tie n) f)) by (intros; apply IH).
  assert (DC : forall e f, uL e (d_canvas (tie n) f)) by (intros; apply IH).
  assert (DG : forall e f, uL e (d_group (tie n) f)) by (intros; apply IH).
  cbn [tie d_para d_canvas d_group]. split; [|split].
  - now apply l_paraR.
  - apply (wrap_L e (u_canvasR (tie n) f) (fun _ x => Canvas x)). now apply l_canvasR.
  - apply (wrap_L e (u_groupR (tie n) f) (fun _ x => Group x)). now apply l_groupR.
Qed.
Lemma l_para : forall e f, uL e (u_para f).
Proof. intros e f q a c k E F. unfold u_para. eapply tie_L; eauto. Qed.

Lemma l_border : forall e, In e solid -> is_int_attr e "sz" = true -> is_int_attr e "space" = true -> uL e u_border.
Proof.
  intros e I B1 B2. unfold u_border. apply leafd_L; auto. repeat (first [apply Forall_nil | apply Forall_cons]); cbn [fst snd].
  - apply av_L.
  - now apply ane_ain_L.
  - now apply ane_ain_L.
  - apply av_L.
Qed.
Lemma l_borders : forall e, uL e u_borders. Proof. intros. unfold u_borders. dec ltac:(apply l_border; [issolid|reflexivity|reflexivity]). Qed.
Lemma l_tblpos : uL "tblpPr" u_tblpos. Proof. unfold u_tblpos. dec idtac. Qed.
Lemma l_tblstyle : uL "tblStyle" u_tblstyle. Proof. intros. unfold u_tblstyle. dec idtac. Qed.
Lemma l_tblw : uL "tblW" u_tblw. Proof. unfold u_tblw. dec idtac. Qed.
Lemma l_look : uL "tblLook" u_look. Proof. intros. unfold u_look. dec idtac. Qed.
Lemma l_tblpr : forall e, uL e u_tblpr.
Proof. intros. unfold u_tblpr. dec ltac:(first [apply l_tblpos | apply l_tblstyle | apply l_tblw | apply l_look | apply l_borders]). Qed.
Lemma l_gridcol : uL "gridCol" u_gridcol. Proof. unfold u_gridcol. dec idtac. Qed.
Lemma l_grid : forall e, uL e u_grid. Proof. intros. unfold u_grid. dec ltac:(apply l_gridcol). Qed.
Lemma l_trpr : forall e, uL e u_trpr. Proof. intros. unfold u_trpr. dec idtac. Qed.
Lemma l_tcpr : forall e, uL e u_tcpr.
Proof. intros. unfold u_tcpr. dec ltac:(first [apply l_borders | apply l_shade]); plain. Qed.
Lemma l_cell : forall e f, uL e (u_cell f). Proof. intros. unfold u_cell. dec ltac:(first [apply l_para | apply l_tcpr]). Qed.
Lemma l_row : forall e f, uL e (u_row f). Proof. intros. unfold u_row. dec ltac:(first [apply l_trpr | apply l_cell]). Qed.
Lemma l_table : forall e f, uL e (u_table f). Proof. intros. unfold u_table. dec ltac:(first [apply l_row | apply l_tblpr | apply l_grid]). Qed.
Lemma l_pgsz : uL "pgSz" u_pgsz. Proof. intros. unfold u_pgsz. dec idtac. Qed.
Lemma l_pgmar : uL "pgMar" u_pgmar. Proof. intros. unfold u_pgmar. dec idtac. Qed.
Lemma l_cols : uL "cols" u_cols. Proof. intros. unfold u_cols. dec idtac. Qed.
Lemma l_docgrid : uL "docGrid" u_docgrid. Proof. intros. unfold u_docgrid. dec idtac. Qed.
Lemma l_sect : forall e, uL e u_sect.
Proof. intros. unfold u_sect. dec ltac:(first [apply l_pgsz | apply l_pgmar | apply l_cols | apply l_docgrid]). Qed.
Lemma l_body : forall e f s, uL e (u_body f s).
Proof. intros. unfold u_body. dec ltac:(first [apply l_para | apply l_table | apply l_sect]). Qed.
Lemma l_document : forall e f, uL e (u_document f).
Proof. intros. unfold u_document. dec ltac:(apply l_body). Qed.

Lemma fit_tokens : forall f pre q a c rest, Forall misc pre -> fit (Elem q a c) -> snd (parse_document f (ftoks pre ++ toks (Elem q a c) ++ rest)) = SOk.
Proof.
  intros f pre q a c rest M F. pose proof (parse_document_fuel f (ftoks pre ++ toks (Elem q a c) ++ rest)) as NF. revert NF.
  unfold parse_document. rewrite root_misc by auto. rewrite check_tree, toks_elem. cbn [root].
  pose proof (sub_L (snd q) (u_document f) q a c (check [] rest) (l_document _ f) eq_refl F) as G.
  destruct (sub (u_document f a) _) as [[x st] ts]. cbn [snd]. destruct G as [->|[-> _]]; congruence.
Qed.
End Load.

Lemma fit_loads : forall (L : GoLib) f q a c s, begins_with (Elem q a c) s -> fit (Elem q a c) -> snd (parse_document f (lex s)) = SOk.
Proof. intros L f q a c s B F. apply begins_lex in B as (pre & rest & M & ->). now apply fit_tokens. Qed.
Lemma like_fit_loads : forall (L : GoLib) f pre t post q a c s, Forall misc pre -> Forall misc post ->
  list_spelling (pre ++ t :: post) s -> same_to_loader t (Elem q a c) -> fit (Elem q a c) -> snd (parse_document f (lex s)) = SOk.
Proof.
  intros L f pre t post q a c s MP MQ S ST F. rewrite (spelled_lex _ _ S). unfold ftoks. rewrite flat_map_app. cbn [flat_map].
  pose proof (parse_same_around L f pre post MP MQ _ _ ST) as K. unfold surrounded, ftoks in K. rewrite K. now apply (fit_tokens f pre).
Qed.
Lemma package_loads : forall (L : GoLib) z w, NoDup (map fst z) ->
  (forall o, In ("word/_rels/document.xml.rels", o) z -> exists s q a c, o = Some s /\ begins_with (Elem q a c) s /\
     forall q' a' c', In (Elem q' a' c') c -> snd q' = "Relationship" -> numbered a') ->
  (forall o, In ("word/document.xml", o) z -> exists s q a c, o = Some s /\ begins_with (Elem q a c) s /\ fit (Elem q a c)) ->
  (forall x o, In (("word/media/" ++ x)%string, o) z -> exists s, o = Some s /\ (ends_slash ("word/media/" ++ x) = true -> s = "")) ->
  exists w', parse z w = Ok w'.
Proof.
  intros L z w ND HR HM HX. destruct (parse z w) as [w'|e|] eqn:E; [eauto| |now apply parse_no_panic in E]. exfalso.
  destruct (proj1 (parse_fails z w ND) (ex_intro _ e E)) as ([n o] & I & R).
  assert (N : ~ ~ looked_at n) by (intros N; revert R; now apply other_accepted). apply N. intros [->|[->|[x ->]]].
  - destruct (HR o I) as (s & q & a & c & -> & B). destruct R as [err R]. destruct (proj2 (rels_exactly L s w)) as [w' K]; [eauto 6|].
    assert (X : Ok w' = Err err) by (transitivity (parse [(RELS_PART, Some s)] w); [symmetry; exact K|exact R]). discriminate.
  - destruct (HM o I) as (s & q & a & c & -> & B & F). apply main_refused in R. apply R. now apply (fit_loads L _ q a c).
  - destruct (HX x o I) as (s & -> & K). apply media_refused in R as [R|(s' & [= <-] & R & NE)]; [discriminate|]. auto.
Qed.
