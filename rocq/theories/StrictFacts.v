(** What a successful load has read: the whole root element, without a syntax
    error, provided that no number fails to read with an error starting with
    "expected". *)
From Coq Require Import String Ascii List Bool Arith NArith ZArith Lia.
From Verif Require Import GoStr Num Lib Types XmlTok Unmarshal DecLemmas SpecXml SpecStrict.
Import ListNotations.
Local Open Scope string_scope.
Local Open Scope list_scope.

(** no syntax error and no mark *)
Definition cleant (t : token) : Prop := match t with TErr | TEof => False | _ => True end.
Definition clean (c : list token) : Prop := Forall cleant c.

(** Streams in which marks stand only behind the end elements of enclosing
    elements; [K] lists the open elements, [true] for those with a mark. *)
Inductive wfm : list bool -> list token -> Prop :=
| w_nil : forall K, wfm K []
| w_start : forall K q a ts, wfm (false :: K) ts -> wfm K (TStart q a :: ts)
| w_end : forall K q ts, wfm K ts -> wfm (false :: K) (TEnd q :: ts)
| w_mark : forall K q ts, wfm K ts -> wfm (true :: K) (TEnd q :: TEof :: ts)
| w_chr : forall K s ts, wfm K ts -> wfm K (TChar s :: ts)
| w_misc : forall K ts, wfm K ts -> wfm K (TMisc :: ts)
| w_err : forall K ts, wfm K ts -> wfm K (TErr :: ts).

Definition fine (ts : list token) : Prop :=
  (exists K, wfm K ts) \/ (exists K r, ts = TEof :: r /\ wfm K r).


Lemma fine_app : forall c ts, clean c -> fine (c ++ ts) -> fine ts.
Proof.
  induction c as [|t c IH]; intros ts C F; [exact F|]. inversion C as [|t' c' Ct Cc]; subst. apply IH; auto.
  destruct F as [[K W]|[K [r [E W]]]].
  - cbn [app] in W. inversion W; subst; try (left; eexists; eassumption).
    right. eauto.
  - cbn [app] in E. injection E as -> _. contradiction.
Qed.

Lemma clean_app : forall a b, clean a -> clean b -> clean (a ++ b).
Proof. intros. apply Forall_app. auto. Qed.

(** the mark put behind the end of an element *)
Lemma push_wfm : forall ts d K, wfm (repeat false d ++ false :: K) ts -> wfm (repeat false d ++ true :: K) (push_from d ts).
Proof.
  induction ts as [|t ts IH]; intros d K W; [constructor|]. destruct t; cbn [push_from].
  - inversion W; subst. constructor. apply (IH (S d)). assumption.
  - destruct d; cbn [repeat app] in *; inversion W; subst; constructor; auto.
  - inversion W; subst. constructor. auto.
  - inversion W; subst. constructor. auto.
  - inversion W; subst. constructor. auto.
  - inversion W.
Qed.

(** ... is the first one a decoder of the element comes to *)
Lemma push_first : forall ts d K c r, wfm (repeat false d ++ false :: K) ts ->
  push_from d ts = c ++ TEof :: r -> clean c -> ts = c ++ r /\ skip_from d ts = (SOk, r).
Proof.
  induction ts as [|t ts IH]; intros d K c r W E C; [destruct c; discriminate|].
  destruct c as [|t' c]; [exfalso; destruct t; cbn [push_from app] in E; try discriminate; inversion W|].
  inversion C as [|? ? Ct Cc]; subst.
  destruct t; cbn [push_from app] in E; injection E as Et E; subst t'; cbn [skip_from app].
  - inversion W; subst. destruct (IH (S d) K c r) as [-> S]; auto.
  - destruct d; cbn [repeat app] in W.
    + destruct c as [|x c]; cbn [app] in E.
      * injection E as ->. auto.
      * injection E as <- _. inversion Cc; contradiction.
    + inversion W; subst. destruct (IH d K c r) as [-> S]; auto.
  - inversion W; subst. destruct (IH d K c r) as [-> S]; auto.
  - inversion W; subst. destruct (IH d K c r) as [-> S]; auto.
  - contradiction.
  - contradiction.
Qed.

Lemma skip_clean : forall ts d r, skip_from d ts = (SOk, r) -> exists c, ts = c ++ r /\ clean c.
Proof.
  induction ts as [|t ts IH]; intros d r E; cbn [skip_from] in E; [discriminate|].
  destruct t; try discriminate.
  - apply IH in E. destruct E as [c [-> C]]. eexists (_ :: c). split; [reflexivity|]. constructor; [exact I | exact C].
  - destruct d.
    + injection E as <-. eexists [_]. split; [reflexivity|]. constructor; [exact I | constructor].
    + apply IH in E. destruct E as [c [-> C]]. eexists (_ :: c). split; [reflexivity|]. constructor; [exact I | exact C].
  - apply IH in E. destruct E as [c [-> C]]. eexists (_ :: c). split; [reflexivity|]. constructor; [exact I | exact C].
  - apply IH in E. destruct E as [c [-> C]]. eexists (_ :: c). split; [reflexivity|]. constructor; [exact I | exact C].
Qed.
Lemma skip_from_exp : forall ts d r, skip_from d ts <> (SExp, r).
Proof. induction ts as [|t ts IH]; intros d r; cbn [skip_from]; [discriminate|]. destruct t; try discriminate; auto. destruct d; [discriminate | auto]. Qed.

Section Strict.
Context `{GoLib}.

Lemma numeric_app : forall a b, numeric (a ++ b) -> numeric b.
Proof. intros a b N q at' I. apply N. apply in_or_app. auto. Qed.
Lemma numeric_tl : forall t b, numeric (t :: b) -> numeric b.
Proof. intros t b N. apply (numeric_app [t]). exact N. Qed.
Lemma numeric_hd : forall q a b, numeric (TStart q a :: b) -> attrs_numeric (snd q) a.
Proof. intros q a b N. apply N. left. reflexivity. Qed.
Lemma push_in : forall ts d q a, In (TStart q a) (push_from d ts) -> In (TStart q a) ts.
Proof.
  induction ts as [|t ts IH]; intros d q a I; [exact I|]. destruct t; cbn [push_from In] in *;
   try (destruct I as [I|I]; [left; exact I | right; eapply IH; eauto]; fail).
  destruct I as [I|I]; [discriminate|]. destruct d; [destruct I as [I|I]; [discriminate | auto] | right; eapply IH; eauto].
Qed.
Lemma push_numeric : forall ts, numeric ts -> numeric (push_eof ts).
Proof. intros ts N q a I. apply N. eapply push_in; eauto. Qed.

(** a step that succeeds only after reading tokens without a syntax error, and
    does not fail with "expected" *)
Definition good {X} (ts : list token) (r : out X) : Prop :=
  let '(_, st, ts') := r in
  match st with SOk => exists c, ts = c ++ ts' /\ clean c | SExp => False | _ => True end.

Definition hS {X} (l : string) (h : hnd X) : Prop :=
  forall s a ts K, attrs_numeric l a -> numeric ts -> wfm (false :: K) ts -> good ts (h s a ts).
Definition uS {X} (l : string) (u : list attr -> list token -> out X) : Prop :=
  forall a ts K, attrs_numeric l a -> numeric ts -> wfm K ts -> good ts (u a ts).
Definition aS {X} (l k : string) (h : ahnd X) : Prop :=
  forall s v, (is_int_attr l k = true -> forall x, get_int v <> GExp x) -> snd (h s v) <> SExp.

(** handlers of the loop *)
Definition lS {X} (h : X -> string -> list attr -> list token -> out X) : Prop :=
  forall s l a ts K, attrs_numeric l a -> numeric ts -> wfm (false :: K) ts -> good ts (h s l a ts).

Lemma good_nil : forall {X} (s : X) ts, good ts (s, SOk, ts).
Proof. intros. exists []. split; [reflexivity | constructor]. Qed.
Lemma good_app : forall {X} c ts (r : out X), clean c -> good ts r -> good (c ++ ts) r.
Proof.
  intros X c ts [[x st] ts'] C G. destruct st; cbn in *; auto. destruct G as [c' [-> C']].
  exists (c ++ c'). rewrite app_assoc. split; [reflexivity | now apply clean_app].
Qed.
Lemma good_cons : forall {X} t ts (r : out X), cleant t -> good ts r -> good (t :: ts) r.
Proof. intros X t ts r C G. apply (good_app [t]); [constructor; [exact C | constructor] | exact G]. Qed.

Lemma skipping_S : forall {X} (s : X) ts, good ts (skipping s ts).
Proof.
  intros. unfold skipping, skip. destruct (skip_from 0 ts) as [st ts'] eqn:E. destruct st; cbn; auto.
  - eapply skip_clean; eauto.
  - eapply skip_from_exp; eauto.
Qed.

Lemma switch_S : forall {X} (cs : list (string * hnd X)) (d : hnd X) s l a ts K,
  Forall (fun c => hS (fst c) (snd c)) cs -> (forall s, good ts (d s a ts)) ->
  attrs_numeric l a -> numeric ts -> wfm (false :: K) ts -> good ts (switch cs d l s a ts).
Proof.
  induction cs as [|[k h] cs IH]; intros d s l a ts K F Hd A N W; cbn [switch]; [apply Hd|].
  inversion F; subst. destruct (String.eqb l k) eqn:E; [|eapply IH; eauto].
  apply String.eqb_eq in E. subst. eapply H2; eauto.
Qed.
Lemma eswitch_S : forall {X} (cs : list (string * hnd X)), Forall (fun c => hS (fst c) (snd c)) cs -> lS (eswitch cs).
Proof. intros X cs F s l a ts K A N W. unfold eswitch. eapply switch_S; eauto. intros. apply skipping_S. Qed.

Lemma loop_n_S : forall {X} (h : X -> string -> list attr -> list token -> out X), lS h ->
  forall n s ts, numeric ts -> fine ts -> good ts (loop_n n h s ts).
Proof.
  intros X h Hh. induction n as [|n IH]; intros s ts N F; [exact I|]. cbn [loop_n].
  destruct ts as [|t ts]; [exact I|]. assert (N' := numeric_tl _ _ N).
  assert (F' : cleant t -> fine ts). { intros Ct. apply (fine_app [t]); [constructor; [exact Ct | constructor] | exact F]. }
  destruct t; try exact I; try (apply good_cons; [exact I|]; apply IH; auto; apply F'; exact I).
  - destruct F as [[K W]|[K [r [E _]]]]; [|discriminate]. inversion W; subst.
    assert (G := Hh s (snd q) a ts K (numeric_hd _ _ _ N) N' H2).
    destruct (h s (snd q) a ts) as [[s' st] ts'] eqn:E. destruct st; try exact G.
    destruct G as [c [-> C]]. apply (good_app (TStart q a :: c)); [constructor; [exact I | exact C]|].
    apply IH; [eapply numeric_app; eauto|]. apply (fine_app c); auto. left. eauto.
  - apply good_nil.
Qed.
Lemma loop_S : forall {X} (h : X -> string -> list attr -> list token -> out X), lS h ->
  forall s ts, numeric ts -> fine ts -> good ts (loop h s ts).
Proof. intros. apply loop_n_S; auto. Qed.

(** an element decoded with success has been read exactly *)
Lemma sub_S : forall {X} (u : list token -> out X) ts K, numeric ts -> wfm (false :: K) ts ->
  (forall p, numeric p -> wfm (true :: K) p -> good p (u p)) ->
  let '(_, st, ts') := sub u ts in match st with SOk => skip ts = (SOk, ts') /\ (exists c, ts = c ++ ts' /\ clean c) | SExp => False | _ => True end.
Proof.
  intros X u ts K N W Hu. unfold sub.
  assert (G := Hu (push_eof ts) (push_numeric _ N) (push_wfm ts 0 K W)).
  destruct (u (push_eof ts)) as [[x st] ts'] eqn:E. destruct st; cbn in G.
  - destruct (pop_eof ts') as [r|] eqn:P; [|exact I].
    destruct ts' as [|t r']; [discriminate|]. destruct t; try discriminate. cbn [pop_eof] in P. injection P as ->.
    destruct G as [c [Ec C]]. destruct (push_first ts 0 K c r W Ec C) as [E1 E2]. split; [exact E2|]. eauto.
  - contradiction.
  - destruct (pop_eof ts'); exact I.
  - destruct (pop_eof ts'); exact I.
Qed.

Lemma decode_S : forall {X A} l (u : list attr -> list token -> out A) (set : A -> X -> X), uS l u ->
  forall s a ts K, attrs_numeric l a -> numeric ts -> wfm (false :: K) ts -> good ts (decode (u a) set s ts).
Proof.
  intros X A l u set Hu s a ts K An N W. unfold decode.
  assert (G := sub_S (u a) ts K N W (fun p Np Wp => Hu a p _ An Np Wp)).
  destruct (sub (u a) ts) as [[x st] ts']. destruct st; cbn in *; try contradiction; auto. apply G.
Qed.
Lemma child_S : forall {X A} l (u : list attr -> list token -> out A) (set : A -> X -> X), uS l u -> hS l (child u set).
Proof. intros X A l u set Hu s a ts K. intros. eapply decode_S; eauto. Qed.
Lemma childo_S : forall {X A} l (u : list attr -> list token -> out A) (set : option A -> X -> X), uS l u -> hS l (childo u set).
Proof. intros. apply child_S. assumption. Qed.
Lemma childin_S : forall {X A} l (u : A -> list attr -> list token -> out A) (get : X -> A) (set : A -> X -> X),
  (forall x, uS l (u x)) -> hS l (childin u get set).
Proof. intros X A l u get set Hu s a ts K An N W. unfold childin. eapply (decode_S l (u (get s))); eauto. Qed.
Lemma flat_S : forall {X} l (g : list attr -> X -> X), hS l (flat g).
Proof. intros X l g s a ts K _ _ _. apply good_nil. Qed.
Lemma fval_S : forall {X} l (g : option string -> X -> X), hS l (fval g).
Proof. intros. apply flat_S. Qed.
Lemma fset_S : forall {X} l (g : bool -> X -> X), hS l (fset g).
Proof. intros. apply flat_S. Qed.

Lemma get_att_numeric : forall l a n, attrs_numeric l a -> is_int_attr l n = true -> get_att a n <> "" -> forall x, get_int (get_att a n) <> GExp x.
Proof.
  intros l. induction a as [|[q v] a IH]; intros n A B E; cbn [get_att] in *; [congruence|].
  destruct (String.eqb (snd q) n) eqn:Q.
  - apply String.eqb_eq in Q. subst. apply (A q v); auto. left. reflexivity.
  - apply IH; auto. intros q' v' I. apply (A q' v'). right. exact I.
Qed.

Lemma fnum_S : forall {X} l n (g : option i64 -> X -> X), is_int_attr l n = true -> hS l (fnum n g).
Proof.
  intros X l n g B s a ts K A _ _. unfold fnum. destruct (String.eqb (get_att a n) "") eqn:E; [apply good_nil|].
  apply String.eqb_neq in E. assert (Q := get_att_numeric l a n A B E).
  destruct (get_int (get_att a n)) eqn:G; cbn; auto; [apply (good_nil tt) | exfalso; eapply Q; reflexivity].
Qed.

Lemma attrs_S : forall {X} l (cs : list (string * ahnd X)), Forall (fun c => aS l (fst c) (snd c)) cs ->
  forall a s, attrs_numeric l a -> snd (attrs (aswitch cs) s a) <> SExp.
Proof.
  intros X l cs F. induction a as [|[q v] a IH]; intros s A; cbn [attrs]; [discriminate|].
  assert (K : snd (aswitch cs s (snd q) v) <> SExp).
  { assert (V : is_int_attr l (snd q) = true -> forall x, get_int v <> GExp x) by (apply (A q v); left; reflexivity).
    unfold aswitch. clear IH A. generalize (snd q) V. intros k V'. clear V.
    induction cs as [|[n h] cs IHc]; cbn [switch]; [discriminate|]. inversion F; subst.
    destruct (String.eqb k n) eqn:E; auto. apply String.eqb_eq in E. subst. apply H2. exact V'. }
  destruct (aswitch cs s (snd q) v) as [s' st]. destruct st; cbn in *; try assumption.
  apply IH. intros q' v' I. apply (A q' v'). right. exact I.
Qed.

Lemma fattrs_S : forall {X Y} l (cs : list (string * ahnd Y)) (get : X -> Y) set,
  Forall (fun c => aS l (fst c) (snd c)) cs -> hS l (fattrs (aswitch cs) get set).
Proof.
  intros X Y l cs get set F s a ts K A _ _. unfold fattrs. pose proof (attrs_S l cs F a (get s) A) as Q.
  destruct (attrs (aswitch cs) (get s) a) as [y st]. destruct st; cbn in *; auto. apply (good_nil tt).
Qed.
Lemma fattrs_after_S : forall {X Y} l (cs : list (string * ahnd Y)) y0 (set : Y -> X -> X),
  Forall (fun c => aS l (fst c) (snd c)) cs -> hS l (fattrs_after (aswitch cs) y0 set).
Proof.
  intros X Y l cs y0 set F s a ts K A _ _. unfold fattrs_after. pose proof (attrs_S l cs F a y0 A) as Q.
  destruct (attrs (aswitch cs) y0 a) as [y st]. destruct st; cbn in *; auto. apply (good_nil tt).
Qed.
Lemma then_skip_S : forall {X} l (h : hnd X), hS l h -> hS l (then_skip h).
Proof.
  intros X l h Hh s a ts K A N W. unfold then_skip. specialize (Hh s a ts K A N W).
  destruct (h s a ts) as [[s' st] ts']. destruct st; cbn in *; auto. destruct Hh as [c [-> C]].
  apply good_app; auto. apply skipping_S.
Qed.
Lemma next_tok_S : forall ts, let '(st, ts') := next_tok ts in match st with SOk => exists c, ts = c ++ ts' /\ clean c | SExp => False | _ => True end.
Proof.
  destruct ts as [|t ts]; cbn; auto.
  destruct t; cbn; auto; (eexists [_]; split; [reflexivity|]; constructor; [exact I | constructor]).
Qed.
Lemma leafd_S : forall {X} l (cs : list (string * ahnd X)) s, Forall (fun c => aS l (fst c) (snd c)) cs -> uS l (leafd cs s).
Proof.
  intros X l cs s F a ts K A N W. unfold leafd, leaf. pose proof (attrs_S l cs F a s A) as Q.
  destruct (attrs (aswitch cs) s a) as [y st]. destruct st; cbn in *; auto.
  pose proof (next_tok_S ts) as T. destruct (next_tok ts). exact T.
Qed.
Lemma loopd_S : forall {X} l (cs : list (string * hnd X)) s, Forall (fun c => hS (fst c) (snd c)) cs -> uS l (loopd cs s).
Proof. intros X l cs s F a ts K A N W. unfold loopd. apply loop_S; auto. now apply eswitch_S. left. eauto. Qed.
Lemma nested_S : forall {X} l (ac : list (string * ahnd X)) (cs : list (string * hnd X)) s,
  Forall (fun c => aS l (fst c) (snd c)) ac -> Forall (fun c => hS (fst c) (snd c)) cs -> uS l (nested ac cs s).
Proof.
  intros X l ac cs s Fa F a ts K A N W. unfold nested, attrs_loop. pose proof (attrs_S l ac Fa a s A) as Q.
  destruct (attrs (aswitch ac) s a) as [y st]. destruct st; cbn in *; auto. apply loop_S; auto. now apply eswitch_S. left. eauto.
Qed.

Lemma av_S : forall {X} l k (set : string -> X -> X), aS l k (av set).
Proof. intros X l k set s v _. discriminate. Qed.
Lemma ai_S : forall {X} l k (set : i64 -> X -> X), is_int_attr l k = true -> aS l k (ai set).
Proof. intros X l k set B s v Hv. unfold ai. specialize (Hv B). destruct (get_int v) eqn:E; cbn; try discriminate. exfalso. eapply Hv; reflexivity. Qed.
Lemma ain_S : forall {X} l k (set : i64 -> X -> X), is_int_attr l k = true -> aS l k (ain set).
Proof. intros X l k set B s v Hv. unfold ain. specialize (Hv B). destruct (get_int v) eqn:E; cbn; try discriminate. exfalso. eapply Hv; reflexivity. Qed.
Lemma aig_S : forall {X} l k (set : i64 -> X -> X), aS l k (aig set).
Proof. intros X l k set s v _. discriminate. Qed.
Lemma aatoi_S : forall {X} l k (set : i64 -> X -> X), aS l k (aatoi set).
Proof. intros X l k set s v _. unfold aatoi. destruct (parse_int v); discriminate. Qed.
Lemma adig_S : forall {X} l k (set : i64 -> X -> X), aS l k (adig set).
Proof. intros X l k set s v _. unfold adig. destruct v; discriminate. Qed.
Lemma ane_S : forall {X} l k (h : ahnd X), aS l k h -> aS l k (ane h).
Proof. intros X l k h Hh s v Hv. unfold ane. destruct (String.eqb v ""); [discriminate | now apply Hh]. Qed.

Lemma str_n_S : forall n acc ts, good ts (str_n n acc ts).
Proof.
  induction n as [|n IH]; intros acc ts; [exact I|]. cbn [str_n]. destruct ts as [|t ts]; [exact I|].
  destruct t; try exact I.
  - unfold skip. destruct (skip_from 0 ts) as [st ts'] eqn:E. destruct st; try exact I.
    + apply skip_clean in E. destruct E as [c [-> C]]. apply good_cons; [exact I|]. apply good_app; auto.
    + cbn. eapply skip_from_exp; eauto.
  - apply good_cons; [exact I|]. apply good_nil.
  - apply good_cons; [exact I|]. apply IH.
  - apply good_cons; [exact I|]. apply IH.
Qed.
Lemma str_S : forall ts, good ts (str ts).
Proof. intros. apply str_n_S. Qed.

Lemma wrap_S : forall {A B} l (u : list attr -> list token -> out A) (c : list attr -> A -> B),
  uS l u -> uS l (fun a ts => let '(x, st, ts') := u a ts in (c a x, st, ts')).
Proof. intros A B l u c Hu a ts K A1 N W. specialize (Hu a ts K A1 N W). destruct (u a ts) as [[x st] ts']. exact Hu. Qed.
Lemma child_attr_S : forall {X A} l (u : list attr -> list token -> out A) (set : list attr -> A -> X -> X),
  uS l u -> hS l (fun s a ts => child u (set a) s a ts).
Proof. intros X A l u set Hu s a ts K A1 N W. now apply (child_S l u (set a) Hu s a ts K). Qed.

Ltac atab := repeat (first [apply Forall_nil | apply Forall_cons]); cbn [fst snd];
  repeat apply ane_S; first [apply av_S | apply aig_S | apply aatoi_S | apply adig_S | apply ai_S; reflexivity | apply ain_S; reflexivity].
Ltac hnd1 tac :=
  cbn [fst snd];
  first [ apply fset_S | apply fval_S | apply flat_S | apply fnum_S; reflexivity
        | apply fattrs_S; atab | apply fattrs_after_S; atab
        | apply then_skip_S; hnd1 tac
        | apply childo_S; tac | apply childin_S; intros; tac | apply child_S; tac | idtac ].
Ltac tab tac := repeat (first [apply Forall_nil | apply Forall_cons]); hnd1 tac.
Ltac dec tac := first [ solve [tac] | apply leafd_S; atab | apply loopd_S; tab tac | apply nested_S; [atab | tab tac] ].

Lemma s_rfonts : uS "rFonts" u_rfonts. Proof. unfold u_rfonts. dec idtac. Qed.
Lemma s_spacing : uS "spacing" u_spacing. Proof. unfold u_spacing. dec idtac. Qed.
Lemma s_ind : uS "ind" u_ind. Proof. unfold u_ind. dec idtac. Qed.
Lemma s_shade : uS "shd" u_shade. Proof. unfold u_shade. dec idtac. Qed.
Lemma s_rpr : uS "rPr" u_rpr.
Proof. unfold u_rpr. dec ltac:(first [apply s_rfonts | apply s_spacing | apply s_shade]). Qed.
Lemma s_tab : uS "tab" u_tab. Proof. unfold u_tab. dec idtac. Qed.
Lemma s_tabs : uS "tabs" u_tabs.
Proof.
  intros a ts K A N W. unfold u_tabs. apply loop_S; auto; [|left; eauto]. intros s l a' ts' K' A' N' W'.
  eapply (switch_S _ (flat (fun _ s => s))); eauto.
  - constructor; [|constructor]. apply child_S, s_tab.
  - intros. apply good_nil.
Qed.
Lemma s_ppr : uS "pPr" u_ppr.
Proof. unfold u_ppr. dec ltac:(first [apply s_tabs | apply s_spacing | apply s_ind | apply s_shade | apply s_rpr]). Qed.

Lemma text_loop_S : forall ts s, good ts (text_loop s ts).
Proof.
  induction ts as [|t ts IH]; intros s; cbn [text_loop]; [exact I|].
  destruct t; try exact I; try (apply good_cons; [exact I | apply IH]). apply good_nil.
Qed.
Lemma s_text : forall l, uS l u_text.
Proof. intros l a ts K _ _ _. apply text_loop_S. Qed.
Lemma s_br : forall l, uS l u_br.
Proof. intros l a ts K _ _ _. unfold u_br. pose proof (next_tok_S ts) as T. destruct (next_tok ts). exact T. Qed.

Lemma s_extent : uS "extent" u_extent. Proof. unfold u_extent. dec idtac. Qed.
Lemma s_effect : uS "effectExtent" u_effect. Proof. unfold u_effect. dec idtac. Qed.
Lemma s_docpr : uS "docPr" u_docpr. Proof. unfold u_docpr. dec idtac. Qed.
Lemma s_nonvis : uS "cNvPr" u_nonvis. Proof. unfold u_nonvis. dec idtac. Qed.

(** handlers written out by hand: no call of a decoder inside *)
Ltac plain := intros ? a ? ? A ? ?; cbv beta zeta;
  match goal with |- context [String.eqb (get_att a ?n) ""] =>
    destruct (String.eqb (get_att a n) "") eqn:E; [apply good_nil|]; apply String.eqb_neq in E;
    let Q := fresh in assert (Q := fun B => get_att_numeric _ a n A B E); specialize (Q eq_refl);
    destruct (get_int (get_att a n)); cbn; auto; [apply (good_nil tt) | exfalso; eapply Q; reflexivity] end.

Lemma s_frame : forall l, uS l u_frame. Proof. intros. unfold u_frame. dec idtac. plain. Qed.
Lemma s_cnvpicpr : forall l s, uS l (u_cnvpicpr s). Proof. intros. unfold u_cnvpicpr. dec idtac. Qed.
Lemma s_nvpic : forall l, uS l u_nvpic.
Proof. intros. unfold u_nvpic. dec ltac:(apply s_cnvpicpr). plain. Qed.
Lemma s_ablip : forall l s, uS l (u_ablip s). Proof. intros. unfold u_ablip. dec idtac. Qed.
Lemma s_stretch : forall l s, uS l (u_stretch s). Proof. intros. unfold u_stretch. dec idtac. Qed.
Lemma s_picblip : forall l, uS l u_picblip.
Proof. intros. unfold u_picblip. dec ltac:(first [apply s_ablip | apply s_stretch]). Qed.
Lemma s_xfrm : forall s, uS "xfrm" (u_xfrm s). Proof. intros. unfold u_xfrm. dec idtac. Qed.
Lemma s_geom : forall l, uS l u_geom. Proof. intros. unfold u_geom. dec idtac. Qed.
Lemma s_picsp : forall l, uS l u_picsp. Proof. intros. unfold u_picsp. dec ltac:(first [apply s_xfrm | apply s_geom]). Qed.
Lemma s_pic : forall l, uS l u_pic. Proof. intros. unfold u_pic. dec ltac:(first [apply s_nvpic | apply s_picblip | apply s_picsp]). Qed.
Lemma s_picx : forall l, uS l u_picx.
Proof. intros. unfold u_picx. apply (wrap_S l u_pic (fun a x => set_pic_xmlpic (get_att a "pic") x)). apply s_pic. Qed.
Lemma s_solid : forall l, uS l u_solid. Proof. intros. unfold u_solid. dec idtac. Qed.
Lemma s_lend : forall l, uS l u_lend. Proof. intros. unfold u_lend. dec idtac. Qed.
Lemma s_aline : uS "ln" u_aline. Proof. unfold u_aline. dec ltac:(first [apply s_solid | apply s_lend]). Qed.
Lemma s_tile : uS "tile" u_tile. Proof. unfold u_tile. dec idtac. Qed.
Lemma s_blipfill : uS "blipFill" u_blipfill. Proof. unfold u_blipfill. dec ltac:(first [apply s_ablip | apply s_tile]). Qed.
Lemma s_sppr : forall l, uS l u_sppr.
Proof. intros. unfold u_sppr. dec ltac:(first [apply s_xfrm | apply s_solid | apply s_blipfill | apply s_aline]). Qed.
Lemma s_cnvcn : forall l, uS l u_cnvcn. Proof. intros. unfold u_cnvcn. dec idtac. Qed.
Lemma s_splocks : uS "spLocks" u_splocks. Proof. unfold u_splocks. dec idtac. Qed.
Lemma s_cnvsp : uS "cNvSpPr" u_cnvsp. Proof. unfold u_cnvsp. dec ltac:(apply s_splocks). Qed.
Lemma s_bodypr : forall l, uS l u_bodypr. Proof. intros. unfold u_bodypr. dec idtac. Qed.
Lemma s_bg : forall l, uS l u_bg. Proof. intros. unfold u_bg. dec idtac. Qed.
Lemma s_whole : forall l, uS l u_whole. Proof. intros. unfold u_whole. dec ltac:(apply s_aline). Qed.
Lemma s_gcnv : forall l, uS l u_gcnv. Proof. intros. unfold u_gcnv. dec idtac. Qed.

Lemma xml_int_S : forall v ts, good ts (xml_int v ts).
Proof.
  intros. unfold xml_int. pose proof (str_S ts) as S. destruct (str ts) as [[s st] ts'].
  destruct st; cbn in S; try contradiction; try exact I.
  destruct (String.eqb s ""); [exact S|]. destruct (parse_int _); [exact S | exact I].
Qed.
Lemma s_wpos : forall l, uS l u_wpos.
Proof.
  intros l a ts K A N W. unfold u_wpos. apply loop_S; auto; [|left; eauto]. apply eswitch_S.
  constructor; [|constructor]. intros s1 a1 t1 K1 _ _ _. cbn [snd].
  pose proof (xml_int_S (wpos_off s1) t1) as X. destruct (xml_int (wpos_off s1) t1) as [[n st] t2].
  destruct st; cbn in X; try contradiction; try exact I. exact X.
Qed.

(** decoders through which the nesting is unbounded *)
Section Knot.
Variable D : decs.
Hypothesis DP : forall l f, uS l (d_para D f).
Hypothesis DC : forall l f, uS l (d_canvas D f).
Hypothesis DG : forall l f, uS l (d_group D f).
Variable f : option nat.

Lemma s_txcontent : forall l, uS l (u_txcontent D f). Proof. intros. unfold u_txcontent. dec ltac:(apply DP). Qed.
Lemma s_txbx : forall l, uS l (u_txbx D f). Proof. intros. unfold u_txbx. dec ltac:(apply s_txcontent). Qed.
Lemma s_shape : forall l, uS l (u_shape D f).
Proof.
  intros. unfold u_shape. apply (wrap_S l (u_shapeR D f) (fun _ x => Shape x)). unfold u_shapeR.
  dec ltac:(first [apply s_nonvis | apply s_cnvcn | apply s_cnvsp | apply s_sppr | apply s_txbx | apply s_bodypr]).
Qed.
Lemma s_canvasR : forall l, uS l (u_canvasR D f).
Proof. intros. unfold u_canvasR. dec ltac:(first [apply s_bg | apply s_whole | apply s_shape | apply s_picx | apply DG]). Qed.
Lemma s_gshape : forall l, uS l (u_gshape D f).
Proof. intros. unfold u_gshape. dec ltac:(first [apply s_nonvis | apply s_gcnv | apply s_sppr | apply s_pic | apply s_shape | apply DC]). Qed.
Lemma s_groupR : forall l, uS l (u_groupR D f).
Proof. intros. unfold u_groupR. dec ltac:(first [apply s_gshape | apply s_gcnv | apply s_sppr | apply s_pic | apply s_shape | apply DC]). Qed.
Lemma s_gdata : forall l, uS l (u_gdata D f).
Proof. intros. unfold u_gdata. dec ltac:(first [apply s_picx | apply s_shape | apply DC | apply DG]). Qed.
Lemma s_graphic : forall l, uS l (u_graphic D f).
Proof.
  intros. unfold u_graphic. apply nested_S; [atab|]. constructor; [|constructor]. cbn [fst snd].
  apply (child_attr_S "graphicData" (u_gdata D f) (fun a x => set_graphicR_data (Some (set_gdataR_uri (get_att a "uri") x)))).
  apply s_gdata.
Qed.
Lemma s_inline : uS "inline" (u_inline D f).
Proof. unfold u_inline. dec ltac:(first [apply s_docpr | apply s_frame | apply s_graphic]). Qed.
Lemma s_anchor : uS "anchor" (u_anchor D f).
Proof.
  unfold u_anchor.
  dec ltac:(first [apply s_docpr | apply s_frame | apply s_graphic | apply s_wpos | apply s_extent | apply s_effect]).
Qed.
Lemma s_drawing : forall l, uS l (u_drawing D f).
Proof. intros. unfold u_drawing. dec ltac:(first [apply s_inline | apply s_anchor]). Qed.

Lemma pchildh_S : forall {A} l (u : list attr -> list token -> out A) c, uS l u -> hS l (pchildh u c).
Proof.
  intros A l u c Hu s a ts K An N W. unfold pchildh.
  assert (G := sub_S (u a) ts K N W (fun p Np Wp => Hu a p _ An Np Wp)).
  destruct (sub (u a) ts) as [[x st] ts']. destruct st; try contradiction; try exact I. apply G.
Qed.

Lemma alt_loop_S : forall rec : run -> string -> list attr -> list token -> out run, lS rec ->
  forall n s ts, numeric ts -> fine ts -> good ts (alt_loop n rec s ts).
Proof.
  intros rec HR. induction n as [|n IH]; intros s ts N F; [exact I|]. cbn [alt_loop].
  assert (SK : forall ts', numeric ts' -> fine ts' ->
     good ts' (match skip ts' with (SOk, ts'') => alt_loop n rec s ts'' | (e, ts'') => (s, e, ts'') end)).
  { intros ts' N' F'. unfold skip. destruct (skip_from 0 ts') as [st ts''] eqn:E. destruct st; try exact I.
    - apply skip_clean in E. destruct E as [c [-> C]]. apply good_app; auto. apply IH; [eapply numeric_app; eauto | eapply fine_app; eauto].
    - cbn. eapply skip_from_exp; eauto. }
  destruct ts as [|t ts]; [exact I|]. assert (N' := numeric_tl _ _ N).
  assert (F' : cleant t -> fine ts). { intros Ct. apply (fine_app [t]); [constructor; [exact Ct | constructor] | exact F]. }
  destruct t; try exact I; try (apply good_nil); try (apply good_cons; [exact I|]; apply SK; auto; apply F'; exact I).
  - apply good_cons; [exact I|]. specialize (F' I). destruct (String.eqb (snd q) "Choice" && _)%bool; [|apply SK; auto].
    destruct ts as [|t2 ts]; [exact I|].
    destruct t2; try exact I; try (apply good_cons; [exact I|]; apply good_nil).
    apply good_cons; [exact I|]. destruct F' as [[K W]|[K [r [E _]]]]; [|discriminate]. inversion W; subst.
    eapply HR; eauto; [eapply numeric_hd; eauto | eapply numeric_tl; eauto].
  - apply good_cons; [exact I|]. destruct (String.eqb (snd q) "AlternateContent"); [apply good_nil | apply SK; auto]. apply F'; exact I.
Qed.

Lemma run_parse_S : forall n, lS (run_parse D f n).
Proof.
  induction n as [|n IH]; intros s l a ts K A N W; [exact I|]. cbn [run_parse].
  apply (eswitch_S _ ) with (K := K); auto.
  repeat (first [apply Forall_nil | apply Forall_cons]); cbn [fst snd].
  - apply childo_S, s_rpr.
  - intros s' a' ts' K' _ _ _. pose proof (str_S ts') as S. destruct (str ts') as [[x st] t2].
    destruct st; cbn in S; try contradiction; try exact I. exact S.
  - apply pchildh_S, s_text.
  - apply pchildh_S, s_drawing.
  - apply flat_S.
  - apply pchildh_S, s_br.
  - intros s' a' ts' K' A' N' W'. apply alt_loop_S; auto. left. eauto.
Qed.

Lemma s_run : forall l s, uS l (u_run D f s).
Proof.
  intros l s a ts K A N W. unfold u_run, attrs_loop.
  assert (Q : snd (attrs (aswitch [("space", av set_runR_space)]) s a) <> SExp).
  { apply (attrs_S l); auto. atab. }
  destruct (attrs (aswitch [("space", av set_runR_space)]) s a) as [y st]. cbn [snd] in Q. destruct st; try congruence; try exact I.
  apply loop_S; auto; [|left; eauto]. intros s1 l1 a1 ts1 K1 A1 N1 W1. eapply run_parse_S; eauto.
Qed.
End Knot.

Lemma s_link : forall D, (forall l f, uS l (d_para D f)) -> (forall l f, uS l (d_canvas D f)) -> (forall l f, uS l (d_group D f)) ->
  forall l, uS l (u_link D).
Proof. intros D DP DC DG l. unfold u_link. apply loopd_S. constructor; [|constructor]. cbn [fst snd]. apply childin_S. intros. now apply s_run. Qed.

Lemma s_paraR : forall D, (forall l f, uS l (d_para D f)) -> (forall l f, uS l (d_canvas D f)) -> (forall l f, uS l (d_group D f)) ->
  forall l f, uS l (u_paraR D f).
Proof.
  intros D DP DC DG l f a ts K A N W. unfold u_paraR.
  match goal with |- context [loop ?h ?s ts] =>
    assert (G : good ts (loop h s ts)); [|destruct (loop h s ts) as [[s' st] ts']] end.
  { apply loop_S; auto; [|left; eauto]. apply eswitch_S.
    repeat (first [apply Forall_nil | apply Forall_cons]); cbn [fst snd].
    - intros s1 a1 t1 K1 A1 N1 W1.
      apply (child_S "hyperlink" (u_link D) (fun x s2 => (fst s2, snd s2 ++ [PLink (if String.eqb (get_att a1 "anchor") "" then get_att a1 "id" else get_att a1 "anchor") x]))) with (K := K1); auto.
      now apply s_link.
    - apply child_S. now apply s_run.
    - apply child_S, s_rpr.
    - apply child_S, s_ppr. }
  destruct st; cbn in G; try contradiction; try exact I. exact G.
Qed.

Lemma tie_S : forall n l f, uS l (d_para (tie n) f) /\ uS l (d_canvas (tie n) f) /\ uS l (d_group (tie n) f).
Proof.
  induction n as [|n IH]; intros l f; [split; [|split]; intros a ts K _ _ _; exact I|].
  assert (DP : forall l f, uS l (d_para (tie n) f)) by (intros; apply IH).
  assert (DC : forall l f, uS l (d_canvas (tie n) f)) by (intros; apply IH).
  assert (DG : forall l f, uS l (d_group (tie n) f)) by (intros; apply IH).
  cbn [tie d_para d_canvas d_group]. split; [|split].
  - now apply s_paraR.
  - apply (wrap_S l (u_canvasR (tie n) f) (fun _ x => Canvas x)). now apply s_canvasR.
  - apply (wrap_S l (u_groupR (tie n) f) (fun _ x => Group x)). now apply s_groupR.
Qed.

Lemma s_para : forall l f, uS l (u_para f).
Proof. intros l f a ts K A N W. unfold u_para. eapply tie_S; eauto. Qed.

Lemma s_border : forall l, is_int_attr l "sz" = true -> is_int_attr l "space" = true -> uS l u_border.
Proof.
  intros l B1 B2. unfold u_border. apply leafd_S. repeat (first [apply Forall_nil | apply Forall_cons]); cbn [fst snd].
  - apply av_S.
  - now apply ane_S, ain_S.
  - now apply ane_S, ain_S.
  - apply av_S.
Qed.
Lemma s_borders : forall l, uS l u_borders. Proof. intros. unfold u_borders. dec ltac:(apply s_border; reflexivity). Qed.
Lemma s_tblpos : uS "tblpPr" u_tblpos. Proof. unfold u_tblpos. dec idtac. Qed.
Lemma s_tblstyle : forall l, uS l u_tblstyle. Proof. intros. unfold u_tblstyle. dec idtac. Qed.
Lemma s_tblw : uS "tblW" u_tblw. Proof. unfold u_tblw. dec idtac. Qed.
Lemma s_look : forall l, uS l u_look. Proof. intros. unfold u_look. dec idtac. Qed.
Lemma s_tblpr : forall l, uS l u_tblpr.
Proof. intros. unfold u_tblpr. dec ltac:(first [apply s_tblpos | apply s_tblstyle | apply s_tblw | apply s_look | apply s_borders]). Qed.
Lemma s_gridcol : uS "gridCol" u_gridcol. Proof. unfold u_gridcol. dec idtac. Qed.
Lemma s_grid : forall l, uS l u_grid. Proof. intros. unfold u_grid. dec ltac:(apply s_gridcol). Qed.
Lemma s_trpr : forall l, uS l u_trpr. Proof. intros. unfold u_trpr. dec idtac. Qed.
Lemma s_tcpr : forall l, uS l u_tcpr.
Proof. intros. unfold u_tcpr. dec ltac:(first [apply s_borders | apply s_shade]); plain. Qed.
Lemma s_cell : forall l f, uS l (u_cell f). Proof. intros. unfold u_cell. dec ltac:(first [apply s_para | apply s_tcpr]). Qed.
Lemma s_row : forall l f, uS l (u_row f). Proof. intros. unfold u_row. dec ltac:(first [apply s_trpr | apply s_cell]). Qed.
Lemma s_table : forall l f, uS l (u_table f). Proof. intros. unfold u_table. dec ltac:(first [apply s_row | apply s_tblpr | apply s_grid]). Qed.
Lemma s_pgsz : forall l, uS l u_pgsz. Proof. intros. unfold u_pgsz. dec idtac. Qed.
Lemma s_pgmar : forall l, uS l u_pgmar. Proof. intros. unfold u_pgmar. dec idtac. Qed.
Lemma s_cols : forall l, uS l u_cols. Proof. intros. unfold u_cols. dec idtac. Qed.
Lemma s_docgrid : forall l, uS l u_docgrid. Proof. intros. unfold u_docgrid. dec idtac. Qed.
Lemma s_sect : forall l, uS l u_sect.
Proof. intros. unfold u_sect. dec ltac:(first [apply s_pgsz | apply s_pgmar | apply s_cols | apply s_docgrid]). Qed.
Lemma s_body : forall l f s, uS l (u_body f s).
Proof. intros. unfold u_body. dec ltac:(first [apply s_para | apply s_table | apply s_sect]). Qed.
Lemma s_document : forall l f, uS l (u_document f).
Proof. intros. unfold u_document. dec ltac:(apply s_body). Qed.

End Strict.
