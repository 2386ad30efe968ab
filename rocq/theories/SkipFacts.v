(** What the loader does not look at makes no difference. *)
From Coq Require Import String Ascii List Bool Arith NArith ZArith Lia Relations.
From Verif Require Import GoStr Num Lib Types XmlTok Unmarshal DecLemmas DecFuel ChoiceFacts RoundTrip2 SpecSkip.
Import ListNotations.
Local Open Scope string_scope.
Local Open Scope list_scope.

Lemma mem_in : forall l ls, mem l ls = true <-> In l ls.
Proof.
  intros. unfold mem. rewrite existsb_exists. split.
  - intros [x [H1 H2]]. apply String.eqb_eq in H2. now subst.
  - intros. exists l. split; auto. apply String.eqb_refl.
Qed.
Lemma notin : forall l ls, mem l ls = false -> ~ In l ls.
Proof. intros l ls M I. apply mem_in in I. congruence. Qed.
Lemma notmem : forall l ls, ~ In l ls -> mem l ls = false.
Proof. intros l ls N. destruct (mem l ls) eqn:E; auto. apply mem_in in E. contradiction. Qed.

(** ** attributes *)

Definition same_attrs (l : string) (a a' : list attr) : Prop := seen (read_attrs l) a = seen (read_attrs l) a'.
Definition reads (l : string) (ns : list string) : bool := forallb (fun n => mem n (read_attrs l)) ns.

Fixpoint attrs2 {X} (f : X -> string -> string -> X * status) (s : X) (a : list (string * string)) : X * status :=
  match a with
  | [] => (s, SOk)
  | (n, v) :: a' => match f s n v with (s', SOk) => attrs2 f s' a' | (s', e) => (s', e) end
  end.
Lemma aswitch_other : forall {X} ns n (cs : list (string * ahnd X)) s v,
  mem n ns = false -> forallb (fun c => mem (fst c) ns) cs = true -> aswitch cs s n v = (s, SOk).
Proof.
  intros X ns n cs s v M F. unfold aswitch. induction cs as [|[m h] cs IH]; auto. cbn [forallb fst] in F. apply andb_prop in F.
  destruct F as [F1 F2]. cbn [switch]. destruct (String.eqb n m) eqn:E; auto. apply String.eqb_eq in E. congruence.
Qed.
Lemma attrs_seen : forall {X} ns (cs : list (string * ahnd X)), forallb (fun c => mem (fst c) ns) cs = true ->
  forall a s, attrs (aswitch cs) s a = attrs2 (aswitch cs) s (seen ns a).
Proof.
  intros X ns cs F. induction a as [|[q v] a IH]; intros s; auto. cbn [attrs]. unfold seen. cbn [filter fst snd].
  destruct (mem (snd q) ns) eqn:M.
  - cbn [map attrs2 fst snd]. destruct (aswitch cs s (snd q) v) as [s' []]; auto.
  - rewrite (aswitch_other ns) by auto. apply IH.
Qed.
Lemma reads_map : forall {X} l (cs : list (string * ahnd X)), reads l (map fst cs) = true ->
  forallb (fun c => mem (fst c) (read_attrs l)) cs = true.
Proof. intros X l cs. unfold reads. induction cs as [|c cs IH]; auto. cbn [map forallb]. intros F. apply andb_prop in F. destruct F. rewrite H. auto. Qed.
Lemma attrs_same : forall {X} l (cs : list (string * ahnd X)) a a' s, reads l (map fst cs) = true -> same_attrs l a a' ->
  attrs (aswitch cs) s a' = attrs (aswitch cs) s a.
Proof. intros X l cs a a' s F S. apply reads_map in F. rewrite !(attrs_seen _ _ F). now rewrite S. Qed.

Fixpoint get2 (a : list (string * string)) (n : string) : string :=
  match a with [] => "" | (m, v) :: a' => if String.eqb m n then v else get2 a' n end.
Lemma get_seen : forall ns n a, mem n ns = true -> get_att a n = get2 (seen ns a) n.
Proof.
  intros ns n a M. induction a as [|[q v] a IH]; auto. cbn [get_att]. unfold seen. cbn [filter fst snd].
  destruct (String.eqb (snd q) n) eqn:E.
  - apply String.eqb_eq in E. subst n. rewrite M. cbn [map get2 fst snd]. now rewrite String.eqb_refl.
  - destruct (mem (snd q) ns); [|apply IH]. cbn [map get2 fst snd]. rewrite E. apply IH.
Qed.
Lemma get_same : forall l n a a', mem n (read_attrs l) = true -> same_attrs l a a' -> get_att a' n = get_att a n.
Proof. intros l n a a' M S. rewrite !(get_seen _ _ _ M). now rewrite S. Qed.

(** ** two token streams that differ in what is not looked at *)

Definition hdE (ts : list token) : bool := match ts with TEof :: _ => true | _ => false end.

(** [k]: the local names of the open elements, the innermost first *)
Definition barred (k : list string) : bool := existsb (fun l => mem l opaque) k.
Definition top (k : list string) : string := hd "" k.
Definition at_top (l : string) (k : list string) : Prop := exists k0, k = l :: k0.
Definition inE (k : list string) : bool :=
  match k with [] => false | l :: _ => (negb (barred k) && negb (mem l solid))%bool end.
(** where text and comments may be put in *)
Definition inS (k : list string) : bool :=
  match k with [] => false | l :: k0 => (negb (mem l solid) && negb (barred k0))%bool end.
Definition shut (k : list string) : Prop := inE k = false /\ inS k = false.
(** elements of these names take no insertion *)
Definition inert (l : string) : bool := mem l solid.
Lemma inert_top : forall l k, inert l = true -> at_top l k -> shut k.
Proof.
  intros l k I [k0 ->]. unfold inert in I. unfold shut, inE, inS. rewrite I. split; [apply andb_false_r|reflexivity].
Qed.

Section B.
(** whether text and comments may be put in *)
Variable b : bool.
Definition inM (k : list string) : bool := (b && inS k && negb (String.eqb (top k) fragile))%bool.
Definition inT (k : list string) : bool := (inM k && negb (mem (top k) wordy))%bool.
Definition steady (k : list string) : bool := (negb b || negb (String.eqb (top k) fragile))%bool.

Inductive Rel : list string -> list token -> list token -> Prop :=
| Rnil : forall k, Rel k [] []
| Rstart : forall k q q' a a' ts ts', hdE ts = false -> snd q = snd q' -> same_attrs (snd q) a a' -> Rel (snd q :: k) ts ts' ->
    Rel k (TStart q a :: ts) (TStart q' a' :: ts')
| Rend : forall k q q' ts ts', snd q = snd q' -> top k = snd q -> Rel (tl k) ts ts' -> Rel k (TEnd q :: ts) (TEnd q' :: ts')
| Rchar : forall k s ts ts', hdE ts = false -> steady k = true -> Rel k ts ts' -> Rel k (TChar s :: ts) (TChar s :: ts')
| Rmisc : forall k ts ts', hdE ts = false -> steady k = true -> Rel k ts ts' -> Rel k (TMisc :: ts) (TMisc :: ts')
| Rerr : forall k ts ts', Rel k (TErr :: ts) (TErr :: ts')
| Reof : forall k ts ts', Rel k ts ts' -> Rel k (TEof :: ts) (TEof :: ts')
| Rins : forall k q a c ts ts', inE k = true -> mem (snd q) known = false -> hdE ts = false -> Rel k ts ts' ->
    Rel k ts (toks (Elem q a c) ++ ts')
| Rinm : forall k ts ts', inM k = true -> hdE ts = false -> Rel k ts ts' -> Rel k ts (TMisc :: ts')
| Rinc : forall k s ts ts', inT k = true -> hdE ts = false -> Rel k ts ts' -> Rel k ts (TChar s :: ts').

Lemma inM_S : forall k, inM k = true -> inS k = true.
Proof. unfold inM. intros. destruct (inS k); auto. rewrite andb_false_r in H. discriminate. Qed.
Lemma inT_M : forall k, inT k = true -> inM k = true.
Proof. unfold inT. intros. destruct (inM k); auto. Qed.
Lemma inT_S : forall k, inT k = true -> inS k = true.
Proof. intros. now apply inM_S, inT_M. Qed.

Lemma rel_hdE : forall k ts ts', Rel k ts ts' -> hdE ts' = hdE ts.
Proof. intros k ts ts' R. destruct R; auto. Qed.

Lemma hdE_push : forall ts d, hdE (push_from d ts) = hdE ts.
Proof. intros [|[] ts] d; reflexivity. Qed.

Lemma rel_push : forall k ts ts', Rel k ts ts' -> forall d, Rel k (push_from d ts) (push_from d ts').
Proof.
  intros k ts ts' R. induction R; intros d; try (cbn [push_from]; constructor; rewrite ?hdE_push; auto; fail).
  - cbn [push_from]. constructor; auto. destruct d; auto. now constructor.
  - rewrite push_from_tree. constructor; rewrite ?hdE_push; auto.
Qed.

Lemma rel_skip : forall k ts ts', Rel k ts ts' -> forall d,
  exists st r r', skip_from d ts = (st, r) /\ skip_from d ts' = (st, r') /\ (st = SOk \/ st = SExp -> Rel (skipn (S d) k) r r').
Proof.
  intros k ts ts' R. induction R; intros d; cbn [skip_from]; try (apply IHR); try (do 3 eexists; split; [reflexivity|split; [reflexivity|intros [?|?]; discriminate]]).
  - destruct d.
    + do 3 eexists; split; [reflexivity|split; [reflexivity|]]. intros _. destruct k; exact R.
    + destruct (IHR d) as (st & r & r' & E1 & E2 & K). exists st, r, r'. split; [auto|]. split; [auto|]. intros F.
      specialize (K F). destruct k; [destruct d|]; exact K.
  - rewrite skip_from_tree. apply IHR.
Qed.

(** ** readers that do the same on both *)

Definition rsim {X} (o o' : out X) : Prop :=
  let '(x, st, r) := o in let '(x', st', r') := o' in
  x = x' /\ st = st' /\ (st = SOk \/ st = SExp -> exists k, Rel k r r').

Definition hsim {X} (N N' : nat) (l : string) (h h' : hnd X) : Prop :=
  hgood N h /\ hgood N' h' /\
  forall s a a' k ts ts', Rel k ts ts' -> hdE ts = false -> at_top l k -> same_attrs l a a' -> size ts < N -> size ts' < N' ->
    rsim (h s a ts) (h' s a' ts').
Definition usim {X} (N N' : nat) (l : string) (u u' : list attr -> list token -> out X) : Prop :=
  ugood N u /\ ugood N' u' /\
  forall a a' k ts ts', Rel k ts ts' -> hdE ts = false -> at_top l k -> same_attrs l a a' -> size ts < N -> size ts' < N' ->
    rsim (u a (push_eof ts)) (u' a' (push_eof ts')).

Lemma rsim_same : forall {X} (x : X) st k ts ts', Rel k ts ts' -> rsim (x, st, ts) (x, st, ts').
Proof. intros. repeat split. eauto. Qed.

Lemma pop_sim : forall k r r', Rel k r r' ->
  (exists r1 r1', r = TEof :: r1 /\ r' = TEof :: r1' /\ Rel k r1 r1') \/ (pop_eof r = None /\ pop_eof r' = None).
Proof.
  intros k r r' R. pose proof (rel_hdE _ _ _ R) as E. destruct (hdE r) eqn:E2.
  - left. destruct r as [|[] r]; try discriminate. inversion R; subst; try discriminate. eauto.
  - right. destruct r as [|[] r], r' as [|[] r']; auto; discriminate.
Qed.

Lemma sub_sim : forall {X} N N' l (u u' : list attr -> list token -> out X), usim N N' l u u' ->
  forall a a' k ts ts', Rel k ts ts' -> hdE ts = false -> at_top l k -> same_attrs l a a' -> size ts < N -> size ts' < N' ->
  rsim (sub (u a) ts) (sub (u' a') ts').
Proof.
  intros X N N' l u u' (_ & _ & Hu) a a' k ts ts' R HD A SA L L'. specialize (Hu a a' k ts ts' R HD A SA L L').
  unfold sub. destruct (u a (push_eof ts)) as [[x st] r]. destruct (u' a' (push_eof ts')) as [[x' st'] r'].
  destruct Hu as (-> & <- & K). destruct st.
  - destruct (K (or_introl eq_refl)) as [k' Rk]. destruct (pop_sim _ _ _ Rk) as [(r1 & r1' & -> & -> & R1)|[-> ->]].
    + cbn [pop_eof]. eapply rsim_same; eauto.
    + eapply rsim_same; eauto.
  - destruct (K (or_intror eq_refl)) as [k' Rk]. destruct (pop_sim _ _ _ Rk) as [(r1 & r1' & -> & -> & R1)|[-> ->]].
    + cbn [pop_eof]. eapply rsim_same; eauto.
    + eapply rsim_same; eauto.
  - destruct (pop_eof r), (pop_eof r'); repeat split; intros [?|?]; discriminate.
  - destruct (pop_eof r), (pop_eof r'); repeat split; intros [?|?]; discriminate.
Qed.

Lemma decode_sim : forall {X A} N N' l (u u' : list attr -> list token -> out A) (set : A -> X -> X), usim N N' l u u' ->
  forall s a a' k ts ts', Rel k ts ts' -> hdE ts = false -> at_top l k -> same_attrs l a a' -> size ts < N -> size ts' < N' ->
  rsim (decode (u a) set s ts) (decode (u' a') set s ts').
Proof.
  intros X A N N' l u u' set Hu s a a' k ts ts' R HD AD SA L L'.
  pose proof (sub_sim _ _ _ _ _ Hu a a' k ts ts' R HD AD SA L L') as S. unfold decode.
  destruct (sub (u a) ts) as [[x st] r]. destruct (sub (u' a') ts') as [[x' st'] r'].
  destruct S as (-> & <- & K). destruct st; repeat split; intros; auto; destruct H; discriminate.
Qed.

Lemma child_sim : forall {X A} N N' l (u u' : list attr -> list token -> out A) (set : A -> X -> X),
  usim N N' l u u' -> hsim N N' l (child u set) (child u' set).
Proof.
  intros X A N N' l u u' set Hu. pose proof Hu as (G & G' & _). split; [now apply child_ok|]. split; [now apply child_ok|].
  intros. unfold child. eapply decode_sim; eauto.
Qed.
Lemma childo_sim : forall {X A} N N' l (u u' : list attr -> list token -> out A) (set : option A -> X -> X),
  usim N N' l u u' -> hsim N N' l (childo u set) (childo u' set).
Proof. intros. now apply child_sim. Qed.
Lemma childin_sim : forall {X A} N N' l (u u' : A -> list attr -> list token -> out A) (get : X -> A) (set : A -> X -> X),
  (forall x, usim N N' l (u x) (u' x)) -> hsim N N' l (childin u get set) (childin u' get set).
Proof.
  intros X A N N' l u u' get set Hu.
  split; [apply childin_ok; intros; apply Hu|]. split; [apply childin_ok; intros; apply Hu|].
  intros. unfold childin. eapply (decode_sim N N' l (u (get s)) (u' (get s))); eauto.
Qed.

Lemma flat_sim : forall {X} N N' l (g : list attr -> X -> X), (forall a a' s, same_attrs l a a' -> g a s = g a' s) ->
  hsim N N' l (flat g) (flat g).
Proof. intros. split; [apply flat_ok|]. split; [apply flat_ok|]. intros. unfold flat. rewrite (H a a') by auto. eapply rsim_same; eauto. Qed.
Lemma fval_sim : forall {X} N N' l (g : option string -> X -> X), reads l ["val"] = true -> hsim N N' l (fval g) (fval g).
Proof. intros X N N' l g R. apply flat_sim. intros. apply andb_prop in R. destruct R as [R _]. now rewrite (get_same l "val" a a' R H). Qed.
Lemma fset_sim : forall {X} N N' l (g : bool -> X -> X), hsim N N' l (fset g) (fset g).
Proof. intros. now apply flat_sim. Qed.
Lemma fnum_sim : forall `{GoLib} {X} N N' l n (g : option i64 -> X -> X), mem n (read_attrs l) = true -> hsim N N' l (fnum n g) (fnum n g).
Proof.
  intros. split; [apply fnum_ok|]. split; [apply fnum_ok|]. intros. unfold fnum. rewrite (get_same l n a a') by auto.
  destruct (String.eqb _ _); [|destruct (get_int _)]; eapply rsim_same; eauto.
Qed.
Lemma fattrs_sim : forall {X Y} N N' l (cs : list (string * ahnd Y)) (get : X -> Y) set, reads l (map fst cs) = true ->
  Forall (fun c => agood (snd c)) cs -> hsim N N' l (fattrs (aswitch cs) get set) (fattrs (aswitch cs) get set).
Proof.
  intros. split; [now apply fattrs_ok|]. split; [now apply fattrs_ok|]. intros. unfold fattrs. rewrite (attrs_same l cs a a') by auto.
  destruct (attrs _ _ _). eapply rsim_same; eauto.
Qed.
Lemma fattrs_after_sim : forall {X Y} N N' l (cs : list (string * ahnd Y)) y0 (set : Y -> X -> X), reads l (map fst cs) = true ->
  Forall (fun c => agood (snd c)) cs -> hsim N N' l (fattrs_after (aswitch cs) y0 set) (fattrs_after (aswitch cs) y0 set).
Proof.
  intros. split; [now apply fattrs_after_ok|]. split; [now apply fattrs_after_ok|]. intros. unfold fattrs_after. rewrite (attrs_same l cs a a') by auto.
  destruct (attrs _ _ _) as [y []]; eapply rsim_same; eauto.
Qed.

Lemma skipping_sim : forall {X} (s : X) k ts ts', Rel k ts ts' -> rsim (skipping s ts) (skipping s ts').
Proof.
  intros X s k ts ts' R. destruct (rel_skip _ _ _ R 0) as (st & r & r' & E & E' & K).
  unfold skipping, skip. rewrite E, E'. repeat split. eauto.
Qed.

Lemma then_skip_sim : forall {X} N N' l (h h' : hnd X), hsim N N' l h h' -> hsim N N' l (then_skip h) (then_skip h').
Proof.
  intros X N N' l h h' (G & G' & HS). split; [now apply then_skip_ok|]. split; [now apply then_skip_ok|].
  intros s a a' k ts ts' R HD A SA L L'. specialize (HS s a a' k ts ts' R HD A SA L L'). unfold then_skip.
  destruct (h s a ts) as [[x st] r]. destruct (h' s a' ts') as [[x' st'] r']. destruct HS as (-> & <- & K).
  destruct st; try (repeat split; assumption). destruct (K (or_introl eq_refl)) as [k' Rk]. eapply skipping_sim; eauto.
Qed.

(** ** the loops *)

Lemma unknown_skip : forall {X} (s : X) q c k,
  skipping s (ftoks c ++ TEnd q :: k) = (s, SOk, k).
Proof. intros. unfold skipping, skip. now rewrite skip_forest. Qed.

Lemma unknown_size : forall q a c k, size k < size (toks (Elem q a c) ++ k).
Proof. intros. rewrite toks_elem. pose proof (size_forest_end c q k). cbn [size]. lia. Qed.

Section Loop.
Context {X : Type}.
Variables h h' : X -> string -> list attr -> list token -> out X.
Variables N N' : nat.
Hypothesis HS : forall s l a a' k ts ts', Rel k ts ts' -> hdE ts = false -> at_top l k -> same_attrs l a a' -> size ts < N -> size ts' < N' ->
  rsim (h s l a ts) (h' s l a' ts').
Hypothesis HG : forall s l a ts, size ts < N -> okr ts (h s l a ts).
Hypothesis HG' : forall s l a ts, size ts < N' -> okr ts (h' s l a ts).
Hypothesis HU : forall s l a ts, mem l known = false -> h' s l a ts = skipping s ts.

Lemma loop_n_sim : forall n' n s k ts ts', Rel k ts ts' ->
  size ts < n -> size ts' < n' -> size ts <= N -> size ts' <= N' ->
  rsim (loop_n n h s ts) (loop_n n' h' s ts').
Proof.
  induction n' as [|n' IH]; intros n s k ts ts' R L L' LN LN'; [lia|].
  destruct n as [|n]; [lia|].
  inversion R; subst; clear R.
  - cbn. repeat split. intros [?|?]; discriminate.
  - match goal with K : Rel (snd _ :: _) _ _, E : snd _ = snd _, HD : hdE ?t = false, SA : same_attrs _ _ _ |- _ =>
      cbn [loop_n]; cbn [size] in *;
      pose proof (HS s (snd q) a a' _ ts0 ts'0 K HD (ex_intro _ k eq_refl) SA ltac:(lia) ltac:(lia)) as HS1; rewrite <- E end.
    specialize (HG s (snd q) a ts0 ltac:(lia)). specialize (HG' s (snd q) a' ts'0 ltac:(lia)).
    destruct (h s (snd q) a ts0) as [[x st] r]. destruct (h' s (snd q) a' ts'0) as [[x' st'] r'].
    destruct HS1 as (-> & <- & K). destruct HG, HG'. destruct st; try (repeat split; assumption).
    destruct (K (or_introl eq_refl)) as [k' Rk]. eapply IH; eauto; lia.
  - cbn [loop_n size] in *. eapply IH; eauto; lia.
  - cbn [loop_n size] in *. eapply IH; eauto; lia.
  - cbn [loop_n size] in *. eapply IH; eauto; lia.
  - cbn. repeat split. intros [?|?]; discriminate.
  - cbn. repeat split. intros. eexists. constructor. eassumption.
  - pose proof (unknown_size q a c ts'0). rewrite toks_elem at 1. 
    change (rsim (loop_n (S n) h s ts)
      (match h' s (snd q) a (ftoks c ++ TEnd q :: ts'0) with (s', SOk, ts'') => loop_n n' h' s' ts'' | r => r end)).
    rewrite HU by assumption. rewrite unknown_skip. eapply IH; eauto; lia.
  - cbn [size] in *. change (rsim (loop_n (S n) h s ts) (loop_n n' h' s ts'0)). eapply IH; eauto; lia.
  - cbn [size] in *. change (rsim (loop_n (S n) h s ts) (loop_n n' h' s ts'0)). eapply IH; eauto; lia.
Qed.

Lemma loop_sim : forall s k ts ts', Rel k ts ts' -> size ts <= N -> size ts' <= N' ->
  rsim (loop h s ts) (loop h' s ts').
Proof. intros. unfold loop. eapply loop_n_sim; eauto. Qed.
End Loop.

(** tables of handlers *)
Definition tsim {X} (N N' : nat) (cs cs' : list (string * hnd X)) : Prop :=
  Forall2 (fun p p' => fst p = fst p' /\ hsim N N' (fst p) (snd p) (snd p')) cs cs' /\
  forallb (fun p => mem (fst p) known) cs' = true.

Lemma switch_sim : forall {A} (P : string -> A -> A -> Prop) d d' l cs cs',
  Forall2 (fun p p' => fst p = fst p' /\ P (fst p) (snd p) (snd p')) cs cs' -> P l d d' ->
  P l (switch cs d l) (switch cs' d' l).
Proof.
  intros A P d d' l cs cs' F Hd. induction F as [|[n x] [n' x'] cs cs' [E H] F IH]; simpl in *; auto.
  subst n'. destruct (String.eqb l n) eqn:E; auto. apply String.eqb_eq in E. now subst.
Qed.

Lemma switch_unknown : forall {A} l (cs : list (string * A)) d,
  mem l known = false -> forallb (fun p => mem (fst p) known) cs = true -> switch cs d l = d.
Proof.
  induction cs as [|[n x] cs IH]; intros d U F; simpl in *; auto. apply andb_prop in F. destruct F as [F1 F2].
  destruct (String.eqb l n) eqn:E; auto. apply String.eqb_eq in E. subst. congruence.
Qed.

Lemma eswitch_sim : forall {X} N N' (cs cs' : list (string * hnd X)), tsim N N' cs cs' ->
  forall s l a a' k ts ts', Rel k ts ts' -> hdE ts = false -> at_top l k -> same_attrs l a a' -> size ts < N -> size ts' < N' ->
  rsim (eswitch cs s l a ts) (eswitch cs' s l a' ts').
Proof.
  intros X N N' cs cs' [F _] s l a a' k ts ts' R HD A SA L L'. unfold eswitch.
  revert A SA.
  apply (switch_sim (fun l (f f' : hnd X) => at_top l k -> same_attrs l a a' -> rsim (f s a ts) (f' s a' ts'))).
  - clear -F R HD L L'. induction F as [|p p' cs cs' [E (_ & _ & K)] F IH]; constructor; auto.
    split; auto. intros A SA. eapply K; eauto.
  - intros _ _. eapply skipping_sim; eauto.
Qed.

Lemma tsim_good : forall {X} N N' (cs cs' : list (string * hnd X)), tsim N N' cs cs' ->
  Forall (fun c => hgood N (snd c)) cs /\ Forall (fun c => hgood N' (snd c)) cs'.
Proof.
  intros X N N' cs cs' [F _]. induction F as [|p p' cs cs' (_ & G & G' & _) F IH]; [split; constructor|].
  destruct IH. split; constructor; auto.
Qed.

Lemma loop_tab : forall {X} N N' (cs cs' : list (string * hnd X)), tsim N N' cs cs' ->
  forall s k ts ts', Rel k ts ts' -> size ts <= N -> size ts' <= N' ->
  rsim (loop (eswitch cs) s ts) (loop (eswitch cs') s ts').
Proof.
  intros X N N' cs cs' T s k ts ts' R L L'. destruct (tsim_good _ _ _ _ T) as [G G'].
  eapply (loop_sim _ _ N N'); eauto.
  - intros. eapply eswitch_sim; eauto.
  - intros. apply (eswitch_ok N); auto.
  - intros. apply (eswitch_ok N'); auto.
  - intros. unfold eswitch. rewrite switch_unknown; auto. apply T.
Qed.

Lemma rel_push_eof : forall k ts ts', Rel k ts ts' -> Rel k (push_eof ts) (push_eof ts').
Proof. intros. now apply rel_push. Qed.

Lemma loopd_sim : forall {X} N N' l (cs cs' : list (string * hnd X)) s, tsim N N' cs cs' -> usim N N' l (loopd cs s) (loopd cs' s).
Proof.
  intros X N N' l cs cs' s T. destruct (tsim_good _ _ _ _ T) as [G G'].
  split; [now apply loopd_ok|]. split; [now apply loopd_ok|]. intros a a' k ts ts' R HD A SA L L'. unfold loopd.
  apply (loop_tab N N' _ _ T s k); [now apply rel_push_eof| |]; rewrite push_eof_size; lia.
Qed.

Lemma nested_sim : forall {X} N N' l (ac : list (string * ahnd X)) (cs cs' : list (string * hnd X)) s, reads l (map fst ac) = true ->
  Forall (fun c => agood (snd c)) ac -> tsim N N' cs cs' -> usim N N' l (nested ac cs s) (nested ac cs' s).
Proof.
  intros X N N' l ac cs cs' s RA FA T. destruct (tsim_good _ _ _ _ T) as [G G'].
  split; [now apply nested_ok|]. split; [now apply nested_ok|]. intros a a' k ts ts' R HD A SA L L'. unfold nested, attrs_loop.
  rewrite (attrs_same l ac a a') by auto.
  apply rel_push_eof in R. destruct (attrs (aswitch ac) s a) as [y []]; try (eapply rsim_same; eauto; fail).
  apply (loop_tab N N' _ _ T y k); [assumption| |]; rewrite push_eof_size; lia.
Qed.

Lemma rel_next : forall k ts ts', Rel k ts ts' -> shut k ->
  exists st r r', next_tok ts = (st, r) /\ next_tok ts' = (st, r') /\ (st = SOk -> exists k', Rel k' r r').
Proof.
  intros k ts ts' R [T T2]. inversion R; subst;
    try match goal with K : inM _ = true |- _ => apply inM_S in K | K : inT _ = true |- _ => apply inT_S in K end; try congruence; cbn;
    (do 3 eexists; split; [reflexivity|split; [reflexivity|]]); intros; try discriminate; eauto.
Qed.

Lemma next_sim : forall {X} (x : X) k ts ts', Rel k ts ts' -> shut k ->
  rsim (let '(st, r) := next_tok ts in (x, st, r)) (let '(st, r) := next_tok ts' in (x, st, r)).
Proof.
  intros X x k ts ts' R T. destruct (rel_next _ _ _ R T) as (st & r & r' & E & E' & K). rewrite E, E'.
  repeat split. intros [->| ->]; auto. destruct ts as [|[] ts]; discriminate.
Qed.

Lemma leafd_sim : forall {X} N N' l (cs : list (string * ahnd X)) s, (inert l && reads l (map fst cs))%bool = true ->
  Forall (fun c => agood (snd c)) cs -> usim N N' l (leafd cs s) (leafd cs s).
Proof.
  intros X N N' l cs s RI F. apply andb_prop in RI. destruct RI as [RI RA]. split; [now apply leafd_ok|]. split; [now apply leafd_ok|].
  intros a a' k ts ts' R HD A SA L L'. unfold leafd, leaf. apply rel_push_eof in R. rewrite (attrs_same l cs a a') by auto.
  destruct (attrs (aswitch cs) s a) as [y []]; try (eapply rsim_same; eauto; fail). eapply next_sim; eauto. eapply inert_top; eauto.
Qed.

Lemma wrap_sim : forall {A B} N N' l (u u' : list attr -> list token -> out A) (w : list attr -> A -> B),
  (forall a a' x, same_attrs l a a' -> w a x = w a' x) ->
  usim N N' l u u' -> usim N N' l (fun a ts => let '(x, st, ts') := u a ts in (w a x, st, ts'))
                                (fun a ts => let '(x, st, ts') := u' a ts in (w a x, st, ts')).
Proof.
  intros A B N N' l u u' w W (G & G' & K). split; [now apply wrap_ok|]. split; [now apply wrap_ok|].
  intros a a' k ts ts' R HD AD SA L L'. specialize (K a a' k ts ts' R HD AD SA L L').
  destruct (u a (push_eof ts)) as [[x st] r]. destruct (u' a' (push_eof ts')) as [[x' st'] r'].
  destruct K as (-> & <- & K). rewrite (W a a') by auto. repeat split. assumption.
Qed.

Lemma child_attr_sim : forall {X A} N N' l (u u' : list attr -> list token -> out A) (set : list attr -> A -> X -> X),
  (forall a a', same_attrs l a a' -> set a = set a') ->
  usim N N' l u u' -> hsim N N' l (fun s a ts => child u (set a) s a ts) (fun s a ts => child u' (set a) s a ts).
Proof.
  intros X A N N' l u u' set W Hu. pose proof Hu as (G & G' & _).
  split; [now apply child_attr_ok|]. split; [now apply child_attr_ok|].
  intros. unfold child. rewrite (W a a') by auto. eapply decode_sim; eauto.
Qed.

(** ** elements all of whose content counts *)

(** [c]: whether text may be put in *)
Inductive agree (c : bool) : list string -> list token -> list token -> Prop :=
| ag_nil : forall k, agree c k [] []
| ag_err : forall k r r', agree c k (TErr :: r) (TErr :: r')
| ag_eof : forall k r r', Rel k r r' -> agree c k (TEof :: r) (TEof :: r')
| ag_start : forall k q q' a a' ts ts', hdE ts = false -> snd q = snd q' -> same_attrs (snd q) a a' -> agree c (snd q :: k) ts ts' ->
    agree c k (TStart q a :: ts) (TStart q' a' :: ts')
| ag_end : forall k q q' ts ts', snd q = snd q' -> top k = snd q -> agree c (tl k) ts ts' -> agree c k (TEnd q :: ts) (TEnd q' :: ts')
| ag_char : forall k s ts ts', hdE ts = false -> steady k = true -> agree c k ts ts' -> agree c k (TChar s :: ts) (TChar s :: ts')
| ag_misc : forall k ts ts', hdE ts = false -> steady k = true -> agree c k ts ts' -> agree c k (TMisc :: ts) (TMisc :: ts')
| ag_inm : forall k ts ts', inM k = true -> hdE ts = false -> agree c k ts ts' -> agree c k ts (TMisc :: ts')
| ag_inc : forall k s ts ts', c = true -> inT k = true -> hdE ts = false -> agree c k ts ts' -> agree c k ts (TChar s :: ts').

Lemma agree_rel : forall c k ts ts', agree c k ts ts' -> Rel k ts ts'.
Proof. intros c k ts ts' A. induction A; constructor; auto. Qed.

Lemma agree_push : forall c k ts ts', agree c k ts ts' -> forall d, agree c k (push_from d ts) (push_from d ts').
Proof.
  intros c k ts ts' A. induction A; intros d; cbn [push_from]; try (constructor; rewrite ?hdE_push; auto; fail).
  - constructor. now apply rel_push.
  - constructor; auto. destruct d; auto. constructor. eapply agree_rel; eauto.
Qed.

Lemma barred_app : forall k1 l k0, mem l opaque = true -> barred (k1 ++ l :: k0) = true.
Proof. intros k1 l k0 M. unfold barred. rewrite existsb_app. cbn [existsb]. rewrite M. apply orb_true_r. Qed.
Lemma inE_app : forall k1 l k0, mem l opaque = true -> inE (k1 ++ l :: k0) = false.
Proof. intros k1 l k0 M. pose proof (barred_app k1 l k0 M) as B. unfold inE. destruct (k1 ++ l :: k0); auto. rewrite B. reflexivity. Qed.
Lemma inT_app : forall k1 l k0, mem l opaque = true -> inT (k1 ++ l :: k0) = true -> negb (String.eqb l "t") = true.
Proof.
  intros [|x k1] l k0 M I.
  - unfold inT in I. cbn [app top hd] in I. destruct (String.eqb_spec l "t") as [->|]; [|reflexivity]. cbn in I. rewrite andb_false_r in I. discriminate.
  - apply inT_S in I. unfold inS in I. cbn [app] in I. rewrite (barred_app k1 l k0 M), andb_false_r in I. discriminate.
Qed.

Lemma barrier_agree : forall k ts ts', Rel k ts ts' -> forall d k1 l k0, k = k1 ++ l :: k0 -> List.length k1 = d -> mem l opaque = true ->
  agree (negb (String.eqb l "t")) k (push_from d ts) (push_from d ts').
Proof.
  intros k ts ts' R. induction R; intros d k1 l k0 E LE M; cbn [push_from];
    try (constructor; rewrite ?hdE_push; eauto; fail).
  - constructor; rewrite ?hdE_push; auto. apply (IHR (S d) (snd q :: k1) l k0); auto. subst k. reflexivity. cbn. auto.
  - constructor; auto. subst d. destruct k1 as [|x k1]; cbn [List.length].
    + constructor. auto.
    + subst k. cbn [tl app]. cbn [tl app] in IHR. eapply IHR; eauto.
  - constructor. now apply rel_push.
  - subst k. rewrite inE_app in *; [discriminate|assumption].
  - constructor; rewrite ?hdE_push; eauto. subst k. eapply inT_app; eauto.
Qed.

Lemma barrier_push : forall l k ts ts', Rel k ts ts' -> at_top l k -> mem l opaque = true ->
  agree (negb (String.eqb l "t")) k (push_eof ts) (push_eof ts').
Proof. intros l k ts ts' R [k0 ->] T. eapply (barrier_agree _ _ _ R 0 [] l k0); auto. Qed.

Lemma text_loop_sim : forall k ts ts', agree false k ts ts' -> forall s, rsim (text_loop s ts) (text_loop s ts').
Proof.
  intros k ts ts' A. induction A; intros t; cbn [text_loop]; auto; try (repeat split; intros [?|?]; discriminate); try discriminate.
  eapply rsim_same. constructor. eassumption.
Qed.

Lemma s_text : forall N N', usim N N' "t" u_text u_text.
Proof.
  intros. split; [apply g_text|]. split; [apply g_text|]. intros a a' k ts ts' R HD A SA L L'.
  unfold u_text. rewrite (attrs_same "t" _ a a') by auto. eapply text_loop_sim. apply (barrier_push "t"); eauto.
Qed.

Lemma s_br : forall N N', usim N N' "br" u_br u_br.
Proof.
  intros. split; [apply g_br|]. split; [apply g_br|]. intros a a' k ts ts' R HD A SA L L'.
  unfold u_br. rewrite (get_same "br" "type" a a') by auto. apply next_sim with (k := k); [now apply rel_push_eof|]. now apply (inert_top "br").
Qed.

Section Sim.
Context `{GoLib}.

Definition asim {X} (o o' : out X) : Prop :=
  let '(x, st, r) := o in let '(x', st', r') := o' in
  x = x' /\ st = st' /\ (st = SOk \/ st = SExp -> exists k, agree true k r r').

Lemma pop_none : forall ts d, hdE ts = false -> pop_eof (push_from d ts) = None.
Proof. intros [|[] ts] d E; try reflexivity; discriminate. Qed.

Lemma tab_agree : forall (s : list tab) a a' k ts ts', agree true k ts ts' -> at_top "tab" k -> hdE ts = false -> same_attrs "tab" a a' ->
  asim (child u_tab (fun x s => s ++ [x]) s a ts) (child u_tab (fun x s => s ++ [x]) s a' ts').
Proof.
  intros s a a' k ts ts' A AT HD SA. pose proof (rel_hdE _ _ _ (agree_rel _ _ _ _ A)) as HD'. rewrite HD in HD'.
  unfold child, decode, sub, u_tab, leafd, leaf, push_eof. rewrite (attrs_same "tab" _ a a') by auto. destruct (attrs _ _ a) as [y []].
  - assert (NI : inS k = false) by (now apply (inert_top "tab")).
    inversion A; subst; try (match goal with K : inM _ = true |- _ => apply inM_S in K | K : inT _ = true |- _ => apply inT_S in K end; congruence); cbn [push_from next_tok pop_eof]; cbn [hdE] in *; try discriminate; try (repeat split; intros [?|?]; discriminate);
      try (rewrite !pop_none; [repeat split; intros [?|?]; discriminate| |];
           try assumption; match goal with K : agree _ _ _ ?t |- hdE ?t = false => rewrite (rel_hdE _ _ _ (agree_rel _ _ _ _ K)); assumption end).
    repeat split. eauto.
  - rewrite !pop_none by assumption. repeat split. intros _. exists k. now apply agree_push.
  - rewrite !pop_none by assumption. repeat split. intros [?|?]; discriminate.
  - rewrite !pop_none by assumption. repeat split. intros [?|?]; discriminate.
Qed.

Lemma s_tabs : forall N N', usim N N' "tabs" u_tabs u_tabs.
Proof.
  intros. split; [apply g_tabs|]. split; [apply g_tabs|]. intros a a' k ts ts' R HD A SA L L'.
  pose proof (barrier_push "tabs" _ _ _ R A eq_refl) as AG. cbn in AG. revert AG. generalize (push_eof ts) (push_eof ts'). clear.
  intros ts ts' A. unfold u_tabs, loop.
  match goal with |- rsim (loop_n _ ?g _ _) _ => set (h := g) end.
  assert (HG : forall s l a ts, okr ts (h s l a ts)).
  { intros s l a0 t. unfold h. apply (switch_P (fun h : hnd (list tab) => okr t (h s a0 t))).
    - constructor; [|constructor]. apply (child_ok (S (size t))); [apply g_tab | lia].
    - apply (flat_ok (S (size t))). lia. }
  assert (HA : forall s l a a' k t t', agree true k t t' -> at_top l k -> hdE t = false -> same_attrs l a a' -> asim (h s l a t) (h s l a' t')).
  { intros s l a0 a0' k0 t t' A0 AT HD SA. unfold h. cbn [switch]. destruct (String.eqb l "tab") eqn:E.
    - apply String.eqb_eq in E. subst l. eapply tab_agree; eauto.
    - unfold flat. repeat split. eauto. }
  clearbody h.
  enough (G : forall n' n s k ts ts', agree true k ts ts' -> size ts < n -> size ts' < n' -> rsim (loop_n n h s ts) (loop_n n' h s ts')).
  { eapply G; eauto. }
  clear - HG HA. induction n' as [|n' IH]; intros n s k ts ts' A L L'; [lia|]. destruct n as [|n]; [lia|].
  inversion A; subst; clear A; cbn [loop_n size] in *; try (repeat split; intros [?|?]; discriminate);
    try (eapply IH; eauto; lia);
    try (match goal with |- rsim _ (loop_n n' h ?s0 ?t0) => change (rsim (loop_n (S n) h s ts) (loop_n n' h s0 t0)) end; eapply IH; eauto; lia).
  - eapply rsim_same. constructor. eassumption.
  - match goal with E : snd q = snd q' |- _ => rewrite <- E end.
    pose proof (HG s (snd q) a ts0) as G. pose proof (HG s (snd q) a' ts'0) as G'.
    specialize (HA s (snd q) a a' _ ts0 ts'0 ltac:(eassumption) (ex_intro _ k eq_refl) ltac:(assumption) ltac:(assumption)).
    destruct (h s (snd q) a ts0) as [[x st] r]. destruct (h s (snd q) a' ts'0) as [[x' st'] r'].
    destruct HA as (-> & <- & K). destruct G, G'. destruct st.
    + destruct (K (or_introl eq_refl)) as [k' Rk]. eapply IH; eauto; lia.
    + destruct (K (or_intror eq_refl)) as [k' Rk]. eapply rsim_same. now apply agree_rel in Rk; eassumption.
    + repeat split. intros [?|?]; discriminate.
    + repeat split. intros [?|?]; discriminate.
Qed.

Ltac atab := repeat (first [apply Forall_nil | apply Forall_cons]); cbn [snd];
  repeat apply ane_ok; first [apply av_ok | apply ai_ok | apply ain_ok | apply aig_ok | apply aatoi_ok | apply adig_ok].
(** the same value for attributes that are the same *)
Ltac fl := intros; repeat match goal with SA : same_attrs ?l ?a ?a' |- context [get_att ?a' ?n] => rewrite (get_same l n a a' eq_refl SA) end; reflexivity.
Ltac shnd tac :=
  cbn [fst snd];
  first [ apply fset_sim | apply fval_sim; reflexivity | apply flat_sim; fl | apply fnum_sim; reflexivity
        | apply fattrs_sim; [reflexivity|atab] | apply fattrs_after_sim; [reflexivity|atab]
        | apply then_skip_sim; shnd tac
        | apply childo_sim; tac | apply childin_sim; intros; tac | apply child_sim; tac | idtac ].
Ltac stab tac := split; [repeat (first [apply Forall2_nil | apply Forall2_cons]); (cbn [fst snd]; split; [reflexivity|]); shnd tac | reflexivity].
Ltac sdec tac := first [ apply leafd_sim; [first [reflexivity | assumption] | atab] | apply loopd_sim; stab tac | apply nested_sim; [first [reflexivity | assumption] | atab | stab tac] ].
(** handlers written out by hand: no call of a decoder inside *)
Ltac splain := split; [|split];
  [ intros ? ? ? ? | intros ? ? ? ? | intros ? ? ? ? ? ? ? ? ? ? ? ? ]; cbv beta zeta;
  repeat match goal with
         | SA : same_attrs ?l ?a ?a' |- context [get_att ?a' ?n] => rewrite (get_same l n a a' eq_refl SA)
         | |- context [if ?b then _ else _] => destruct b
         | |- context [st_of ?g] => destruct g; cbn [st_of]
         end; first [eapply rsim_same; eassumption | cbn; split; [discriminate | auto]].

Section Dec.
Variables N N' : nat.
Notation sim := (usim N N').
Lemma s_rfonts : sim "rFonts" u_rfonts u_rfonts. Proof. unfold u_rfonts. sdec idtac. Qed.
Lemma s_spacing : sim "spacing" u_spacing u_spacing. Proof. unfold u_spacing. sdec idtac. Qed.
Lemma s_ind : sim "ind" u_ind u_ind. Proof. unfold u_ind. sdec idtac. Qed.
Lemma s_shade : sim "shd" u_shade u_shade. Proof. unfold u_shade. sdec idtac. Qed.
Lemma s_tab : sim "tab" u_tab u_tab. Proof. unfold u_tab. sdec idtac. Qed.
Lemma s_rpr : forall l, sim l u_rpr u_rpr. Proof. intros. unfold u_rpr. sdec ltac:(first [apply s_rfonts | apply s_spacing | apply s_shade]). Qed.
Lemma s_ppr : forall l, sim l u_ppr u_ppr. Proof. intros. unfold u_ppr. sdec ltac:(first [apply s_tabs | apply s_spacing | apply s_ind | apply s_shade | apply s_rpr]). Qed.
Lemma s_extent : sim "extent" u_extent u_extent. Proof. unfold u_extent. sdec idtac. Qed.
Lemma s_effect : sim "effectExtent" u_effect u_effect. Proof. unfold u_effect. sdec idtac. Qed.
Lemma s_docpr : sim "docPr" u_docpr u_docpr. Proof. unfold u_docpr. sdec idtac. Qed.
Lemma s_nonvis : sim "cNvPr" u_nonvis u_nonvis. Proof. unfold u_nonvis. sdec idtac. Qed.
Lemma s_frame : forall l, sim l u_frame u_frame. Proof. intros. unfold u_frame. sdec idtac. splain. Qed.
Lemma s_cnvpicpr : forall l s, sim l (u_cnvpicpr s) (u_cnvpicpr s). Proof. intros. unfold u_cnvpicpr. sdec idtac. Qed.
Lemma s_nvpic : forall l, sim l u_nvpic u_nvpic. Proof. intros. unfold u_nvpic. sdec ltac:(first [apply s_cnvpicpr]). splain. Qed.
Lemma s_ablip : forall s, sim "blip" (u_ablip s) (u_ablip s). Proof. intros. unfold u_ablip. sdec idtac. Qed.
Lemma s_stretch : forall l s, sim l (u_stretch s) (u_stretch s). Proof. intros. unfold u_stretch. sdec idtac. Qed.
Lemma s_picblip : forall l, sim l u_picblip u_picblip. Proof. intros. unfold u_picblip. sdec ltac:(first [apply s_ablip | apply s_stretch]). Qed.
Lemma s_xfrm : forall s, sim "xfrm" (u_xfrm s) (u_xfrm s). Proof. intros. unfold u_xfrm. sdec idtac. Qed.
Lemma s_geom : sim "prstGeom" u_geom u_geom. Proof. intros. unfold u_geom. sdec idtac. Qed.
Lemma s_picsp : forall l, sim l u_picsp u_picsp. Proof. intros. unfold u_picsp. sdec ltac:(first [apply s_xfrm | apply s_geom]). Qed.
Lemma s_pic : forall l, sim l u_pic u_pic. Proof. intros. unfold u_pic. sdec ltac:(first [apply s_nvpic | apply s_picblip | apply s_picsp]). Qed.
Lemma s_picx : sim "pic" u_picx u_picx.
Proof. intros. unfold u_picx. apply (wrap_sim N N' "pic" u_pic u_pic (fun a x => set_pic_xmlpic (get_att a "pic") x)); [fl|apply s_pic]. Qed.
Lemma s_solid : forall l, sim l u_solid u_solid. Proof. intros. unfold u_solid. sdec idtac. Qed.
Lemma s_lend : forall l, (inert l && reads l ["type"; "w"; "len"])%bool = true -> sim l u_lend u_lend. Proof. intros. unfold u_lend. sdec idtac. Qed.
Lemma s_aline : sim "ln" u_aline u_aline. Proof. intros. unfold u_aline. sdec ltac:(first [apply s_solid | apply s_lend; reflexivity]). Qed.
Lemma s_tile : sim "tile" u_tile u_tile. Proof. unfold u_tile. sdec idtac. Qed.
Lemma s_blipfill : sim "blipFill" u_blipfill u_blipfill. Proof. intros. unfold u_blipfill. sdec ltac:(first [apply s_ablip | apply s_tile]). Qed.
Lemma s_sppr : forall l, reads l ["bwMode"] = true -> sim l u_sppr u_sppr. Proof. intros. unfold u_sppr. sdec ltac:(first [apply s_xfrm | apply s_solid | apply s_blipfill | apply s_aline]). Qed.
Lemma s_cnvcn : forall l, sim l u_cnvcn u_cnvcn. Proof. intros. unfold u_cnvcn. sdec idtac. Qed.
Lemma s_splocks : sim "spLocks" u_splocks u_splocks. Proof. unfold u_splocks. sdec idtac. Qed.
Lemma s_cnvsp : sim "cNvSpPr" u_cnvsp u_cnvsp. Proof. intros. unfold u_cnvsp. sdec ltac:(first [apply s_splocks]). Qed.
Lemma s_bodypr : sim "bodyPr" u_bodypr u_bodypr. Proof. intros. unfold u_bodypr. sdec idtac. Qed.
Lemma s_bg : forall l, sim l u_bg u_bg. Proof. intros. unfold u_bg. sdec idtac. Qed.
Lemma s_whole : forall l, sim l u_whole u_whole. Proof. intros. unfold u_whole. sdec ltac:(first [apply s_aline]). Qed.
Lemma s_gcnv : forall l, sim l u_gcnv u_gcnv. Proof. intros. unfold u_gcnv. sdec idtac. Qed.

(** text is not put where it is read *)
Definition quiet (k : list string) : Prop := inT k = false.
Lemma str_n_sim : forall n' n acc k ts ts', quiet k -> Rel k ts ts' -> size ts < n -> size ts' < n' ->
  rsim (str_n n acc ts) (str_n n' acc ts').
Proof.
  induction n' as [|n' IH]; intros n acc k ts ts' Q R L L'; [lia|]. destruct n as [|n]; [lia|].
  inversion R; subst; clear R; try (cbn; repeat split; intros [?|?]; discriminate).
  - cbn [str_n size] in *. match goal with K : Rel (snd _ :: _) _ _ |- _ => destruct (rel_skip _ _ _ K 0) as (st & r & r' & E & E' & KR) end. unfold skip. rewrite E, E'.
    apply skip_size in E. apply skip_size in E'. destruct E as [E1 E2], E' as [E1' E2'].
    destruct st.
    + specialize (KR (or_introl eq_refl)). cbn [skipn] in KR. eapply IH; eauto; lia.
    + repeat split. eauto.
    + repeat split. intros [?|?]; discriminate.
    + congruence.
  - cbn [str_n]. eapply rsim_same; eauto.
  - cbn [str_n size] in *. eapply IH; eauto; lia.
  - cbn [str_n size] in *. eapply IH; eauto; lia.
  - pose proof (unknown_size q a c ts'0). rewrite toks_elem at 1. cbn [str_n].
    change (rsim (str_n (S n) acc ts) (match skip (ftoks c ++ TEnd q :: ts'0) with (SOk, ts'') => str_n n' acc ts'' | (e, ts'') => (acc, e, ts'') end)).
    rewrite skip_forest. eapply IH; eauto; lia.
  - cbn [size] in *. change (rsim (str_n (S n) acc ts) (str_n n' acc ts'0)). eapply IH; eauto; lia.
  - unfold quiet in Q. congruence.
Qed.

Lemma wordy_quiet : forall l k, mem l wordy = true -> at_top l k -> quiet k.
Proof. intros l k M [k0 ->]. unfold quiet, inT. cbn [top hd]. rewrite M. apply andb_false_r. Qed.

Lemma str_sim : forall l k ts ts', mem l wordy = true -> at_top l k -> Rel k ts ts' -> rsim (str ts) (str ts').
Proof. intros. unfold str. eapply str_n_sim; eauto. eapply wordy_quiet; eauto. Qed.

Lemma s_wpos : forall l, mem "relativeFrom" (read_attrs l) = true -> sim l u_wpos u_wpos.
Proof.
  intros l RF. split; [apply g_wpos|]. split; [apply g_wpos|]. intros a a' k ts ts' R HD A SA L L'. unfold u_wpos.
  rewrite (get_same l "relativeFrom" a a') by auto.
  eapply (loop_tab N N'); [|apply rel_push_eof; eassumption| |]; try (rewrite push_eof_size; lia).
  split; [|reflexivity]. constructor; [|constructor]. split; [reflexivity|]. cbn [snd].
  assert (G : forall M, hgood M (fun (s : wpos) (_ : list attr) ts0 =>
      let '(n, st, ts'0) := xml_int (wpos_off s) ts0 in
      match st with SOk => (set_wpos_off n s, SOk, ts'0) | _ => (s, st, ts'0) end)).
  { intros M s1 a1 t1 L1. pose proof (xml_int_ok (wpos_off s1) t1) as X. destruct (xml_int (wpos_off s1) t1) as [[n st] t2]. destruct X.
    destruct st; try congruence; split; auto; discriminate. }
  split; [apply G|]. split; [apply G|]. intros s a1 a1' k' t t' R' HD' A' _ _ _. unfold xml_int.
  pose proof (str_sim "posOffset" _ _ _ eq_refl A' R') as S. destruct (str t) as [[x st] r]. destruct (str t') as [[x' st'] r'].
  destruct S as (-> & <- & K). destruct st; try (repeat split; assumption).
  destruct (K (or_introl eq_refl)) as [k2 R2].
  destruct (String.eqb x' ""); [eapply rsim_same; eauto|]. destruct (parse_int _); eapply rsim_same; eauto.
Qed.

(** decoders through which the nesting is unbounded *)
Section Rec0.
Variables D D' : decs.
Hypothesis DP : forall f l, sim l (d_para D f) (d_para D' f).
Hypothesis DC : forall f l, sim l (d_canvas D f) (d_canvas D' f).
Hypothesis DG : forall f l, sim l (d_group D f) (d_group D' f).
Section RecF.
Variable f : option nat.

Let DP1 : forall f, ugood N (d_para D f). Proof. intros. apply (DP f0 ""). Qed.
Let DC1 : forall f, ugood N (d_canvas D f). Proof. intros. apply (DC f0 ""). Qed.
Let DG1 : forall f, ugood N (d_group D f). Proof. intros. apply (DG f0 ""). Qed.
Let DP2 : forall f, ugood N' (d_para D' f). Proof. intros. apply (DP f0 ""). Qed.
Let DC2 : forall f, ugood N' (d_canvas D' f). Proof. intros. apply (DC f0 ""). Qed.
Let DG2 : forall f, ugood N' (d_group D' f). Proof. intros. apply (DG f0 ""). Qed.

Lemma s_txcontent : forall l, sim l (u_txcontent D f) (u_txcontent D' f). Proof. intros. unfold u_txcontent. sdec ltac:(apply DP). Qed.
Lemma s_txbx : forall l, sim l (u_txbx D f) (u_txbx D' f). Proof. intros. unfold u_txbx. sdec ltac:(apply s_txcontent). Qed.
Lemma s_shape : forall l, sim l (u_shape D f) (u_shape D' f).
Proof.
  intros. unfold u_shape. apply (wrap_sim N N' l (u_shapeR D f) (u_shapeR D' f) (fun _ x => Shape x)); [reflexivity|]. unfold u_shapeR.
  sdec ltac:(first [apply s_nonvis | apply s_cnvcn | apply s_cnvsp | apply s_sppr; reflexivity | apply s_txbx | apply s_bodypr]).
Qed.
Lemma s_gshape : forall l, sim l (u_gshape D f) (u_gshape D' f).
Proof. intros. unfold u_gshape. sdec ltac:(first [apply s_nonvis | apply s_gcnv | apply s_sppr; reflexivity | apply s_pic | apply s_shape | apply DC]). Qed.
Lemma s_gdata : sim "graphicData" (u_gdata D f) (u_gdata D' f).
Proof. intros. unfold u_gdata. sdec ltac:(first [apply s_picx | apply s_shape | apply DC | apply DG]). Qed.
Lemma s_graphic : sim "graphic" (u_graphic D f) (u_graphic D' f).
Proof.
  intros. unfold u_graphic. apply nested_sim; [reflexivity|atab|]. split; [|reflexivity]. constructor; [|constructor]. split; [reflexivity|]. cbn [snd].
  apply (child_attr_sim N N' _ (u_gdata D f) (u_gdata D' f) (fun a x => set_graphicR_data (Some (set_gdataR_uri (get_att a "uri") x)))); [cbn [fst]; fl|].
  apply s_gdata.
Qed.
Lemma s_inline : sim "inline" (u_inline D f) (u_inline D' f).
Proof. intros. unfold u_inline. sdec ltac:(first [apply s_docpr | apply s_frame | apply s_graphic]). Qed.
Lemma s_anchor : sim "anchor" (u_anchor D f) (u_anchor D' f).
Proof.
  intros. unfold u_anchor.
  sdec ltac:(first [apply s_docpr | apply s_frame | apply s_graphic | apply s_wpos; reflexivity | apply s_extent | apply s_effect]).
Qed.
Lemma s_drawing : forall l, sim l (u_drawing D f) (u_drawing D' f).
Proof. intros. unfold u_drawing. apply loopd_sim. split; [|reflexivity].
  constructor; [cbn [fst snd]; split; [reflexivity|]; exact (childo_sim N N' "inline" (u_inline D f) (u_inline D' f) (fun i s => (i, snd s)) s_inline)|].
  constructor; [cbn [fst snd]; split; [reflexivity|]; exact (childo_sim N N' "anchor" (u_anchor D f) (u_anchor D' f) (fun a s => (fst s, a)) s_anchor)|constructor].
Qed.

Lemma pchildh_sim : forall {A} l (u u' : list attr -> list token -> out A) g, sim l u u' ->
  forall s a a' k ts ts', Rel k ts ts' -> hdE ts = false -> at_top l k -> same_attrs l a a' -> size ts < N -> size ts' < N' ->
  rsim (pchildh u g s a ts) (pchildh u' g s a' ts').
Proof.
  intros A l u u' g Hu s a a' k ts ts' R HD AD SA L L'. pose proof (sub_sim _ _ _ _ _ Hu a a' k ts ts' R HD AD SA L L') as S.
  unfold pchildh. destruct (sub (u a) ts) as [[x st] r]. destruct (sub (u' a') ts') as [[x' st'] r'].
  destruct S as (-> & <- & K). destruct st; repeat split; auto.
Qed.

Lemma alt2_sim : forall n' n s k ts ts', (b = true -> at_top fragile k) -> Rel k ts ts' -> size ts < n -> size ts' < n' ->
  rsim (alt2 n s ts) (alt2 n' s ts').
Proof.
  induction n' as [|n' IH]; intros n s k ts ts' AF R L L'; [lia|]. destruct n as [|n]; [lia|].
  assert (SK : forall k1 t t', Rel k1 t t' -> (b = true -> at_top fragile (skipn 1 k1)) -> size t < size ts -> size t' < size ts' ->
     rsim (match skip t with (SOk, ts'') => alt2 n s ts'' | (e, ts'') => (s, e, ts'') end)
          (match skip t' with (SOk, ts'') => alt2 n' s ts'' | (e, ts'') => (s, e, ts'') end)).
  { intros k1 t t' R1 A1 L1 L1'. destruct (rel_skip _ _ _ R1 0) as (st & r & r' & E & E' & K).
    unfold skip. rewrite E, E'. apply skip_from_size in E. apply skip_from_size in E'. destruct E, E'.
    destruct st; try (repeat split; eauto; fail).
    specialize (K (or_introl eq_refl)). eapply IH; eauto; lia. }
  assert (NM : inM k = true -> False).
  { unfold inM. intros IM. destruct b; [|discriminate]. destruct (AF eq_refl) as [k0 ->]. cbn [top hd] in IM. rewrite andb_comm in IM. discriminate. }
  assert (NS : b = true -> steady k = true -> False).
  { unfold steady. intros Eb ST. rewrite Eb in ST. destruct (AF Eb) as [k0 ->]. discriminate. }
  inversion R; subst; try (cbn; repeat split; intros [?|?]; discriminate).
  - match goal with E : snd q = snd q', SA : same_attrs _ _ _, K : Rel (snd q :: _) _ _, HD : hdE ts0 = false |- _ =>
      rename E into EQ; rename SA into SAA; rename K into RK; rename HD into HD0 end.
    pose proof (rel_hdE _ _ _ RK) as HD0'. rewrite HD0 in HD0'.
    cbn [alt2]. cbn [size] in *. rewrite <- EQ. destruct (String.eqb (snd q) "Choice") eqn:EC.
    + apply String.eqb_eq in EC. rewrite EC in RK, SAA. rewrite (get_same "Choice" "Requires" a a' eq_refl SAA). cbn [andb].
      destruct (accepted (get_att a "Requires")).
      * destruct ts0 as [|[] ?], ts'0 as [|[] ?]; try discriminate; eapply rsim_same; exact RK.
      * eapply SK; eauto.
    + cbn [andb]. eapply SK; eauto.
  - cbn [alt2]. cbn [size] in *. match goal with E : snd q = snd q' |- _ => rewrite <- E end. destruct (String.eqb (snd q) "AlternateContent") eqn:EA.
    + eapply rsim_same; eauto.
    + eapply SK; eauto. intros Eb. exfalso. destruct (AF Eb) as [k0 ->]. cbn [top hd] in *.
      match goal with E : fragile = snd q |- _ => rewrite <- E in EA end. discriminate.
  - cbn [alt2]. cbn [size] in *. eapply SK; eauto. intros Eb. exfalso. eauto.
  - cbn [alt2]. cbn [size] in *. eapply SK; eauto. intros Eb. exfalso. eauto.
  - cbn [alt2]. eapply rsim_same; eauto.
  - pose proof (unknown_size q a c ts'0). rewrite toks_elem in *.
    change (rsim (alt2 (S n) s ts)
     (if (String.eqb (snd q) "Choice" && accepted (get_att a "Requires"))%bool
      then match ftoks c ++ TEnd q :: ts'0 with
               | TEof :: _ => (s, SAbort XEOF, ftoks c ++ TEnd q :: ts'0)
               | _ => (s, SOk, ftoks c ++ TEnd q :: ts'0)
               end
      else match skip (ftoks c ++ TEnd q :: ts'0) with
                         | (SOk, ts'') => alt2 n' s ts''
                         | (e, ts'') => (s, e, ts'')
                         end)).
    rewrite skip_forest. destruct (String.eqb (snd q) "Choice") eqn:EC.
    { apply String.eqb_eq in EC. match goal with K : mem (snd q) known = false |- _ => rewrite EC in K; discriminate end. }
    cbn [andb]. eapply IH; eauto; lia.
  - exfalso. auto.
  - exfalso. apply NM. now apply inT_M.
Qed.

Lemma run_step_sim : forall s l a a' k ts ts', Rel k ts ts' -> hdE ts = false -> at_top l k -> same_attrs l a a' ->
  size ts < N -> size ts' < N' -> rsim (run_step D f s l a ts) (run_step D' f s l a' ts').
Proof.
  intros s l a a' k ts ts' R HD A SA LN LN'.
  unfold run_step, run_cases, eswitch. revert A SA.
  apply (switch_sim (fun l (g g' : hnd run) => at_top l k -> same_attrs l a a' -> rsim (g s a ts) (g' s a' ts'))); [|intros _ _; eapply skipping_sim; eauto].
  repeat (first [apply Forall2_nil | apply Forall2_cons]); (cbn [fst snd]; split; [reflexivity|]); cbn [fst snd]; intros A SA.
  - apply (childo_sim N N' _ u_rpr u_rpr set_runR_rpr (s_rpr "rPr")) with (k := k); auto.
  - pose proof (str_sim "instrText" _ _ _ eq_refl A R) as S. destruct (str ts) as [[x st] r]. destruct (str ts') as [[x' st'] r'].
    destruct S as (-> & <- & K). destruct st; repeat split; auto; intros; apply K; auto.
  - eapply pchildh_sim; eauto. apply s_text.
  - eapply pchildh_sim; eauto. apply s_drawing.
  - eapply rsim_same; eauto.
  - eapply pchildh_sim; eauto. apply s_br.
  - eapply alt2_sim; eauto.
Qed.

Lemma s_run : forall s, sim "r" (u_run D f s) (u_run D' f s).
Proof.
  intros s. split; [now apply g_run|]. split; [now apply g_run|]. intros a a' k ts ts' R HD A SA L L'. unfold u_run, attrs_loop.
  rewrite (attrs_same "r" _ a a') by auto.
  apply rel_push_eof in R. destruct (attrs (aswitch [("space", av set_runR_space)]) s a) as [y []]; try (eapply rsim_same; eauto; fail).
  change (rsim (loop (run_old D f) y (push_eof ts)) (loop (run_old D' f) y (push_eof ts'))).
  rewrite (loop_choice D f N), (loop_choice D' f N') by (auto; rewrite push_eof_size; lia).
  eapply (loop_sim _ _ N N'); eauto; try (rewrite push_eof_size; lia).
  - intros. eapply run_step_sim; eauto.
  - intros. apply (run_step_ok D f N); auto.
  - intros. apply (run_step_ok D' f N'); auto.
  - intros s0 l a0 t U. unfold run_step, eswitch. rewrite switch_unknown; auto.
Qed.

End RecF.
End Rec0.
Section Rec.
Variables D D' : decs.
Hypothesis DP : forall f l, sim l (d_para D f) (d_para D' f).
Hypothesis DC : forall f l, sim l (d_canvas D f) (d_canvas D' f).
Hypothesis DG : forall f l, sim l (d_group D f) (d_group D' f).
Variable f : option nat.
Lemma s_link : forall l, sim l (u_link D) (u_link D').
Proof.
  intros. unfold u_link. apply loopd_sim. split; [|reflexivity]. constructor; [|constructor].
  cbn [fst snd]. split; [reflexivity|]. apply childin_sim. intros. now apply s_run.
Qed.

Lemma paraR_sim : forall k a a' ts ts', Rel k ts ts' -> size ts <= N -> size ts' <= N' ->
  rsim (u_paraR D f a ts) (u_paraR D' f a' ts').
Proof.
  intros k a a' ts ts' R L L'. unfold u_paraR.
  match goal with |- context [loop (eswitch ?cs) ?s ts] => match goal with |- context [loop (eswitch ?cs') _ ts'] =>
    assert (K : rsim (loop (eswitch cs) s ts) (loop (eswitch cs') s ts'));
    [|destruct (loop (eswitch cs) s ts) as [[x st] r]; destruct (loop (eswitch cs') s ts') as [[x' st'] r']] end end.
  { eapply (loop_tab N N'); eauto. split; [|reflexivity].
    constructor; [cbn [fst snd]; split; [reflexivity|] |].
    { refine (child_attr_sim N N' "hyperlink" (u_link D) (u_link D')
        (fun a1 x s2 => (fst s2, snd s2 ++ [PLink (if String.eqb (get_att a1 "anchor") "" then get_att a1 "id" else get_att a1 "anchor") x])) _ (s_link _)). fl. }
    constructor; [cbn [fst snd]; split; [reflexivity|]; apply child_sim; now apply s_run |].
    constructor; [cbn [fst snd]; split; [reflexivity|]; apply child_sim; apply s_rpr |].
    constructor; [cbn [fst snd]; split; [reflexivity|]; apply child_sim; apply s_ppr | constructor]. }
  destruct K as (-> & <- & K). destruct st; repeat split; auto.
Qed.

Lemma canvasR_sim : forall k a a' ts ts', Rel k ts ts' -> size ts <= N -> size ts' <= N' ->
  rsim (u_canvasR D f a ts) (u_canvasR D' f a' ts').
Proof.
  intros k a a' ts ts' R L L'. unfold u_canvasR, loopd. eapply (loop_tab N N'); eauto.
  stab ltac:(first [apply s_bg | apply s_whole | now apply s_shape | apply s_picx | apply DG]).
Qed.

Lemma groupR_sim : forall k a a' ts ts', Rel k ts ts' -> size ts <= N -> size ts' <= N' ->
  rsim (u_groupR D f a ts) (u_groupR D' f a' ts').
Proof.
  intros k a a' ts ts' R L L'. unfold u_groupR, loopd. eapply (loop_tab N N'); eauto.
  stab ltac:(first [now apply s_gshape | apply s_gcnv | apply s_sppr; reflexivity | apply s_pic | now apply s_shape | apply DC]).
Qed.

End Rec.

End Dec.

Lemma tie_sim : forall n n' f l, usim n n' l (d_para (tie n) f) (d_para (tie n') f) /\
  usim n n' l (d_canvas (tie n) f) (d_canvas (tie n') f) /\ usim n n' l (d_group (tie n) f) (d_group (tie n') f).
Proof.
  induction n as [|n IH]; intros n' f l.
  { split; [|split]; (split; [apply tie_good|]); (split; [apply tie_good|]); intros a a' k ts ts' R HD A SA L L'; lia. }
  destruct n' as [|n'].
  { split; [|split]; (split; [apply tie_good|]); (split; [apply tie_good|]); intros a a' k ts ts' R HD A SA L L'; lia. }
  assert (DP : forall f l, usim n n' l (d_para (tie n) f) (d_para (tie n') f)) by (intros; apply IH).
  assert (DC : forall f l, usim n n' l (d_canvas (tie n) f) (d_canvas (tie n') f)) by (intros; apply IH).
  assert (DG : forall f l, usim n n' l (d_group (tie n) f) (d_group (tie n') f)) by (intros; apply IH).
  split; [|split]; (split; [apply tie_good|]); (split; [apply tie_good|]); intros a a' k ts ts' R HD A SA L L';
    apply rel_push_eof in R; cbn [tie d_para d_canvas d_group].
  - eapply (paraR_sim n n'); eauto; rewrite push_eof_size; lia.
  - assert (K : rsim (u_canvasR (tie n) f a (push_eof ts)) (u_canvasR (tie n') f a' (push_eof ts')))
      by (eapply (canvasR_sim n n'); eauto; rewrite push_eof_size; lia).
    destruct (u_canvasR (tie n) f a (push_eof ts)) as [[x st] r]. destruct (u_canvasR (tie n') f a' (push_eof ts')) as [[x' st'] r'].
    destruct K as (-> & <- & K). repeat split; auto.
  - assert (K : rsim (u_groupR (tie n) f a (push_eof ts)) (u_groupR (tie n') f a' (push_eof ts')))
      by (eapply (groupR_sim n n'); eauto; rewrite push_eof_size; lia).
    destruct (u_groupR (tie n) f a (push_eof ts)) as [[x st] r]. destruct (u_groupR (tie n') f a' (push_eof ts')) as [[x' st'] r'].
    destruct K as (-> & <- & K). repeat split; auto.
Qed.

Section Top.
Variables N N' : nat.
Notation sim := (usim N N').
Lemma s_para : forall l f, sim l (u_para f) (u_para f).
Proof.
  intros. split; [apply g_para|]. split; [apply g_para|]. intros a a' k ts ts' R HD A SA L L'. unfold u_para. rewrite !push_eof_size.
  eapply tie_sim; eauto.
Qed.
Lemma s_border : forall l, (inert l && reads l ["val"; "sz"; "space"; "color"])%bool = true -> sim l u_border u_border. Proof. intros. unfold u_border. sdec idtac. Qed.
Lemma s_borders : forall l, sim l u_borders u_borders. Proof. intros. unfold u_borders. sdec ltac:(first [apply s_border; reflexivity]). Qed.
Lemma s_tblpos : sim "tblpPr" u_tblpos u_tblpos. Proof. unfold u_tblpos. sdec idtac. Qed.
Lemma s_tblstyle : sim "tblStyle" u_tblstyle u_tblstyle. Proof. unfold u_tblstyle. sdec idtac. Qed.
Lemma s_tblw : sim "tblW" u_tblw u_tblw. Proof. unfold u_tblw. sdec idtac. Qed.
Lemma s_look : sim "tblLook" u_look u_look. Proof. unfold u_look. sdec idtac. Qed.
Lemma s_tblpr : forall l, sim l u_tblpr u_tblpr. Proof. intros. unfold u_tblpr. sdec ltac:(first [apply s_tblpos | apply s_tblstyle | apply s_tblw | apply s_look | apply s_borders]). Qed.
Lemma s_gridcol : sim "gridCol" u_gridcol u_gridcol. Proof. unfold u_gridcol. sdec idtac. Qed.
Lemma s_grid : forall l, sim l u_grid u_grid. Proof. intros. unfold u_grid. sdec ltac:(first [apply s_gridcol]). Qed.
Lemma s_trpr : forall l, sim l u_trpr u_trpr. Proof. intros. unfold u_trpr. sdec idtac. Qed.
Lemma s_tcpr : forall l, sim l u_tcpr u_tcpr. Proof. intros. unfold u_tcpr. sdec ltac:(first [apply s_borders | apply s_shade]). all: splain. Qed.
Lemma s_cell : forall l f, sim l (u_cell f) (u_cell f). Proof. intros. unfold u_cell. sdec ltac:(first [apply s_para | apply s_tcpr]). Qed.
Lemma s_row : forall l f, sim l (u_row f) (u_row f). Proof. intros. unfold u_row. sdec ltac:(first [apply s_trpr | apply s_cell]). Qed.
Lemma s_table : forall l f, sim l (u_table f) (u_table f). Proof. intros. unfold u_table. sdec ltac:(first [apply s_row | apply s_tblpr | apply s_grid]). Qed.
Lemma s_pgsz : sim "pgSz" u_pgsz u_pgsz. Proof. unfold u_pgsz. sdec idtac. Qed.
Lemma s_pgmar : sim "pgMar" u_pgmar u_pgmar. Proof. unfold u_pgmar. sdec idtac. Qed.
Lemma s_cols : sim "cols" u_cols u_cols. Proof. unfold u_cols. sdec idtac. Qed.
Lemma s_docgrid : sim "docGrid" u_docgrid u_docgrid. Proof. unfold u_docgrid. sdec idtac. Qed.
Lemma s_sect : forall l, sim l u_sect u_sect. Proof. intros. unfold u_sect. sdec ltac:(first [apply s_pgsz | apply s_pgmar | apply s_cols | apply s_docgrid]). Qed.
Lemma s_body : forall l f s, sim l (u_body f s) (u_body f s). Proof. intros. unfold u_body. sdec ltac:(first [apply s_para | apply s_table | apply s_sect]). Qed.
Lemma s_document : forall l f, sim l (u_document f) (u_document f). Proof. intros. unfold u_document. sdec ltac:(first [apply s_body]). Qed.

End Top.
End Sim.

(** ** documents *)

Definition is_elem (t : tree) : Prop := match t with Elem _ _ _ => True | _ => False end.
Lemma sturdy_elem : forall q a c, sturdy (Elem q a c) <-> (snd q = fragile -> Forall is_elem c) /\ Forall sturdy c.
Proof.
  intros q a c. cbn [sturdy]. fold is_elem.
  assert (E : (fix all l := match l with [] => True | x :: l' => sturdy x /\ all l' end) c <-> Forall sturdy c).
  { induction c as [|t c IH]; split; auto; intros K.
    - destruct K. constructor; auto. now apply IH.
    - inversion K; subst. split; auto. now apply IH. }
  rewrite E. reflexivity.
Qed.

Definition calm (k : list string) (t : tree) : Prop := (b = true -> sturdy t) /\ (is_elem t \/ steady k = true).
Lemma calm_in : forall q a c k, (b = true -> sturdy (Elem q a c)) -> Forall (calm (snd q :: k)) c.
Proof.
  intros q a c k S. unfold calm. destruct b eqn:Eb.
  - specialize (S eq_refl). apply sturdy_elem in S. destruct S as [S1 S2]. unfold steady. rewrite Eb. cbn [top hd negb orb].
    destruct (String.eqb (snd q) fragile) eqn:E.
    + apply String.eqb_eq in E. specialize (S1 E). rewrite Forall_forall in *. intros x I. split; auto.
    + rewrite Forall_forall in *. intros x I. split; auto.
  - apply Forall_forall. intros x I. split; [discriminate|]. unfold steady. rewrite Eb. auto.
Qed.

Lemma hdE_tree : forall t z, hdE (toks t ++ z) = false.
Proof. destruct t; reflexivity. Qed.
Lemma hdE_forest : forall c z, hdE z = false -> hdE (ftoks c ++ z) = false.
Proof. destruct c as [|[] c]; auto. Qed.

Lemma rel_renames : forall t t' k z z', renames t t' -> calm k t -> hdE z = false -> Rel k z z' -> Rel k (toks t ++ z) (toks t' ++ z').
Proof.
  induction t as [q a c IH | s | ] using tree_ind'; intros t' k z z' RN [CA CK] HD R.
  - inversion RN; subst. rewrite !toks_elem. constructor; auto. { apply hdE_forest. reflexivity. }
    assert (G : forall k z z', Forall (calm k) c -> hdE z = false -> Rel k z z' -> Rel k (ftoks c ++ z) (ftoks c' ++ z')).
    { clear -IH H5. revert IH. induction H5 as [|t t' c c' Ht F IHF]; intros IH k z z' CC HD R; [exact R|].
      inversion IH; subst. inversion CC; subst. rewrite !ftoks_cons, <- !app_assoc. apply H1; auto. now apply hdE_forest. }
    apply G; [now apply (calm_in q a)|reflexivity|]. now constructor.
  - inversion RN; subst. destruct CK as [[]|CK]. now constructor.
  - inversion RN; subst. destruct CK as [[]|CK]. now constructor.
Qed.

Lemma renames_refl : forall t, renames t t.
Proof.
  induction t as [q a c IH | s | ] using tree_ind'; constructor; auto. induction IH; constructor; auto.
Qed.
Lemma rel_tree : forall t k z z', calm k t -> hdE z = false -> Rel k z z' -> Rel k (toks t ++ z) (toks t ++ z').
Proof. intros. apply rel_renames; auto. apply renames_refl. Qed.
Lemma rel_forest : forall c k z z', Forall (calm k) c -> hdE z = false -> Rel k z z' -> Rel k (ftoks c ++ z) (ftoks c ++ z').
Proof.
  induction c as [|t c IH]; intros k z z' C HD R; [exact R|]. inversion C; subst.
  rewrite !ftoks_cons, <- !app_assoc. apply rel_tree; auto. now apply hdE_forest.
Qed.

Lemma barred_cons : forall l k, barred k = false -> ~ In l opaque -> barred (l :: k) = false.
Proof. intros. unfold barred. cbn [existsb]. rewrite (notmem _ _ H0). exact H. Qed.
Lemma open_inE : forall l k, barred k = false -> ~ In l opaque -> ~ In l solid -> inE (l :: k) = true.
Proof. intros. unfold inE. rewrite barred_cons by auto. rewrite (notmem _ _ H1). reflexivity. Qed.

Lemma open_inS : forall l k, barred k = false -> ~ In l solid -> inS (l :: k) = true.
Proof. intros. unfold inS. now rewrite H, (notmem _ _ H0). Qed.

(** [t'] has the same name and attributes; the content is related *)
Definition content (k : list string) (t t' : tree) : Prop :=
  exists q a c c', t = Elem q a c /\ t' = Elem q a c' /\
    forall z z', hdE z = false -> Rel (snd q :: k) z z' -> Rel (snd q :: k) (ftoks c ++ z) (ftoks c' ++ z').

Lemma content_in : forall q a l1 l2 x x' k, (b = true -> sturdy (Elem q a (l1 ++ x :: l2))) ->
  content (snd q :: k) x x' -> content k (Elem q a (l1 ++ x :: l2)) (Elem q a (l1 ++ x' :: l2)).
Proof.
  intros q a l1 l2 x x' k ST (q1 & a1 & c1 & c1' & -> & -> & K).
  do 4 eexists. split; [reflexivity|]. split; [reflexivity|]. intros z z' HD R.
  pose proof (calm_in q a _ k ST) as C. apply Forall_app in C. destruct C as [C1 C2]. inversion C2; subst.
  rewrite !ftoks_app, !ftoks_cons, <- !app_assoc. apply rel_forest; [assumption|apply hdE_tree|].
  rewrite !toks_elem. constructor; auto; try reflexivity; [now apply hdE_forest|]. apply K; [reflexivity|]. constructor; auto. cbn [tl]. now apply rel_forest.
Qed.

Lemma adds_content : forall t t', adds t t' -> forall k, (b = true -> sturdy t) -> barred k = false -> content k t t'.
Proof.
  intros t t' A. induction A as [q a l1 l2 q' a' c' NS NO NK | q a l1 l2 x x' NO A IH]; intros k ST TB.
  - do 4 eexists. split; [reflexivity|]. split; [reflexivity|]. intros z z' HD R.
    pose proof (calm_in q a _ k ST) as C. apply Forall_app in C. destruct C as [C1 C2].
    rewrite !ftoks_app, ftoks_cons, <- !app_assoc. apply rel_forest; [assumption|now apply hdE_forest|].
    constructor.
    + now apply open_inE.
    + now apply notmem.
    + now apply hdE_forest.
    + now apply rel_forest.
  - apply content_in; auto. apply IH; [|now apply barred_cons]. intros Eb. specialize (ST Eb). apply sturdy_elem in ST. destruct ST as [_ ST].
    apply Forall_app in ST. destruct ST as [_ ST]. now inversion ST.
Qed.

Lemma spaces_content : forall t t', spaces t t' -> b = true -> forall k, sturdy t -> barred k = false -> content k t t'.
Proof.
  intros t t' A Eb. induction A as [q a l1 l2 s NS NW NF | q a l1 l2 NS NF | q a l1 l2 x x' NO A IH]; intros k ST TB.
  - do 4 eexists. split; [reflexivity|]. split; [reflexivity|]. intros z z' HD R.
    pose proof (calm_in q a _ k (fun _ => ST)) as C. apply Forall_app in C. destruct C as [C1 C2].
    rewrite !ftoks_app, ftoks_cons, <- !app_assoc. apply rel_forest; [assumption|now apply hdE_forest|].
    change (toks (Chr s) ++ ftoks l2 ++ z') with (TChar s :: ftoks l2 ++ z').
    constructor; [|now apply hdE_forest|now apply rel_forest].
    unfold inT, inM. rewrite open_inS by auto. rewrite Eb. cbn [top hd andb]. apply String.eqb_neq in NF. rewrite NF. now rewrite (notmem _ _ NW).
  - do 4 eexists. split; [reflexivity|]. split; [reflexivity|]. intros z z' HD R.
    pose proof (calm_in q a _ k (fun _ => ST)) as C. apply Forall_app in C. destruct C as [C1 C2].
    rewrite !ftoks_app, ftoks_cons, <- !app_assoc. apply rel_forest; [assumption|now apply hdE_forest|].
    change (toks Cmt ++ ftoks l2 ++ z') with (TMisc :: ftoks l2 ++ z').
    constructor; [|now apply hdE_forest|now apply rel_forest].
    unfold inM. rewrite open_inS by auto. rewrite Eb. cbn [top hd andb]. apply String.eqb_neq in NF. now rewrite NF.
  - apply content_in; auto. apply IH; [|now apply barred_cons]. apply sturdy_elem in ST. destruct ST as [_ ST].
    apply Forall_app in ST. destruct ST as [_ ST]. now inversion ST.
Qed.

(** what may be around the root *)
Definition misc (t : tree) : Prop := match t with Elem _ _ _ => False | _ => True end.
Lemma calm_misc : forall l, Forall misc l -> Forall (calm []) l.
Proof.
  intros l F. eapply Forall_impl; [|exact F]. intros t M. destruct t; [destruct M| |]; (split; [intros; exact I|right]); unfold steady; destruct b; reflexivity.
Qed.
Lemma root_misc : forall {A} (f : list attr -> list token -> out A) z pre ts, Forall misc pre -> root f z (check [] (ftoks pre ++ ts)) = root f z (check [] ts).
Proof. intros A f z pre ts F. induction F as [|t pre M F IH]; auto. destruct t; [destruct M| |]; exact IH. Qed.
Definition surrounded (f : option nat) (pre : list tree) (t : tree) (post : list tree) (L : GoLib) := parse_document f (ftoks pre ++ toks t ++ ftoks post).

Lemma parse_rel : forall (L : GoLib) f pre post q q' a a' c c', Forall misc pre -> Forall misc post ->
  Rel [] (toks (Elem q a c) ++ ftoks post) (toks (Elem q' a' c') ++ ftoks post) ->
  surrounded f pre (Elem q a c) post L = surrounded f pre (Elem q' a' c') post L.
Proof.
  intros L f pre post q q' a a' c c' MP MQ K.
  unfold surrounded, parse_document. rewrite !root_misc by auto. rewrite !check_tree.
  assert (CP : check [] (ftoks post) = ftoks post).
  { clear -MQ. induction MQ as [|t l M F IH]; auto. destruct t; [destruct M| |]; rewrite ftoks_cons; cbn [toks app check]; now rewrite IH. }
  rewrite CP.
  rewrite !toks_elem in *. cbn [root].
  set (ts := ftoks c ++ TEnd q :: ftoks post) in *. set (ts' := ftoks c' ++ TEnd q' :: ftoks post) in *.
  inversion K; subst; try discriminate.
  pose proof (sub_sim (S (size ts)) (S (size ts')) (snd q) _ _ (s_document _ _ (snd q) f) a a' [snd q] ts ts') as S.
  specialize (S ltac:(eassumption) ltac:(assumption) ltac:(eexists; reflexivity) ltac:(assumption) ltac:(lia) ltac:(lia)).
  destruct (sub (u_document f a) ts) as [[x st] r]. destruct (sub (u_document f a') ts') as [[x' st'] r'].
  destruct S as (-> & <- & _). reflexivity.
Qed.

Lemma rel_post : forall post, Forall misc post -> Rel [] (ftoks post) (ftoks post).
Proof. intros post M. rewrite <- (app_nil_r (ftoks post)). apply rel_forest; [now apply calm_misc|reflexivity|constructor]. Qed.

Lemma parse_content : forall (L : GoLib) f pre post t t', Forall misc pre -> Forall misc post -> content [] t t' ->
  surrounded f pre t post L = surrounded f pre t' post L.
Proof.
  intros L f pre post t t' MP MQ (q & a & c & c' & -> & -> & K). apply parse_rel; auto.
  rewrite !toks_elem. constructor; auto; [now apply hdE_forest|reflexivity|].
  apply K; [reflexivity|]. constructor; auto. now apply rel_post.
Qed.
End B.

Section Parse.
Context (L : GoLib).
Variables (f : option nat) (pre post : list tree).
Hypothesis (MP : Forall misc pre) (MQ : Forall misc post).

Lemma parse_adds : forall t t', adds t t' -> surrounded f pre t post L = surrounded f pre t' post L.
Proof. intros t t' A. apply (parse_content false); auto. apply adds_content; auto. discriminate. Qed.

Lemma parse_spaces : forall t t', sturdy t -> spaces t t' -> surrounded f pre t post L = surrounded f pre t' post L.
Proof. intros t t' S A. apply (parse_content true); auto. apply spaces_content; auto. Qed.

Lemma parse_renames : forall t t', renames t t' -> surrounded f pre t post L = surrounded f pre t' post L.
Proof.
  intros t t' A.
  assert (RR : Rel false [] (toks t ++ ftoks post) (toks t' ++ ftoks post)).
  { apply rel_renames; auto.
    - split; [discriminate|right; reflexivity].
    - rewrite <- (app_nil_r (ftoks post)). now apply hdE_forest.
    - now apply rel_post. }
  inversion A; subst; try reflexivity. now apply (parse_rel false).
Qed.

Lemma parse_same_around : forall t t', same_to_loader t t' -> surrounded f pre t post L = surrounded f pre t' post L.
Proof.
  intros t t' S. induction S as [t t' [A|[A|[B A]]] | | |]; [now apply parse_adds | now apply parse_renames | now apply parse_spaces | reflexivity | now symmetry | congruence].
Qed.
End Parse.

Lemma parse_same : forall (L : GoLib) f t t', same_to_loader t t' -> parse_document f (toks t) = parse_document f (toks t').
Proof.
  intros L f t t' S. pose proof (parse_same_around L f [] [] ltac:(constructor) ltac:(constructor) t t' S) as K.
  unfold surrounded in K. cbn [ftoks flat_map app] in K. now rewrite !app_nil_r in K.
Qed.
Lemma parse_unknown : forall (L : GoLib) f t t', same_but_unknown t t' -> parse_document f (toks t) = parse_document f (toks t').
Proof.
  intros L f t t' S. apply parse_same. induction S; [apply rst_step; auto | apply rst_refl | now apply rst_sym | eapply rst_trans; eauto].
Qed.
