(** Everything that is written for a loaded document was in the file it was
    loaded from: if the attribute values and texts in the file have a property
    (that numbers have, too), those that are written have it. *)
From Coq Require Import String Ascii List Bool Arith NArith ZArith Lia.
From Verif Require Import GoStr Num Lib Types XmlTok Marshal Unmarshal SpecLex LexFacts DecLemmas StableFacts.
Import ListNotations.
Local Open Scope string_scope.
Local Open Scope list_scope.

Section Values.
Context `{GoLib}.
Variable V : string -> Prop.
(** of the pieces of text in the file *)
Variable C : string -> Prop.
Hypothesis V_nil : V "".
Hypothesis V_int : forall z, V (itoa z).
(** and of the texts that are written *)
Variable W : string -> Prop.
Hypothesis W_cat : forall l, Forall C l -> W (sconcat l).
Hypothesis W_int : forall z, W (itoa z).
Lemma W_nil : W "". Proof. exact (W_cat [] (Forall_nil _)). Qed.
Lemma W_piece : forall s, C s -> W s.
Proof. intros s Cs. replace s with (sconcat [s]) by (cbn; apply sapp_nil_r). apply W_cat. repeat constructor. exact Cs. Qed.

(** ** tokens *)
Definition va (a : list attr) : Prop := Forall (fun x => V (snd x)) a.
Definition vt (t : token) : Prop := match t with TStart _ a => va a | TChar s => C s | _ => True end.
Definition vts (ts : list token) : Prop := Forall vt ts.
Lemma get_att_v : forall a n, va a -> V (get_att a n).
Proof. intros a n F. induction F as [|[q v] a P F IH]; [exact V_nil|]. cbn [get_att]. destruct (String.eqb (snd q) n); [exact P|exact IH]. Qed.
Lemma skip_v : forall ts d, vts ts -> vts (snd (skip_from d ts)).
Proof.
  induction ts as [|t ts IH]; intros d F; [exact F|]. inversion F as [|? ? F1 F2]; subst. cbn [skip_from]. destruct t; try (now apply IH); try exact F.
  destruct d; [exact F2|now apply IH].
Qed.
Lemma push_v : forall ts d, vts ts -> vts (push_from d ts).
Proof.
  induction ts as [|t ts IH]; intros d F; [exact F|]. inversion F as [|? ? F1 F2]; subst. cbn [push_from].
  destruct t; try (constructor; [exact F1|]; now apply IH). constructor; [exact I|]. destruct d; [constructor; [exact I|exact F2]|now apply IH].
Qed.
Lemma next_v : forall ts, vts ts -> vts (snd (next_tok ts)).
Proof. intros [|t ts] F; [exact F|]. inversion F; subst. destruct t; assumption. Qed.
Lemma check_v : forall ts o, vts ts -> vts (check o ts).
Proof.
  induction ts as [|t ts IH]; intros o F; [destruct o; repeat constructor|]. inversion F as [|? ? F1 F2]; subst. cbn [check].
  destruct t; try (constructor; [exact F1|]; now apply IH); try (now apply IH); try (repeat constructor).
  destruct o as [|q' o]; [repeat constructor|]. destruct (_ && _)%bool; [|repeat constructor]. constructor; [exact I|now apply IH].
Qed.

(** ** the invariant *)
Definition keeps {X} (P : X -> Prop) (r : out X) : Prop := P (fst (fst r)) /\ vts (snd r).
Definition hT {X} (P : X -> Prop) (h : hnd X) : Prop := forall s a ts, va a -> vts ts -> P s -> keeps P (h s a ts).
Definition uT {X} (P : X -> Prop) (u : list attr -> list token -> out X) : Prop := forall a ts, va a -> vts ts -> keeps P (u a ts).
Definition aT {X} (P : X -> Prop) (h : ahnd X) : Prop := forall s v, V v -> P s -> P (fst (h s v)).
Definition lT {X} (P : X -> Prop) (h : X -> string -> list attr -> list token -> out X) : Prop :=
  forall s l a ts, va a -> vts ts -> P s -> keeps P (h s l a ts).

Lemma skipping_T : forall {X} (P : X -> Prop), hT P (fun s _ ts => skipping s ts).
Proof. intros X P s a ts Fa F p. unfold skipping, skip. pose proof (skip_v ts 0 F). destruct (skip_from 0 ts). split; assumption. Qed.
Lemma switch_T : forall {X} (P : X -> Prop) (cs : list (string * hnd X)) (d : hnd X), Forall (fun c => hT P (snd c)) cs -> hT P d ->
  forall l, hT P (switch cs d l).
Proof. intros X P cs d F Hd l. induction F as [|[k h] cs Hh F IH]; cbn [switch]; [exact Hd|]. destruct (String.eqb l k); [exact Hh|exact IH]. Qed.
Lemma eswitch_T : forall {X} (P : X -> Prop) (cs : list (string * hnd X)), Forall (fun c => hT P (snd c)) cs -> lT P (eswitch cs).
Proof. intros X P cs F s l a ts Fa Ft p. unfold eswitch. apply switch_T; auto. apply skipping_T. Qed.
Lemma loop_n_T : forall {X} (P : X -> Prop) h, lT P h -> forall n s ts, vts ts -> P s -> keeps P (loop_n n h s ts).
Proof.
  intros X P h Hh. induction n as [|n IH]; intros s ts F p; [split; assumption|]. cbn [loop_n]. destruct ts as [|t ts]; [split; assumption|].
  inversion F as [|? ? F1 F2]; subst. destruct t; try (now apply IH); try (split; assumption).
  pose proof (Hh s (snd q) a ts F1 F2 p) as [K1 K2]. destruct (h s (snd q) a ts) as [[s' st] ts']. destruct st; try (split; assumption). now apply IH.
Qed.
Lemma loop_T : forall {X} (P : X -> Prop) h, lT P h -> forall s ts, vts ts -> P s -> keeps P (loop h s ts).
Proof. intros. unfold loop. now apply loop_n_T. Qed.
Lemma loopd_T : forall {X} (P : X -> Prop) (cs : list (string * hnd X)) s, P s -> Forall (fun c => hT P (snd c)) cs -> uT P (loopd cs s).
Proof. intros X P cs s p F a ts Fa Ft. unfold loopd. apply loop_T; auto. now apply eswitch_T. Qed.
Lemma attrs_T : forall {X} (P : X -> Prop) (cs : list (string * ahnd X)), Forall (fun c => aT P (snd c)) cs ->
  forall a s, va a -> P s -> P (fst (attrs (aswitch cs) s a)).
Proof.
  intros X P cs F. induction a as [|[q v] a IH]; intros s Fa p; [exact p|]. inversion Fa as [|? ? F1 F2]; subst. cbn [attrs].
  assert (K : P (fst (aswitch cs s (snd q) v))).
  { unfold aswitch. clear IH. induction F as [|[k h] cs Hh F IHc]; cbn [switch]; [exact p|]. destruct (String.eqb (snd q) k); [now apply Hh|exact IHc]. }
  destruct (aswitch cs s (snd q) v) as [s' st]. destruct st; try exact K. now apply IH.
Qed.
Lemma nested_T : forall {X} (P : X -> Prop) (ac : list (string * ahnd X)) (cs : list (string * hnd X)) s, P s ->
  Forall (fun c => aT P (snd c)) ac -> Forall (fun c => hT P (snd c)) cs -> uT P (nested ac cs s).
Proof.
  intros X P ac cs s p Fa F a ts Va Vts. unfold nested, attrs_loop. pose proof (attrs_T P ac Fa a s Va p) as K.
  destruct (attrs (aswitch ac) s a) as [s' st]. destruct st; try (split; assumption). apply loop_T; auto. now apply eswitch_T.
Qed.
Lemma leafd_T : forall {X} (P : X -> Prop) (ac : list (string * ahnd X)) s, P s -> Forall (fun c => aT P (snd c)) ac -> uT P (leafd ac s).
Proof.
  intros X P ac s p Fa a ts Va Vts. unfold leafd, leaf. pose proof (attrs_T P ac Fa a s Va p) as K.
  destruct (attrs (aswitch ac) s a) as [s' st]. destruct st; try (split; assumption). pose proof (next_v ts Vts). destruct (next_tok ts). split; assumption.
Qed.
Lemma sub_T : forall {X} (P : X -> Prop) (u : list token -> out X), (forall ts, vts ts -> keeps P (u ts)) -> forall ts, vts ts -> keeps P (sub u ts).
Proof.
  intros X P u Hu ts F. unfold sub. specialize (Hu (push_eof ts) (push_v ts 0 F)). destruct (u (push_eof ts)) as [[x st] ts']. destruct Hu as [K1 K2]. cbn [fst snd] in *.
  unfold pop_eof. destruct ts' as [|[] ts'']; destruct st; split; try assumption; now inversion K2.
Qed.
Lemma decode_T : forall {X A} (P : X -> Prop) (Q : A -> Prop) (u : list token -> out A) (set : A -> X -> X),
  (forall ts, vts ts -> keeps Q (u ts)) -> (forall x s, Q x -> P s -> P (set x s)) -> forall s ts, vts ts -> P s -> keeps P (decode u set s ts).
Proof.
  intros X A P Q u set Hu Hs s ts F p. unfold decode. pose proof (sub_T Q u Hu ts F) as [K1 K2]. destruct (sub u ts) as [[x st] ts'].
  destruct st; split; try assumption; apply Hs; assumption.
Qed.
Lemma child_T : forall {X A} (P : X -> Prop) (Q : A -> Prop) (u : list attr -> list token -> out A) (set : A -> X -> X),
  uT Q u -> (forall x s, Q x -> P s -> P (set x s)) -> hT P (child u set).
Proof. intros X A P Q u set Hu Hs s a ts Fa F p. unfold child. apply (decode_T P Q); auto. Qed.
Lemma childo_T : forall {X A} (P : X -> Prop) (Q : A -> Prop) (u : list attr -> list token -> out A) (set : option A -> X -> X),
  uT Q u -> (forall x s, Q x -> P s -> P (set (Some x) s)) -> hT P (childo u set).
Proof. intros. eapply child_T; eauto. Qed.
Lemma childin_T : forall {X A} (P : X -> Prop) (Q : A -> Prop) (u : A -> list attr -> list token -> out A) (get : X -> A) (set : A -> X -> X),
  (forall s, P s -> uT Q (u (get s))) -> (forall x s, Q x -> P s -> P (set x s)) -> hT P (childin u get set).
Proof. intros X A P Q u get set Hu Hs s a ts Fa F p. unfold childin. apply (decode_T P Q); auto. intros ts' F'. now apply (Hu s). Qed.
Lemma flat_T : forall {X} (P : X -> Prop) (g : list attr -> X -> X), (forall a s, va a -> P s -> P (g a s)) -> hT P (flat g).
Proof. intros X P g Hg s a ts Fa F p. split; [now apply Hg|exact F]. Qed.
Lemma fval_T : forall {X} (P : X -> Prop) (set : option string -> X -> X), (forall v s, V v -> P s -> P (set (Some v) s)) -> hT P (fval set).
Proof. intros. unfold fval. apply flat_T. intros. apply H0; [now apply get_att_v|assumption]. Qed.
Lemma fset_T : forall {X} (P : X -> Prop) (set : bool -> X -> X), (forall s, P s -> P (set true s)) -> hT P (fset set).
Proof. intros. unfold fset. apply flat_T. intros. now apply H0. Qed.
Lemma fnum_T : forall {X} (P : X -> Prop) n (set : option i64 -> X -> X), (forall v s, P s -> P (set (Some v) s)) -> hT P (fnum n set).
Proof.
  intros X P n set Hs s a ts Fa F p. unfold fnum. destruct (String.eqb (get_att a n) ""); [split; assumption|].
  destruct (get_int _); split; try assumption. now apply Hs.
Qed.
Lemma fattrs_T : forall {X Y} (P : X -> Prop) (f : Y -> string -> string -> Y * status) (get : X -> Y) (set : Y -> X -> X),
  (forall y s, P s -> P (set y s)) -> hT P (fattrs f get set).
Proof. intros X Y P f get set Hs s a ts Fa F p. unfold fattrs. destruct (attrs f (get s) a). split; [now apply Hs|exact F]. Qed.
Lemma fattrs_after_T : forall {X Y} (P : X -> Prop) (Q : Y -> Prop) (cs : list (string * ahnd Y)) (y0 : Y) (set : Y -> X -> X),
  Q y0 -> Forall (fun c => aT Q (snd c)) cs -> (forall y s, Q y -> P s -> P (set y s)) -> hT P (fattrs_after (aswitch cs) y0 set).
Proof.
  intros X Y P Q cs y0 set q Fc Hs s a ts Fa F p. unfold fattrs_after. pose proof (attrs_T Q cs Fc a y0 Fa q) as K.
  destruct (attrs (aswitch cs) y0 a) as [y []]; split; try assumption. now apply Hs.
Qed.
Lemma then_skip_T : forall {X} (P : X -> Prop) (h : hnd X), hT P h -> hT P (then_skip h).
Proof.
  intros X P h Hh s a ts Fa F p. unfold then_skip. pose proof (Hh s a ts Fa F p) as K. destruct (h s a ts) as [[s' st] ts']. destruct st; try exact K.
  destruct K as [K1 K2]. exact (skipping_T P s' [] ts' (Forall_nil _) K2 K1).
Qed.
Lemma av_T : forall {X} (P : X -> Prop) set, (forall v s, V v -> P s -> P (set v s)) -> aT P (av set).
Proof. intros X P set Hs s v Vv p. now apply Hs. Qed.
Lemma ai_T : forall {X} (P : X -> Prop) set, (forall v s, P s -> P (set v s)) -> aT P (ai set).
Proof. intros X P set Hs s v _ p. unfold ai. destruct (st_of (get_int v)). now apply Hs. Qed.
Lemma ain_T : forall {X} (P : X -> Prop) set, (forall v s, P s -> P (set v s)) -> aT P (ain set).
Proof. intros X P set Hs s v _ p. unfold ain. destruct (get_int v); try exact p. now apply Hs. Qed.
Lemma aig_T : forall {X} (P : X -> Prop) set, (forall v s, P s -> P (set v s)) -> aT P (aig set).
Proof. intros X P set Hs s v _ p. now apply Hs. Qed.
Lemma aatoi_T : forall {X} (P : X -> Prop) set, (forall v s, P s -> P (set v s)) -> aT P (aatoi set).
Proof. intros X P set Hs s v _ p. unfold aatoi. destruct (parse_int v); now apply Hs. Qed.
Lemma adig_T : forall {X} (P : X -> Prop) set, (forall v s, P s -> P (set v s)) -> aT P (adig set).
Proof. intros X P set Hs s [|c v] _ p; [exact p|]. now apply Hs. Qed.
Lemma ane_T : forall {X} (P : X -> Prop) (h : ahnd X), aT P h -> aT P (ane h).
Proof. intros X P h Hh s v Vv p. unfold ane. destruct (String.eqb v ""); [exact p|]. now apply Hh. Qed.
Lemma wrap_T : forall {A B} (P : A -> Prop) (Q : B -> Prop) (u : list attr -> list token -> out A) (c : list attr -> A -> B),
  uT P u -> (forall a x, va a -> P x -> Q (c a x)) -> uT Q (fun a ts => let '(x, st, ts') := u a ts in (c a x, st, ts')).
Proof. intros A B P Q u c Hu Hc a ts Fa F. pose proof (Hu a ts Fa F) as [K1 K2]. destruct (u a ts) as [[x st] ts']. split; [now apply Hc|exact K2]. Qed.
Lemma str_T : forall ts, vts ts -> keeps W (str ts).
Proof.
  intros ts F. unfold str. generalize (S (size ts)) as n. assert (G : forall n l ts, Forall C l -> vts ts -> keeps W (str_n n (sconcat l) ts)).
  { clear ts F. induction n as [|n IH]; intros l ts Fl F; pose proof (W_cat l Fl) as Vl; [split; assumption|]. cbn [str_n]. destruct ts as [|t ts]; [split; assumption|].
    inversion F as [|? ? F1 F2]; subst. destruct t; try (split; assumption); try (now apply IH).
    - pose proof (skip_v ts 0 F2) as K. unfold skip. destruct (skip_from 0 ts) as [[] r]; try (split; assumption). now apply IH.
    - replace (sconcat l ++ s)%string with (sconcat (l ++ [s])) by (rewrite sconcat_app; cbn; now rewrite sapp_nil_r).
      apply IH; [|assumption]. apply Forall_app. repeat constructor; assumption. }
  intros n. apply (G n []); [constructor|exact F].
Qed.

(** ** trees *)
Definition wt (t : token) : Prop := match t with TStart _ a => va a | TChar s => W s | _ => True end.
Definition okt (t : tree) : Prop := Forall wt (toks t).
Definition okts (l : list tree) : Prop := Forall okt l.
Lemma okt_elem : forall q a c, okt (Elem q a c) <-> va a /\ okts c.
Proof.
  intros q a c. unfold okt, okts. rewrite <- (app_nil_r (toks (Elem q a c))), toks_elem. unfold ftoks.
  assert (K : Forall wt (flat_map toks c) <-> Forall (fun t => Forall wt (toks t)) c).
  { induction c as [|t c IH]; [split; intros; constructor|]. cbn [flat_map]. rewrite Forall_app, IH. split; [intros []; now constructor|intros I; inversion I; auto]. }
  rewrite <- K. split.
  - intros I. inversion I as [|? ? I1 I2]; subst. apply Forall_app in I2 as [I2 _]. auto.
  - intros [I1 I2]. constructor; [exact I1|]. apply Forall_app. split; [exact I2|]. repeat constructor.
Qed.
Lemma okt_chr : forall s, okt (Chr s) <-> W s.
Proof. intros s. unfold okt. cbn. split; [intros I; now inversion I|intros; constructor; [assumption|constructor]]. Qed.
Lemma va_nil : va [] <-> True. Proof. split; constructor. Qed.
Lemma va_app : forall a b, va (a ++ b) <-> va a /\ va b. Proof. intros. apply Forall_app. Qed.
Lemma va_at : forall q v, va (at_ q v) <-> V v.
Proof. intros. unfold at_, va. split; [intros I; now inversion I|intros; constructor; [assumption|constructor]]. Qed.
Lemma va_ato : forall q v, va (ato q v) <-> V v.
Proof.
  intros. unfold ato. destruct (String.eqb_spec v "") as [->|_]; [|apply va_at]. split; intros; [exact V_nil|constructor].
Qed.
Lemma va_ati : forall q v, va (ati q v) <-> True.
Proof. intros. unfold ati. split; [auto|]. intros _. constructor; [apply V_int|constructor]. Qed.
Lemma va_atio : forall q v, va (atio q v) <-> True.
Proof. intros. unfold atio. split; [auto|]. intros _. destruct (Z.eqb (iv v) 0); constructor; [apply V_int|constructor]. Qed.
Lemma okts_nil : okts [] <-> True. Proof. split; constructor. Qed.
Lemma okts_app : forall a b, okts (a ++ b) <-> okts a /\ okts b. Proof. intros. apply Forall_app. Qed.
Lemma okts_cons : forall t l, okts (t :: l) <-> okt t /\ okts l.
Proof. intros. unfold okts. split; [intros I; now inversion I|intros []; now constructor]. Qed.
Definition oko {A} (P : A -> Prop) (o : option A) : Prop := match o with Some x => P x | None => True end.
Lemma okts_el : forall A (m : A -> tree) o, okts (el m o) <-> oko (fun x => okt (m x)) o.
Proof. intros A m [x|]; cbn [el oko]; [rewrite okts_cons, okts_nil; tauto|apply okts_nil]. Qed.
Lemma okts_elb : forall q b, okts (elb q b) <-> True.
Proof. intros q [|]; cbn [elb]; rewrite ?okts_cons, okts_nil, ?okt_elem, ?va_nil, ?okts_nil; tauto. Qed.
Lemma okts_chr : forall s, okts (chr s) <-> W s.
Proof. intros s. unfold chr. destruct (String.eqb_spec s "") as [->|_]; rewrite ?okts_cons, ?okt_chr, okts_nil; pose proof W_nil; tauto. Qed.
Lemma okts_map : forall A (m : A -> tree) l, okts (map m l) <-> Forall (fun x => okt (m x)) l.
Proof. intros. unfold okts. apply Forall_map. Qed.
Lemma okt_val_el : forall q v, okt (val_el q v) <-> V v.
Proof. intros. unfold val_el. rewrite okt_elem, va_at, okts_nil. tauto. Qed.
Lemma okt_val_elo : forall q v, okt (val_elo q v) <-> V v.
Proof. intros. unfold val_elo. rewrite okt_elem, va_ato, okts_nil. tauto. Qed.
Lemma okt_val_eli : forall q v, okt (val_eli q v) <-> True.
Proof. intros. unfold val_eli. rewrite okt_elem, va_ati, okts_nil. tauto. Qed.
Lemma Forall_snoc : forall A (P : A -> Prop) l x, Forall P (l ++ [x]) <-> Forall P l /\ P x.
Proof. intros. rewrite Forall_app. split; intros [A1 A2]; split; auto. now inversion A2. Qed.
Lemma oko_impl : forall A (P Q : A -> Prop) o, (forall x, P x -> Q x) -> oko P o -> oko Q o.
Proof. intros A P Q [x|] I p; [now apply I|exact Logic.I]. Qed.
Lemma oko_all : forall A (Q : A -> Prop) o, (forall x, Q x) -> oko Q o.
Proof. intros A Q [x|] I; [apply I|exact Logic.I]. Qed.
End Values.
Lemma okt_values : forall (V : string -> Prop) t, okt V V t -> Forall V (values t).
Proof.
  intros V. induction t as [q a c F|s|] using tree_ind'; intros K; [|now apply okt_chr in K; repeat constructor|constructor].
  apply okt_elem in K as [K1 K2]. rewrite values_elem. apply Forall_app. split; [now apply Forall_map|].
  unfold okts in K2. induction K2 as [|t c K K2 IH]; [constructor|]. inversion F; subst. cbn [flat_map]. apply Forall_app. auto.
Qed.
