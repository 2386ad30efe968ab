(** The order of children: the order of the library against that of the standard. *)
From Coq Require Import String Ascii List Bool Arith Lia Permutation Sorted.
From Verif Require Import GoStr Num XmlTok SpecGrammar.
Import ListNotations.
Local Open Scope string_scope.
Local Open Scope list_scope.

(** ** exchanging slots *)
Lemma slots_cons : forall s l c, slots_fit (s :: l) c <-> exists a b, c = a ++ b /\ slots_fit [s] a /\ slots_fit l b.
Proof.
  intros s l c. split.
  - intros F. remember (s :: l) as sl eqn:E. revert s l E. induction F as [|ns n q a c l k I N F IH|ns q a c l k I F IH|ns n l k N F IH]; intros s l' E; try discriminate; injection E as <- <-.
    + exists [Elem q a c], k. split; [reflexivity|]. split; [|assumption]. apply sf_here; auto. constructor.
    + destruct (IH _ _ eq_refl) as (u & v & -> & A & B). exists (Elem q a c :: u), v. split; [reflexivity|]. split; [|assumption]. now apply sf_more.
    + exists [], k. split; [reflexivity|]. split; [|assumption]. apply sf_skip; auto. constructor.
  - intros (a & b & -> & A & B). remember [s] as sl eqn:E. induction A as [|ns n q a c l' k I N F IH|ns q a c l' k I F IH|ns n l' k N F IH]; try discriminate.
    + injection E as <- ->. inversion F; subst. cbn [app]. now apply sf_here.
    + injection E as <- ->. cbn [app]. apply sf_more; auto.
    + injection E as <- ->. inversion F; subst. cbn [app]. now apply sf_skip.
Qed.
Lemma slots_perm : forall l l' c, Permutation l l' -> slots_fit l c -> exists c', Permutation c c' /\ slots_fit l' c'.
Proof.
  intros l l' c P. revert c. induction P as [|s l l' P IH|x y l|l l1 l2 P1 IH1 P2 IH2]; intros c F.
  - exists c. auto.
  - apply slots_cons in F. destruct F as (a & b & -> & A & B). destruct (IH b B) as (b' & PB & B'). exists (a ++ b'). split; [now apply Permutation_app_head|].
    apply slots_cons. eauto.
  - apply slots_cons in F. destruct F as (a & b & -> & A & B). apply slots_cons in B. destruct B as (b1 & b2 & -> & B1 & B2).
    exists (b1 ++ a ++ b2). split; [rewrite !app_assoc; apply Permutation_app_tail, Permutation_app_comm|].
    apply slots_cons. exists b1, (a ++ b2). split; [reflexivity|]. split; [assumption|]. apply slots_cons. eauto.
  - destruct (IH1 c F) as (c1 & Q1 & F1). destruct (IH2 c1 F1) as (c2 & Q2 & F2). exists c2. split; [now rewrite Q1|assumption].
Qed.

(** ** subsequences and positions *)
Inductive sub {A} : list A -> list A -> Prop :=
| sub_nil : sub [] []
| sub_take : forall x a b, sub a b -> sub (x :: a) (x :: b)
| sub_drop : forall x a b, sub a b -> sub a (x :: b).
Fixpoint pos (x : string) (l : list string) : nat :=
  match l with [] => 0 | y :: l' => if String.eqb x y then 0 else S (pos x l') end.
Lemma sub_in : forall A (a b : list A), sub a b -> forall x, In x a -> In x b.
Proof. intros A a b S. induction S; cbn; intros z I; auto; destruct I; auto. Qed.
Lemma pos_lt : forall x l, In x l -> pos x l < length l.
Proof. induction l as [|y l IH]; cbn; [tauto|]. intros [->|I]; [rewrite String.eqb_refl; lia|]. destruct (String.eqb x y); [lia|]. apply IH in I. lia. Qed.
Lemma pos_inj : forall x y l, In x l -> In y l -> pos x l = pos y l -> x = y.
Proof.
  induction l as [|z l IH]; cbn; [tauto|]. intros I J. destruct (String.eqb_spec x z) as [->|N], (String.eqb_spec y z) as [->|N']; try discriminate; auto.
  intros E. injection E as E. destruct I as [<-|I]; [congruence|]. destruct J as [<-|J]; [congruence|]. auto.
Qed.
Definition ord (l : list string) (x y : string) : Prop := pos x l < pos y l.
Lemma sorted_ext : forall (R R' : string -> string -> Prop) l, StronglySorted R l -> (forall x y, In x l -> In y l -> R x y -> R' x y) -> StronglySorted R' l.
Proof.
  intros R R' l S. induction S as [|x l S IH F]; intros E; constructor.
  - apply IH. intros; apply E; cbn; auto.
  - rewrite Forall_forall in *. intros y I. apply E; cbn; auto.
Qed.
Lemma sub_sorted : forall ns l, NoDup ns -> (sub l ns <-> (forall x, In x l -> In x ns) /\ StronglySorted (ord ns) l).
Proof.
  intros ns l ND. split.
  - intros S. split; [now apply sub_in|]. induction S as [|x a b S IH|x a b S IH]; [constructor| |]; inversion ND as [|? ? NI ND']; subst; specialize (IH ND').
    + constructor.
      * eapply sorted_ext; [exact IH|]. intros y z I J. unfold ord. cbn. destruct (String.eqb_spec y x) as [->|]; [destruct NI; eapply sub_in; eauto|].
        destruct (String.eqb_spec z x) as [->|]; [destruct NI; eapply sub_in; eauto|]. lia.
      * apply Forall_forall. intros y I. unfold ord. cbn. rewrite String.eqb_refl. destruct (String.eqb_spec y x) as [->|]; [destruct NI; eapply sub_in; eauto|]. lia.
    + eapply sorted_ext; [exact IH|]. intros y z I J. unfold ord. cbn. destruct (String.eqb_spec y x) as [->|]; [destruct NI; eapply sub_in; eauto|].
      destruct (String.eqb_spec z x) as [->|]; [destruct NI; eapply sub_in; eauto|]. lia.
  - revert l. induction ns as [|n ns IH]; intros l (I & S).
    + destruct l as [|x l]; [constructor|]. destruct (I x); now left.
    + inversion ND as [|? ? NI ND']; subst. specialize (IH ND').
      assert (D : forall l, (forall x, In x l -> In x ns) -> StronglySorted (ord (n :: ns)) l -> sub l ns).
      { intros k J T. apply IH. split; [assumption|]. eapply sorted_ext; [exact T|]. intros y z Y Z. unfold ord. cbn.
        destruct (String.eqb_spec y n) as [->|]; [destruct NI; auto|]. destruct (String.eqb_spec z n) as [->|]; [destruct NI; auto|]. lia. }
      destruct l as [|x l]; [constructor; apply D; [intros ? []|constructor]|].
      inversion S as [|? ? S' F]; subst. rewrite Forall_forall in F.
      assert (T : forall y, In y l -> In y ns).
      { intros y J. specialize (F y J). unfold ord in F. cbn in F. destruct (String.eqb_spec y n) as [E0|N]; [subst; destruct (String.eqb x n); lia|].
        destruct (I y (or_intror J)) as [E|E]; [congruence|assumption]. }
      destruct (string_dec x n) as [E1|N].
      * subst x. apply sub_take. now apply D.
      * apply sub_drop. apply D; [|assumption]. intros y [<-|J]; auto. destruct (I x (or_introl eq_refl)) as [E|E]; [congruence|assumption].
Qed.
Lemma sorted_both : forall (R R' : string -> string -> Prop) l, StronglySorted R l -> StronglySorted R' l -> StronglySorted (fun x y => R x y /\ R' x y) l.
Proof.
  intros R R' l S. induction S as [|x l S IH F]; intros T; constructor; inversion T; subst; auto. rewrite Forall_forall in *. auto.
Qed.
Lemma sorted_two : forall (R : string -> string -> Prop) l x y, StronglySorted R l -> In x l -> In y l -> x = y \/ R x y \/ R y x.
Proof.
  intros R l x y S. induction S as [|z l S IH F]; cbn; [tauto|]. rewrite Forall_forall in F. intros [<-|I] [<-|J]; auto.
Qed.
(** [ex]: the pairs in which the two orders differ *)
Definition differ (ns ns' : list string) (ex : list (string * string)) : bool :=
  forallb (fun x => forallb (fun y =>
    Bool.eqb (existsb (fun e => String.eqb (fst e) x && String.eqb (snd e) y) ex) (Nat.ltb (pos x ns) (pos y ns) && Nat.ltb (pos y ns') (pos x ns'))) ns) ns &&
  forallb (fun e => existsb (String.eqb (fst e)) ns && existsb (String.eqb (snd e)) ns) ex.
Lemma differ_spec : forall ns ns' ex, differ ns ns' ex = true -> forall x y, In (x, y) ex <-> In x ns /\ In y ns /\ pos x ns < pos y ns /\ pos y ns' < pos x ns'.
Proof.
  intros ns ns' ex D x y. apply andb_prop in D. destruct D as [D1 D2]. rewrite forallb_forall in D1, D2.
  assert (M : forall z l, existsb (String.eqb z) l = true -> In z l).
  { intros z l E. apply existsb_exists in E. destruct E as (u & I & E). apply String.eqb_eq in E. now subst. }
  assert (K : In x ns -> In y ns -> existsb (fun e => String.eqb (fst e) x && String.eqb (snd e) y) ex = true <-> pos x ns < pos y ns /\ pos y ns' < pos x ns').
  { intros I J. specialize (D1 x I). rewrite forallb_forall in D1. specialize (D1 y J). apply eqb_prop in D1. rewrite D1, andb_true_iff, !Nat.ltb_lt. tauto. }
  split.
  - intros I. pose proof (D2 _ I) as E. apply andb_prop in E. destruct E as [E1 E2]. apply M in E1, E2. cbn [fst snd] in *. split; [assumption|]. split; [assumption|].
    apply K; auto. apply existsb_exists. exists (x, y). cbn. now rewrite !String.eqb_refl.
  - intros (I & J & P). apply (K I J) in P. apply existsb_exists in P. destruct P as ([u v] & P & E). cbn in E. apply andb_prop in E. destruct E as [E1 E2].
    apply String.eqb_eq in E1, E2. now subst.
Qed.
Lemma other_order : forall ns ns' ex l, NoDup ns -> Permutation ns ns' -> differ ns ns' ex = true -> sub l ns ->
  (sub l ns' <-> forall x y, In (x, y) ex -> ~ (In x l /\ In y l)).
Proof.
  intros ns ns' ex l ND P D S. assert (ND' : NoDup ns') by (eapply Permutation_NoDup; eauto). apply (sub_sorted _ _ ND) in S. destruct S as [I S].
  assert (I' : forall x, In x l -> In x ns') by (intros x J; eapply Permutation_in; eauto).
  rewrite (sub_sorted _ _ ND'). split.
  - intros [_ S'] x y E [X Y]. apply (differ_spec _ _ _ D) in E. destruct E as (_ & _ & E1 & E2).
    destruct (sorted_two _ _ _ _ (sorted_both _ _ _ S S') X Y) as [->|[[A B]|[A B]]]; unfold ord in *; lia.
  - intros N. split; [assumption|]. eapply sorted_ext; [exact S|]. intros x y X Y R. unfold ord in *.
    destruct (Nat.lt_trichotomy (pos x ns') (pos y ns')) as [|[E|E]]; [assumption| |].
    + apply pos_inj in E; auto. subst. lia.
    + destruct (N x y); auto. apply (differ_spec _ _ _ D). auto.
Qed.

(** ** the children of the four elements *)
Definition is_named (t : tree) (n : string) : Prop := exists a k, t = Elem (q_ "w" n) a k.
Definition opts (ns : list string) : list slot := map (opt "w") ns.
Lemma opts_fit : forall ns c, slots_fit (opts ns) c <-> exists l, Forall2 is_named c l /\ sub l ns.
Proof.
  intros ns c. split.
  - intros F. remember (opts ns) as sl eqn:E. revert ns E. induction F as [|ks n q a c l k I N F IH|ks q a c l k I F IH|ks n l k N F IH]; intros [|m ns] E; try discriminate.
    + exists []. split; constructor.
    + injection E as -> -> E. destruct I as [<-|[]]. destruct (IH ns E) as (x & A & B). exists (m :: x). split; [constructor; [now do 2 eexists|assumption]|now constructor].
    + injection E as -> -> E. destruct (IH ns E) as (x & A & B). exists x. split; [assumption|now constructor].
  - intros (l & A & B). revert c A. induction B as [|x a b S IH|x a b S IH]; intros c A.
    + inversion A; subst. constructor.
    + inversion A as [|t ? k ? (u & v & ->) A']; subst. cbn. apply sf_here; [now left|discriminate|auto].
    + cbn. apply sf_skip; [discriminate|]. now apply IH.
Qed.
Lemma named_unique : forall c l l', Forall2 is_named c l -> Forall2 is_named c l' -> l = l'.
Proof.
  intros c l l' F. revert l'. induction F as [|t n c l (a & k & ->) F IH]; intros l' G; inversion G as [|? ? ? ? (a' & k' & E) G']; subst; [reflexivity|]. injection E as <- _ _. f_equal. auto.
Qed.
Lemma named_child : forall c l n, Forall2 is_named c l -> (has_child n c <-> In n l).
Proof.
  intros c l n F. unfold has_child. induction F as [|t m c l (a & k & ->) F IH]; cbn [In].
  - split; [intros (? & ? & [])|intros []].
  - rewrite <- IH. split.
    + intros (a' & k' & [E|I]); [injection E as <- _ _; auto|right; eauto].
    + intros [->|(a' & k' & I)]; [exists a, k; auto|exists a', k'; auto].
Qed.
Lemma order_exactly : forall ns ns' ex c, NoDup ns -> Permutation ns ns' -> differ ns ns' ex = true -> slots_fit (opts ns) c ->
  (slots_fit (opts ns') c <-> forall x y, In (x, y) ex -> ~ (has_child x c /\ has_child y c)).
Proof.
  intros ns ns' ex c ND P D F. apply opts_fit in F. destruct F as (l & A & B). pose proof (other_order _ _ _ _ ND P D B) as K. rewrite opts_fit. split.
  - intros (l' & A' & B') x y E. rewrite !(named_child _ _ _ A). apply K; auto. now rewrite (named_unique _ _ _ A A').
  - intros N. exists l. split; [assumption|]. apply K. intros x y E. rewrite <- !(named_child _ _ _ A). auto.
Qed.

(** ** the two grammars *)
Notation is_q q := (fun k : qname => String.eqb (fst k) (fst q) && String.eqb (snd k) (snd q)).
Definition names_of (r : rule) : list string := match r_content r with Seq l => map (fun s => match fst s with [q] => snd q | _ => "" end) l | _ => [] end.
Definition good (q : qname) : Prop := exists ns ns', rule_of own_grammar q = Some (node (opts ns)) /\ rule_of grammar q = Some (node (opts ns')) /\ NoDup ns /\ Permutation ns ns' /\ differ ns ns' (exchanged q) = true.
Ltac nodup := repeat (constructor; [cbn; intuition discriminate|]); constructor.
Ltac perm_names := match goal with |- Permutation ?a ?b => apply (NoDup_Permutation); [nodup|nodup|intros z; cbn; tauto] end.
Ltac goodq q := let a := eval vm_compute in (match rule_of own_grammar q with Some r => names_of r | None => [] end) in
  let b := eval vm_compute in (match rule_of grammar q with Some r => names_of r | None => [] end) in
  exists a, b; split; [vm_compute; reflexivity|]; split; [vm_compute; reflexivity|]; split; [nodup|]; split; [perm_names|vm_compute; reflexivity].
Lemma own_good : forall q, In q own_order -> good q.
Proof. intros q [<-|[<-|[<-|[<-|[]]]]]; match goal with |- good ?q => goodq q end. Qed.
Lemma loose_in : forall q l, existsb (is_q q) l = true <-> In q l.
Proof.
  intros [p n] l. rewrite existsb_exists. split.
  - intros ([p' n'] & I & E). cbn in E. apply andb_prop in E. destruct E as [E1 E2]. apply String.eqb_eq in E1, E2. now subst.
  - intros I. exists (p, n). split; [assumption|]. cbn. now rewrite !String.eqb_refl.
Qed.
Lemma own_other : forall q, existsb (is_q q) own_order = false -> rule_of own_grammar q = rule_of grammar q /\ exchanged q = [].
Proof.
  intros [p n] E. unfold own_grammar, own_rules, own_order in *. cbn [existsb fst snd app rule_of q_] in *. unfold exchanged. cbn [fst snd].
  apply orb_false_iff in E. destruct E as [E1 E]. apply orb_false_iff in E. destruct E as [E2 E]. apply orb_false_iff in E. destruct E as [E3 E]. apply orb_false_iff in E. destruct E as [E4 _].
  rewrite E1, E2, E3, E4. split; [reflexivity|]. rewrite (String.eqb_sym p "w"). destruct (String.eqb "w" p); [|reflexivity]. cbn [andb] in *.
  now rewrite (String.eqb_sym n "numPr"), (String.eqb_sym n "tblPr"), (String.eqb_sym n "tcPr"), (String.eqb_sym n "pPr"), E1, E2, E3, E4.
Qed.
Lemma conforms_ind' : forall g lo (P : tree -> Prop),
  (forall q a c r, rule_of g q = Some r -> attrs_fit (r_attrs r) a -> content_fit (existsb (is_q q) lo) (r_content r) c -> Forall (conforms g lo) c -> Forall P c -> P (Elem q a c)) ->
  (forall s, P (Chr s)) -> forall t, conforms g lo t -> P t.
Proof.
  intros g lo P HE HC. fix go 2. intros t K. destruct K as [q a c r R Fa Fc Fk|s]; [|apply HC]. eapply HE; eauto.
  clear - go Fk. revert c Fk. fix all 2. intros c [|x l K Fk]; constructor; [now apply go|now apply all].
Qed.
(** what follows the order of the library follows the standard up to the order *)
Lemma own_standard : forall t, conforms own_grammar [] t -> conforms grammar own_order t.
Proof.
  intros t K. induction K as [q a c r R Fa Fc Fk IH|s] using conforms_ind'; [|apply conf_chr].
  destruct (existsb (is_q q) own_order) eqn:E.
  - pose proof E as I. apply loose_in, own_good in I. destruct I as (ns & ns' & A & B & ND & P & _). rewrite A in R. injection R as <-.
    eapply conf_elem; [exact B|assumption| |assumption]. match goal with |- content_fit ?b _ _ => replace b with true by (symmetry; exact E) end. cbn [r_content node content_fit existsb] in *.
    apply (slots_perm _ (opts ns')) in Fc; [assumption|]. now apply Permutation_map.
  - destruct (own_other q E) as [O _]. rewrite O in R. eapply conf_elem; [exact R|assumption| |assumption]. match goal with |- content_fit ?b _ _ => replace b with false by (symmetry; exact E) end. exact Fc.
Qed.
Lemma no_exchange_kids : forall q a c, no_exchange (Elem q a c) <->
  (forall x y, In (x, y) (exchanged q) -> ~ (has_child x c /\ has_child y c)) /\ Forall no_exchange c.
Proof.
  intros q a c. split.
  - intros N. split; [apply (N q a c), within_self|]. apply Forall_forall. intros t I q' a' c' W. eapply N. eapply within_child; eauto.
  - intros [N F] q' a' c' W. inversion W as [|? ? ? x I W']; subst; [assumption|]. rewrite Forall_forall in F. eapply F; eauto.
Qed.
Lemma standard_exactly : forall t, conforms own_grammar [] t -> (conforms grammar [] t <-> no_exchange t).
Proof.
  intros t K. induction K as [q a c r R Fa Fc Fk IH|s] using conforms_ind'.
  2:{ split; [|intros; apply conf_chr]. intros _ q a c W. inversion W. }
  rewrite no_exchange_kids.
  assert (IH' : Forall (conforms grammar []) c <-> Forall no_exchange c).
  { clear - IH. split; intros F; rewrite Forall_forall in *; intros x I; apply IH; auto. }
  assert (KK : (conforms grammar [] (Elem q a c) <-> exists r', rule_of grammar q = Some r' /\ attrs_fit (r_attrs r') a /\ content_fit false (r_content r') c /\ Forall (conforms grammar []) c)).
  { split; [intros K; inversion K; subst; eauto|intros (r' & A & B & C & D); econstructor; eauto]. }
  rewrite KK. rewrite <- IH'. clear KK IH'. destruct (existsb (is_q q) own_order) eqn:E.
  - apply loose_in, own_good in E. destruct E as (ns & ns' & A & B & ND & P & D). rewrite A in R. injection R as <-. cbn [r_content r_attrs node content_fit existsb] in *.
    pose proof (order_exactly _ _ _ _ ND P D Fc) as O. rewrite <- O. split.
    + intros (r' & A' & _ & C & F). rewrite B in A'. injection A' as <-. auto.
    + intros [C F]. exists (node (opts ns')). auto.
  - destruct (own_other q E) as [O O']. rewrite O in R. rewrite O'. cbn [existsb] in Fc. split.
    + intros (r' & _ & _ & _ & F). split; [intros x y []|assumption].
    + intros [_ F]. exists r. auto.
Qed.
