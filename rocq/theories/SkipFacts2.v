(** What the loader does not look at: files; documents laid out for reading. *)
From Coq Require Import String Ascii List Bool Arith Relations Permutation Lia.
From Verif Require Import GoStr Num Lib Types XmlTok Marshal Unmarshal Docx Reload DecLemmas RoundTrip2 Lex SpecLex LexFacts LexFacts3 SpecForm FormFacts SpellFacts2
  SpecSkip SkipFacts SpecGrammar GrammarOrder GrammarFacts.
Import ListNotations.
Local Open Scope string_scope.
Local Open Scope list_scope.

(** ** files *)
Lemma files_same : forall (L : GoLib) f t t' pre pre' post s s', Forall misc pre -> Forall misc pre' -> Forall misc post -> same_to_loader t t' ->
  list_spelling (pre ++ t :: post) s -> list_spelling (pre' ++ t' :: post) s' -> parse_document f (lex s) = parse_document f (lex s').
Proof.
  intros L f t t' pre pre' post s s' P P' Q S H H'. rewrite (spelled_lex _ _ H), (spelled_lex _ _ H').
  unfold ftoks. rewrite !flat_map_app. cbn [flat_map]. fold (ftoks pre). fold (ftoks pre'). fold (ftoks post).
  pose proof (parse_same_around L f pre post P Q t t' S) as K. unfold surrounded in K. rewrite K.
  unfold parse_document. now rewrite !root_misc.
Qed.
Lemma file_loads : forall (L : GoLib) f items t pre post s, Forall misc pre -> Forall misc post ->
  same_to_loader (m_document items) t -> list_spelling (pre ++ t :: post) s -> parse_document f (lex s) = (map (reload_item f) items, SOk).
Proof.
  intros L f items t pre post s P Q S H. rewrite (spelled_lex _ _ H).
  pose proof (parse_same_around L f pre post P Q _ _ S) as K. unfold surrounded in K.
  unfold ftoks at 1. rewrite flat_map_app. cbn [flat_map]. fold (ftoks pre). fold (ftoks post). rewrite <- K.
  unfold m_document. apply parse_marshal_around. apply around_toks. clear -P. induction P as [|x l M F IH]; constructor; auto.
Qed.

(** ** documents laid out for reading *)
Definition childless (t : tree) : Prop := match t with Elem _ _ c => Forall (fun y => ~ an_elem y) c | _ => True end.
Inductive tidy : tree -> Prop :=
| td_elem : forall q a c, snd q <> fragile -> (In (snd q) opaque -> Forall childless c) ->
    (Exists an_elem c -> ~ In (snd q) solid /\ ~ In (snd q) wordy) -> Forall tidy c -> tidy (Elem q a c)
| td_chr : forall s, tidy (Chr s)
| td_cmt : tidy Cmt.

Lemma slots_elem : forall l c, slots_fit l c -> Forall an_elem c /\ (l = [] -> c = []).
Proof.
  intros l c S. induction S as [|ns n q a c l k I N S [F E]|ns q a c l k I S [F E]|ns n l k N S [F E]]; split; auto; try discriminate; try (constructor; cbn; auto; fail).
Qed.
Lemma slots_named : forall l c, slots_fit l c -> Forall (fun t => match t with Elem q _ _ => In q (flat_map fst l) | _ => False end) c.
Proof.
  intros l c S. induction S; auto.
  - constructor; [cbn; apply in_or_app; now left|]. eapply Forall_impl; [|exact IHS]. intros [] K; auto. cbn. apply in_or_app. now right.
  - constructor; auto. cbn. apply in_or_app. now left.
  - eapply Forall_impl; [|exact IHS]. intros [] K; auto. cbn. apply in_or_app. now right.
Qed.
Definition slots_of (x : content) : list slot := match x with Seq l | Any l => l | Chars _ => [] end.
Lemma content_named : forall b x c, content_fit b x c -> Forall (fun t => match t with Elem q _ _ => In q (flat_map fst (slots_of x)) | _ => slots_of x = [] end) c.
Proof.
  intros b x c K. assert (SF : forall l c0, Permutation c c0 -> slots_fit l c0 -> Forall (fun t => match t with Elem q _ _ => In q (flat_map fst l) | _ => l = [] end) c).
  { intros l c0 P S. eapply Permutation_Forall; [apply Permutation_sym, P|]. eapply Forall_impl; [|exact (slots_named _ _ S)]. intros [] Z; auto; destruct Z. }
  destruct x as [l|l|[|]]; cbn [content_fit slots_of] in *.
  - destruct b; [destruct K as (c' & P & S)|]; eauto using Permutation_refl.
  - destruct K as (c' & P & S); eauto.
  - destruct K as [->|(s & -> & _)]; repeat constructor.
  - destruct K as (z & ->). repeat constructor.
Qed.
(** what the table has to say *)
Definition rule_tidy (e : qname * rule) : bool :=
  let '(q, r) := e in
  negb (String.eqb (snd q) fragile) &&
  (if mem (snd q) solid || mem (snd q) wordy then match slots_of (r_content r) with [] => true | _ => false end else true) &&
  (if mem (snd q) opaque then forallb (fun q' => match rule_of grammar q' with Some r' => match slots_of (r_content r') with [] => true | _ => false end | None => true end)
     (flat_map fst (slots_of (r_content r))) else true).
Lemma table_tidy : forallb rule_tidy grammar = true. Proof. vm_compute. reflexivity. Qed.
Lemma rule_in : forall l q r, rule_of l q = Some r -> In (q, r) l.
Proof.
  induction l as [|[k r0] l IH]; intros q r E; cbn [rule_of] in E; [discriminate|].
  destruct (String.eqb_spec (fst k) (fst q)) as [E1|]; [destruct (String.eqb_spec (snd k) (snd q)) as [E2|]|]; cbn [andb] in E; [|right; auto|right; auto].
  left. injection E as <-. destruct k, q. cbn in *. now subst.
Qed.
Lemma none_elem : forall b x c, content_fit b x c -> slots_of x = [] -> Forall (fun y => ~ an_elem y) c.
Proof. intros b x c K E. pose proof (content_named _ _ _ K) as N. rewrite E in N. eapply Forall_impl; [|exact N]. intros [q a k| |] Z; cbn; auto. Qed.

Lemma conforms_tidy : forall loose t, conforms grammar loose t -> tidy t.
Proof.
  intros loose t. induction t as [q a c IH|s|] using tree_ind'; intros C; [|constructor|constructor].
  inversion C as [q0 a0 c0 r R A K F|]; subst. pose proof table_tidy as T. rewrite forallb_forall in T. specialize (T _ (rule_in _ _ _ R)). unfold rule_tidy in T.
  apply andb_prop in T as [T T3]. apply andb_prop in T as [T1 T2]. constructor.
  - intros E. rewrite E, String.eqb_refl in T1. discriminate.
  - intros O. apply mem_in in O. rewrite O in T3. rewrite forallb_forall in T3. pose proof (content_named _ _ _ K) as N.
    clear -N T3 F. induction N as [|x l N1 N IH]; constructor; inversion F as [|? ? F1 F2]; subst; auto.
    destruct x as [q' a' c'| |]; cbn; auto. specialize (T3 _ N1). inversion F1 as [q1 a1 c1 r1 R1 A1 K1 G1|]; subst. rewrite R1 in T3.
    eapply none_elem; [exact K1|]. destruct (slots_of (r_content r1)); [reflexivity|discriminate].
  - intros X. assert (M : (mem (snd q) solid || mem (snd q) wordy)%bool = false).
    { destruct (mem (snd q) solid || mem (snd q) wordy)%bool; [|reflexivity]. exfalso.
      assert (E : slots_of (r_content r) = []) by (destruct (slots_of (r_content r)); [reflexivity|discriminate]).
      pose proof (none_elem _ _ _ K E) as N. rewrite Exists_exists in X. destruct X as (x & I & AX). rewrite Forall_forall in N. now apply (N x I). }
    apply orb_false_elim in M as [M1 M2]. split; now apply notin.
  - clear -IH F. induction F as [|x l C F G]; constructor; inversion IH; subst; auto.
Qed.

Inductive nofrag : tree -> Prop :=
| nf_elem : forall q a c, snd q <> fragile -> Forall nofrag c -> nofrag (Elem q a c)
| nf_chr : forall s, nofrag (Chr s)
| nf_cmt : nofrag Cmt.
Lemma nofrag_sturdy : forall t, nofrag t -> sturdy t.
Proof.
  induction t as [q a c IH|s|] using tree_ind'; intros N; [|exact I|exact I]. inversion N as [? ? ? NE F| |]; subst.
  apply sturdy_elem. split; [intros; contradiction|]. clear -IH F. induction F; constructor; inversion IH; subst; auto.
Qed.
Lemma tidy_nofrag : forall t, tidy t -> nofrag t.
Proof.
  induction t as [q a c IH|s|] using tree_ind'; intros N; [|constructor|constructor]. inversion N as [? ? ? NE _ _ F| |]; subst.
  constructor; auto. clear -IH F. induction F; constructor; inversion IH; subst; auto.
Qed.
Lemma tidies_nofrag : forall c, Forall tidy c -> Forall nofrag c.
Proof. intros c F. eapply Forall_impl; [|exact F]. exact tidy_nofrag. Qed.
Definition steps : tree -> tree -> Prop := clos_refl_trans tree (fun t t' => nofrag t /\ spaces t t').
Lemma steps_same : forall t t', steps t t' -> same_to_loader t t'.
Proof.
  intros t t' S. induction S as [t t' [N S]| |]; [|apply rst_refl|eapply rst_trans; eauto].
  apply rst_step. right. right. split; [now apply nofrag_sturdy|assumption].
Qed.
Lemma steps_in : forall q a l1 l2, snd q <> fragile -> ~ In (snd q) opaque -> Forall nofrag l1 -> Forall nofrag l2 ->
  forall x x', steps x x' -> steps (Elem q a (l1 ++ x :: l2)) (Elem q a (l1 ++ x' :: l2)).
Proof.
  intros q a l1 l2 NF NO F1 F2 x x' S. induction S as [x x' [N S]| |]; [|apply rt_refl|eapply rt_trans; eauto].
  apply rt_step. split; [|now apply sp_in]. constructor; auto. apply Forall_app. split; auto.
Qed.

Scheme indents_min := Minimality for indents Sort Prop with indents_all_min := Minimality for indents_all Sort Prop.
Combined Scheme indents_mind from indents_min, indents_all_min.

Lemma indents_childless : forall x x', childless x -> indents x x' -> x' = x.
Proof.
  intros x x' C I. inversion I as [|q a c c' NE F A]; subst; auto. destruct c as [|y c]; [now destruct NE|].
  cbn in C. inversion C; inversion F; subst. contradiction.
Qed.
Lemma indents_steps :
  (forall t t', indents t t' -> tidy t -> steps t t' /\ nofrag t') /\
  (forall c c', indents_all c c' -> forall q a l1, snd q <> fragile -> ~ In (snd q) solid -> ~ In (snd q) wordy -> (In (snd q) opaque -> Forall childless c) ->
     Forall tidy c -> Forall nofrag l1 -> steps (Elem q a (l1 ++ c)) (Elem q a (l1 ++ c')) /\ Forall nofrag c').
Proof.
  apply indents_mind.
  - intros t T. split; [apply rt_refl|now apply tidy_nofrag].
  - intros q a c c' NE F _ IH T. inversion T as [? ? ? NF O X FT| |]; subst.
    assert (EX : Exists an_elem c). { destruct c as [|x c]; [now destruct NE|]. inversion F; subst. now apply Exists_cons_hd. }
    destruct (X EX) as [NS NW]. destruct (IH q a [] NF NS NW O FT ltac:(constructor)) as [S N]. split; [exact S|]. now constructor.
  - intros q a l1 _ _ _ _ _ _. split; [apply rt_refl|constructor].
  - intros x x' l l' I IH _ IHL q a l1 NF NS NW O FT F1. inversion FT as [|? ? T FT']; subst. destruct (IH T) as [S N].
    assert (S1 : steps (Elem q a (l1 ++ x :: l)) (Elem q a (l1 ++ x' :: l))).
    { destruct (in_dec string_dec (snd q) opaque) as [OP|OP].
      - specialize (O OP). inversion O; subst. rewrite (indents_childless x x'); auto. apply rt_refl.
      - apply steps_in; auto. now apply tidies_nofrag. }
    assert (O' : In (snd q) opaque -> Forall childless l) by (intros OP; specialize (O OP); now inversion O).
    destruct (IHL q a (l1 ++ [x']) NF NS NW O' FT') as [S2 N2]. { apply Forall_app. auto. }
    rewrite <- !app_assoc in S2. split; [eapply rt_trans; eauto|]. now constructor.
  - intros s l l' _ IHL q a l1 NF NS NW O FT F1.
    destruct (IHL q a (l1 ++ [Chr s]) NF NS NW O FT) as [S2 N2]. { apply Forall_app. split; auto. constructor; constructor. }
    rewrite <- !app_assoc in S2. split; [|constructor; [constructor|assumption]]. eapply rt_trans; [|exact S2]. apply rt_step. cbn [app]. split; [|now apply sp_text].
    constructor; auto. apply Forall_app. split; auto. now apply tidies_nofrag.
  - intros l l' _ IHL q a l1 NF NS NW O FT F1.
    destruct (IHL q a (l1 ++ [Cmt]) NF NS NW O FT) as [S2 N2]. { apply Forall_app. split; auto. constructor; constructor. }
    rewrite <- !app_assoc in S2. split; [|constructor; [constructor|assumption]]. eapply rt_trans; [|exact S2]. apply rt_step. cbn [app].
    split; [|now apply sp_misc].
    constructor; auto. apply Forall_app. split; auto. now apply tidies_nofrag.
Qed.
Lemma laid_out_same : forall loose t t', conforms grammar loose t -> indents t t' -> same_to_loader t t'.
Proof. intros loose t t' C I. apply steps_same. apply (proj1 indents_steps); auto. eapply conforms_tidy; eauto. Qed.
Lemma saved_laid_out : forall items t, indents (m_document items) t -> same_to_loader (m_document items) t.
Proof. intros items t I. eapply laid_out_same; [|exact I]. exact (own_standard _ (g_document true items)). Qed.
Lemma saved_sturdy : forall items, sturdy (m_document items).
Proof. intros items. apply nofrag_sturdy, tidy_nofrag. eapply conforms_tidy. exact (own_standard _ (g_document true items)). Qed.
