(** The grammar is what the reader takes: no more and no less. *)
From Coq Require Import String Ascii List Bool Arith NArith ZArith Lia.
From Verif Require Import GoStr Num Lib XmlTok DecLemmas Lex LexFuel SpecLex LexFacts LexFacts3 SpecForm FormNames FormText FormMarkup.
Import ListNotations.
Local Open Scope list_scope.
Local Open Scope string_scope.

Scheme tree_spelling_ind' := Minimality for tree_spelling Sort Prop
  with list_spelling_ind' := Minimality for list_spelling Sort Prop.
Combined Scheme spelling_ind from tree_spelling_ind', list_spelling_ind'.

Local Lemma toks_elem : forall q a c, toks (Elem q a c) = (TStart q a :: ftoks c ++ [TEnd q])%list.
Proof. reflexivity. Qed.
Local Lemma ftoks_cons : forall t l, ftoks (t :: l) = (toks t ++ ftoks l)%list. Proof. reflexivity. Qed.
Definition breaks (r : string) : Prop := r = "" \/ exists u, r = String "<" u.
Lemma token_lex : forall ts s rest, token_spelling ts s -> lex (s ++ rest) = (ts ++ lex rest)%list.
Proof. intros ts s rest H. apply LexFuel.lex_step. now apply raw_spelled. Qed.
Lemma markup_lt : forall t s, tree_spelling t s -> exists u, s = String "<" u.
Proof. intros t s H. destruct H; eexists; reflexivity. Qed.
Lemma list_breaks : forall s rest, breaks s -> breaks rest -> breaks (s ++ rest).
Proof. intros s rest [->|(u & ->)] R; [exact R|]. right. eexists. reflexivity. Qed.
Lemma spelled_lex_both : (forall t s, tree_spelling t s -> forall rest, lex (s ++ rest) = (toks t ++ lex rest)%list) /\
  (forall l s, list_spelling l s -> forall rest, breaks rest -> lex (s ++ rest) = (ftoks l ++ lex rest)%list).
Proof.
  apply spelling_ind.
  - intros q a c sa s w1 w2 G A NE W1 W2 _ IH rest.
    replace (("<" ++ name q ++ sa ++ w1 ++ ">" ++ s ++ "</" ++ name q ++ w2 ++ ">") ++ rest)
      with (("<" ++ name q ++ sa ++ w1 ++ ">") ++ s ++ ("</" ++ name q ++ w2 ++ ">") ++ rest) by (repeat first [rewrite <- sapp_assoc | progress cbn [append]]; reflexivity).
    rewrite (token_lex _ _ _ (k_start q a sa w1 G A NE W1)), IH by (right; eexists; reflexivity). rewrite (token_lex _ _ _ (k_end q w2 G W2)), toks_elem. cbn [app]. now rewrite <- app_assoc.
  - intros q a sa w1 G A NE W1 rest. exact (token_lex _ _ _ (k_empty q a sa w1 G A NE W1)).
  - intros v s LN X L rest. exact (token_lex _ _ _ (k_cdata _ _ (ts_cdata v s LN X L))).
  - intros s L rest. exact (token_lex _ _ _ (k_misc _ (ts_comment s L))).
  - intros n w d N W NE B L A rest. exact (token_lex _ _ _ (k_misc _ (ts_pi n w d N W NE B L A))).
  - intros a s NA T rest. exact (token_lex _ _ _ (k_misc _ (ts_doctype a s NA T))).
  - reflexivity.
  - intros t s l s' _ IT _ IL rest R. rewrite <- sapp_assoc, IT, IL by assumption. rewrite ftoks_cons. now rewrite app_assoc.
  - intros v s l s' N SP X L _ IL B rest R. rewrite <- sapp_assoc.
    rewrite (LexFuel.lex_step _ _ _ (raw_text v s (s' ++ rest) (conj N (conj SP (conj X (conj L (list_breaks s' rest B R))))))). now rewrite IL.
Qed.
Lemma spelled_lex : forall l s, list_spelling l s -> lex s = ftoks l.
Proof. intros l s H. rewrite <- (sapp_nil_r s). rewrite (proj2 spelled_lex_both l s H) by now left. change (lex "") with (@nil token). apply app_nil_r. Qed.

(** ** the other way *)
Lemma lex_cases : forall s, s = "" /\ lex s = [] \/ lex s = [TErr] \/
  exists ts s1 r, s = s1 ++ r /\ lex s = (ts ++ lex r)%list /\ (token_spelling ts s1 \/ exists v, ts = [TChar v] /\ text_spelling v s1 r).
Proof.
  intros s. destruct s as [|a s]; [now left|]. right. destruct (raw_token (String a s)) as [[ts r]|] eqn:E.
  - right. destruct (raw_inv _ _ _ E) as (s1 & ES & H). exists ts, s1, r. rewrite (LexFuel.lex_step _ _ _ E). auto.
  - left. now apply lex_stop.
Qed.
Lemma ftoks_no_end : forall c q rest l, (ftoks c ++ rest)%list = TEnd q :: l -> c = [].
Proof. intros [|[q' a d|s|] c] q rest l E; [reflexivity|discriminate E..]. Qed.
Definition split_tree (t : tree) : Prop := forall s rest, lex s = (toks t ++ rest)%list ->
  exists s1 s2, s = s1 ++ s2 /\ lex s2 = rest /\ (tree_spelling t s1 \/ exists v, t = Chr v /\ text_spelling v s1 s2).
Lemma split_list : forall l, Forall split_tree l -> forall s rest, lex s = (ftoks l ++ rest)%list -> exists s1 s2, s = s1 ++ s2 /\ lex s2 = rest /\ list_spelling l s1.
Proof.
  intros l F. induction F as [|t l P F IH]; intros s rest E.
  - exists "", s. split; [reflexivity|]. split; [exact E|constructor].
  - rewrite ftoks_cons, <- app_assoc in E. destruct (P _ _ E) as (s1 & s2 & -> & E2 & H). destruct (IH _ _ E2) as (s3 & s4 & -> & E4 & H').
    exists (s1 ++ s3), s4. split; [apply sapp_assoc|]. split; [exact E4|]. destruct H as [H|(v & -> & N & SP & X & L & R)]; [now apply ls_markup|].
    apply ls_text; auto. destruct s3 as [|a s3]; [now left|]. right. destruct R as [R|(u & R)]; [discriminate R|]. injection R as -> _. eauto.
Qed.
Lemma split_all : forall t, split_tree t.
Proof.
  induction t as [q a c P|v|] using tree_ind'; intros s rest E.
  - rewrite toks_elem in E. cbn [app] in E. rewrite <- app_assoc in E. cbn [app] in E.
    destruct (lex_cases s) as [[-> K]|[K|(ts & s1 & r & -> & K & H)]]; [rewrite K in E; discriminate E..|]. rewrite K in E. clear K.
    destruct H as [H|(v & -> & _)]; [|discriminate E].
    inversion H as [q' a' sa w G A NE W|q' a' sa w G A NE W|q' w G W|v s' T|s' T]; subst; try discriminate E.
    + cbn [app] in E. injection E as -> -> E. destruct (split_list c P _ _ E) as (s3 & s4 & -> & E4 & HL).
      destruct (lex_cases s4) as [[-> K]|[K|(ts & s5 & r & -> & K & H')]]; [rewrite K in E4; discriminate E4..|]. rewrite K in E4. clear K.
      destruct H' as [H'|(v & -> & _)]; [|discriminate E4].
      inversion H' as [q' a' sa' w' G' A' NE' W'|q' a' sa' w' G' A' NE' W'|q' w' G' W'|v s' T|s' T]; subst; try discriminate E4.
      injection E4 as -> <-. exists ("<" ++ name q ++ sa ++ w ++ ">" ++ s3 ++ "</" ++ name q ++ w' ++ ">"), r.
      split; [repeat first [rewrite <- sapp_assoc | progress cbn [append]]; reflexivity|]. split; [reflexivity|]. left. now apply ts_elem.
    + cbn [app] in E. injection E as -> -> E. symmetry in E. assert (c = []) as -> by now apply ftoks_no_end in E. injection E as ->.
      exists ("<" ++ name q ++ sa ++ w ++ "/>"), r. split; [reflexivity|]. split; [auto|]. left. now apply ts_empty.
  - change (toks (Chr v) ++ rest)%list with (TChar v :: rest) in E.
    destruct (lex_cases s) as [[-> K]|[K|(ts & s1 & r & -> & K & H)]]; [rewrite K in E; discriminate E..|]. rewrite K in E. clear K.
    destruct H as [H|(v' & -> & T)].
    + inversion H as [q' a' sa w G A NE W|q' a' sa w G A NE W|q' w G W|v' s' T|s' T]; subst; try discriminate E. injection E as -> <-. exists s1, r. auto.
    + injection E as -> <-. exists s1, r. split; [reflexivity|]. split; [reflexivity|]. right. eauto.
  - change (toks Cmt ++ rest)%list with (TMisc :: rest) in E.
    destruct (lex_cases s) as [[-> K]|[K|(ts & s1 & r & -> & K & H)]]; [rewrite K in E; discriminate E..|]. rewrite K in E. clear K.
    destruct H as [H|(v & -> & _)]; [|discriminate E].
    inversion H as [q' a' sa w G A NE W|q' a' sa w G A NE W|q' w G W|v s' T|s' T]; subst; try discriminate E. injection E as <-. exists s1, r. auto.
Qed.
Lemma lex_split : forall l s rest, lex s = (ftoks l ++ rest)%list -> exists s1 s2, s = s1 ++ s2 /\ lex s2 = rest /\ list_spelling l s1.
Proof. intros l. apply split_list. apply Forall_forall. intros t _. apply split_all. Qed.
Lemma lex_nil : forall s, lex s = [] -> s = "".
Proof.
  intros s E. destruct (lex_cases s) as [[-> _]|[K|(ts & s1 & r & -> & K & H)]]; [reflexivity|rewrite K in E; discriminate E|]. exfalso. rewrite K in E. apply app_eq_nil in E as [-> _].
  destruct H as [H|(v & K' & _)]; [inversion H|discriminate K'].
Qed.
Lemma lex_exact : forall l s, lex s = ftoks l <-> list_spelling l s.
Proof.
  intros l s. split; [|apply spelled_lex]. intros E. rewrite <- (app_nil_r (ftoks l)) in E. destruct (lex_split _ _ _ E) as (s1 & s2 & -> & E2 & H).
  apply lex_nil in E2. subst s2. now rewrite sapp_nil_r.
Qed.
