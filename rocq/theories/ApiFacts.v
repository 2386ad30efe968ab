(** Proofs about the API functions. *)
From Coq Require Import String Ascii List Bool Arith NArith ZArith Lia.
From Verif Require Import GoStr Num Lib Types Docx Text Api Keep Copy History RegFacts IdFacts SpecApi SpecEdit.
Import ListNotations.
Local Open Scope list_scope.
Local Open Scope string_scope.

(** ** text *)
Section TextFacts.
Context `{GoLib}.
Variable w : world.

Lemma rconcat_app : forall A (f : A -> res string) a b,
  rconcat f (a ++ b)%list = bind (rconcat f a) (fun s => bind (rconcat f b) (fun t => Ok (s ++ t))).
Proof.
  induction a as [|x a IH]; intros b; cbn.
  - destruct (rconcat f b); reflexivity.
  - destruct (f x) as [s| |]; cbn; auto. rewrite IH. destruct (rconcat f a) as [t| |]; cbn; auto.
    destruct (rconcat f b); cbn; auto. now rewrite sapp_assoc.
Qed.
Lemma rconcat_ok : forall A (f : A -> res string) (g : A -> string) l,
  (forall x, In x l -> f x = Ok (g x)) -> rconcat f l = Ok (sconcat (map g l)).
Proof.
  induction l as [|x l IH]; intros F; cbn; auto. rewrite F by (now left). cbn. rewrite IH; auto. intros; apply F; now right.
Qed.

Lemma plain_child_string : forall c, is_drawing c = false -> rchild_string w c = Ok (child_text c).
Proof. destruct c; cbn; intros; auto; discriminate. Qed.
Lemma plain_run_string : forall r, plain_run r -> rconcat (rchild_string w) (runR_children r) = Ok (run_text r).
Proof. intros r P. apply rconcat_ok. intros; now apply plain_child_string, P. Qed.

Lemma refer_not_panic : forall l id, refer_target_in l id <> Panic.
Proof. induction l; cbn; intros; [discriminate|]. destruct (_ =? _); auto. discriminate. Qed.

Lemma plain_para_string : forall p i d, para_file p = Some i -> nth_error w i = Some d -> plain p ->
  para_string w p = Ok (sconcat (map (child_markdown (resolve_in w i)) (para_children p))).
Proof.
  intros p i d F N P. unfold para_string. apply rconcat_ok. intros c I. destruct c as [r|id r|r]; cbn.
  - now apply plain_run_string, P.
  - rewrite F. unfold file_reg. rewrite N. cbn. unfold resolve_in. rewrite N.
    destruct (refer_target (d_reg d) id); reflexivity.
  - reflexivity.
Qed.

(** the children of a paragraph are rendered one after the other *)
Lemma para_string_add : forall p c, para_string w (add_child c p) =
  bind (para_string w p) (fun s => bind (pchild_string w (para_file p) c) (fun t => Ok (s ++ t))).
Proof.
  intros p c. unfold para_string. destruct p as [[pp ch f]]. cbn. rewrite rconcat_app. cbn.
  destruct (rconcat _ ch); cbn; auto. destruct (pchild_string w f c); cbn; auto. now rewrite sapp_nil_r.
Qed.

Fixpoint linej (first : bool) (l : list string) : string :=
  match l with [] => "" | k :: l' => (if first then "" else String TAB "") ++ k ++ linej false l' end.
Lemma linej_join : forall l, linej false l = match l with [] => "" | _ => String TAB "" ++ join (String TAB "") l end.
Proof. induction l as [|k [|k' l'] IH]; auto. cbn. now rewrite sapp_nil_r. cbn [linej] in *. rewrite IH. cbn [join]. reflexivity. Qed.
Lemma linej_true : forall l, linej true l = join (String TAB "") l.
Proof. destruct l as [|k [|k' l']]; auto. cbn. now rewrite sapp_nil_r. cbn [linej]. change (linej false (k' :: l')) with (linej false (k' :: l')).
  transitivity (k ++ linej false (k' :: l')); [reflexivity|]. rewrite linej_join. reflexivity. Qed.

Lemma line_children_text : forall l b, sconcat (map child_text (line_children b l)) = linej b l.
Proof.
  induction l as [|k l IH]; intros b; cbn [line_children linej]; auto.
  rewrite !map_app, !sconcat_app, IH. f_equal; [destruct b; reflexivity|]. f_equal.
  destruct (String.eqb_spec k ""); [now subst|]. cbn. now rewrite sapp_nil_r.
Qed.
Fixpoint textj (first : bool) (l : list string) : string :=
  match l with [] => "" | k :: l' => (if first then "" else String NL "") ++ k ++ textj false l' end.
Lemma textj_join : forall l, textj false l = match l with [] => "" | _ => String NL "" ++ join (String NL "") l end.
Proof. induction l as [|k [|k' l'] IH]; auto. cbn. now rewrite sapp_nil_r. cbn [textj] in *. rewrite IH. cbn [join]. reflexivity. Qed.
Lemma textj_true : forall l, textj true l = join (String NL "") l.
Proof. destruct l as [|k [|k' l']]; auto. cbn. now rewrite sapp_nil_r.
  transitivity (k ++ textj false (k' :: l')); [reflexivity|]. rewrite textj_join. reflexivity. Qed.
Lemma text_children_text : forall l b, sconcat (map child_text (text_children b l)) = textj b l.
Proof.
  induction l as [|k l IH]; intros b; cbn [text_children textj]; auto.
  rewrite !map_app, !sconcat_app, IH, line_children_text, linej_true, join_split.
  f_equal. destruct b; reflexivity.
Qed.

Lemma line_children_kind : forall l b c, In c (line_children b l) ->
  c = RTab tab0 \/ exists k, c = RText (mk_text "" k) /\ k <> "" /\ In k l.
Proof.
  induction l as [|k l IH]; intros b c I; cbn [line_children] in I; [easy|].
  rewrite !in_app_iff in I. destruct I as [I|[I|I]].
  - destruct b; [easy|]. destruct I as [<-|[]]. auto.
  - destruct (String.eqb_spec k ""); [easy|]. destruct I as [<-|[]]. right. exists k. repeat split; auto. now left.
  - destruct (IH _ _ I) as [->|[k' [-> [A B]]]]; auto. right. exists k'. repeat split; auto. now right.
Qed.
Lemma split_sub : forall c s x, In x (split c s) -> forall e, count e s = 0 -> count e x = 0.
Proof.
  intros c. induction s as [|a s IH]; cbn [split]; intros x I e E.
  - destruct I as [<-|[]]. auto.
  - cbn [count] in E. destruct (Ascii.eqb a c).
    + destruct I as [<-|I]; auto. eapply IH; eauto. lia.
    + destruct (split c s) as [|h t] eqn:Q; [destruct I as [<-|[]]; cbn [count]; lia|].
      destruct I as [<-|I].
      * cbn [count]. assert (count e h = 0) by (apply IH; [now left|lia]). lia.
      * eapply IH; [now right|lia].
Qed.
Lemma text_children_kind : forall l b c, (forall s, In s l -> count NL s = 0) -> In c (text_children b l) ->
  c = RTab tab0 \/ c = RBr "" \/ exists k, c = RText (mk_text "" k) /\ k <> "" /\ count TAB k = 0 /\ count NL k = 0.
Proof.
  induction l as [|s l IH]; intros b c F I; cbn [text_children] in I; [easy|].
  rewrite !in_app_iff in I. destruct I as [I|[I|I]].
  - destruct b; [easy|]. destruct I as [<-|[]]. auto.
  - destruct (line_children_kind _ _ _ I) as [->|[k [-> [A B]]]]; auto. right; right. exists k. repeat split; auto.
    + pose proof (split_parts TAB s) as Q. rewrite Forall_forall in Q. auto.
    + eapply split_sub; eauto. apply F. now left.
  - eapply IH; eauto. intros; apply F; now right.
Qed.

Lemma filter_nil : forall A (f : A -> bool) l, (forall x, In x l -> f x = false) -> filter f l = [].
Proof. induction l; cbn; intros; auto. rewrite H0 by auto. auto. Qed.

Lemma line_tabs : forall l b, length (filter is_tab (line_children b l)) = (if b then length l - 1 else length l).
Proof.
  induction l as [|k l IH]; intros b; cbn [line_children]; [now destruct b|].
  rewrite !filter_app, !app_length, IH. destruct (k =? ""); destruct b; cbn; lia.
Qed.
Lemma line_breaks : forall l b, filter is_break (line_children b l) = [].
Proof. intros. apply filter_nil. intros c I. destruct (line_children_kind _ _ _ I) as [->|[k [-> _]]]; auto. Qed.
Lemma text_breaks : forall l b, length (filter is_break (text_children b l)) = (if b then length l - 1 else length l).
Proof.
  induction l as [|k l IH]; intros b; cbn [text_children]; [now destruct b|].
  rewrite !filter_app, !app_length, IH, line_breaks. destruct b; cbn; lia.
Qed.
Lemma count_split_sum : forall c e s, c <> e -> count e s = fold_right (fun x n => count e x + n) 0 (split c s).
Proof.
  intros c e s N. induction s as [|a s IH]; cbn [split]; auto.
  destruct (Ascii.eqb_spec a c).
  - subst. cbn [fold_right count]. rewrite <- IH. destruct (Ascii.eqb_spec c e); [congruence|]. lia.
  - destruct (split c s) as [|h t] eqn:Q; [exfalso; eapply split_nonempty; eauto|].
    cbn [fold_right count] in *. lia.
Qed.
Lemma text_tabs : forall l b, length (filter is_tab (text_children b l)) = fold_right (fun x n => count TAB x + n) 0 l.
Proof.
  induction l as [|k l IH]; intros b; cbn [text_children fold_right]; auto.
  rewrite !filter_app, !app_length, IH, line_tabs, split_length. destruct b; cbn [filter is_tab length]; lia.
Qed.

Definition text_run (t : string) : run :=
  if String.eqb t (String TAB "") then api_run [RTab tab0] else api_run (text_children true (split NL t)).
Lemma add_text_run : forall t p, add_text t p = add_child (PRun (text_run t)) p.
Proof. intros. unfold add_text, text_run, add_tab. destruct (_ =? _); reflexivity. Qed.
Lemma text_run_text : forall t, run_text (text_run t) = t.
Proof.
  intros. unfold text_run. destruct (String.eqb_spec t (String TAB "")); [now subst|].
  unfold run_text, api_run. cbn [runR_children]. now rewrite text_children_text, textj_true, join_split.
Qed.
Lemma split_nl_free : forall t s, In s (split NL t) -> count NL s = 0.
Proof. intros t s I. pose proof (split_parts NL t) as Q. rewrite Forall_forall in Q. auto. Qed.
Lemma text_run_plain : forall t, plain_run (text_run t).
Proof.
  intros t c I. unfold text_run in I. destruct (t =? _); cbn [api_run runR_children] in I.
  - destruct I as [<-|[]]; auto.
  - destruct (text_children_kind _ _ _ (split_nl_free t) I) as [->|[->|[k [-> _]]]]; auto.
Qed.

Lemma add_text_string : forall t p s, para_string w p = Ok s -> para_string w (add_text t p) = Ok (s ++ t).
Proof.
  intros t p s E. rewrite add_text_run, para_string_add, E. cbn [bind pchild_string].
  rewrite plain_run_string by apply text_run_plain. cbn. now rewrite text_run_text.
Qed.
End TextFacts.

Lemma add_text_structure : forall t p, exists r,
  para_children (add_text t p) = (para_children p ++ [PRun r])%list /\
  para_ppr (add_text t p) = para_ppr p /\ para_file (add_text t p) = para_file p /\
  (forall c, In c (runR_children r) ->
     match c with
     | RText x => text_text x <> "" /\ count "009" (text_text x) = 0 /\ count "010" (text_text x) = 0
     | RTab _ | RBr _ => True
     | RDraw _ _ => False
     end) /\
  length (filter is_tab (runR_children r)) = count "009" t /\
  length (filter is_break (runR_children r)) = count "010" t.
Proof.
  intros t p. exists (text_run t). rewrite add_text_run. destruct p as [[pp ch f]]. cbn [add_child set_para_children para_children para_ppr para_file mk_para para_r paraR_children paraR_ppr paraR_file].
  repeat split; auto.
  - intros c I. unfold text_run in I. destruct (t =? _); cbn [api_run runR_children] in I.
    + destruct I as [<-|[]]; auto.
    + destruct (text_children_kind _ _ _ (split_nl_free t) I) as [->|[->|[k [-> [A [B C]]]]]]; cbn; auto.
  - unfold text_run. destruct (String.eqb_spec t (String TAB "")); [now subst|]. cbn [api_run runR_children].
    rewrite text_tabs. symmetry. apply (count_split_sum NL TAB). discriminate.
  - unfold text_run. destruct (String.eqb_spec t (String TAB "")); [now subst|]. cbn [api_run runR_children].
    rewrite text_breaks, split_length. change NL with "010"%char. lia.
Qed.

(** ** lookups *)
Lemma refer_first : forall l id t, refer_target_in l id = Ok t <-> exists r, first_rel l id r /\ rel_target r = t.
Proof.
  induction l as [|x l IH]; intros id t; cbn [refer_target_in].
  - split; [discriminate|]. intros [r [[a [b [E _]]] _]]. destruct a; discriminate.
  - destruct (String.eqb_spec (rel_id x) id).
    + split.
      * intros [=<-]. exists x. split; auto. exists [], l. repeat split; auto; intros y [].
      * intros [r [[a [b [E [I F]]]] <-]]. destruct a as [|y a]; cbn in E; injection E as E1 E2.
        -- now subst.
        -- subst y. exfalso. apply (F x); [now left|auto].
    + rewrite IH. split; intros [r [[a [b [E [I F]]]] T]].
      * exists r. split; auto. exists (x :: a), b. cbn. rewrite E. repeat split; auto. intros y [<-|J]; auto.
      * exists r. split; auto. destruct a as [|y a]; cbn in E; injection E as E1 E2; [congruence|].
        exists a, b. repeat split; auto. intros z J; apply F; now right.
Qed.
Lemma refer_none : forall l id, refer_target_in l id = Err ERR_REFID <-> ~ In id (map rel_id l).
Proof.
  induction l as [|x l IH]; intros id; cbn [refer_target_in map In]; [tauto|].
  destruct (String.eqb_spec (rel_id x) id).
  - split; [discriminate|tauto].
  - rewrite IH. tauto.
Qed.
Lemma referid_first : forall l tg i, refer_id_in l tg = Ok i <-> exists r, first_target l tg r /\ rel_id r = i.
Proof.
  induction l as [|x l IH]; intros id t; cbn [refer_id_in].
  - split; [discriminate|]. intros [r [[a [b [E _]]] _]]. destruct a; discriminate.
  - destruct (String.eqb_spec (rel_target x) id).
    + split.
      * intros [=<-]. exists x. split; auto. exists [], l. repeat split; auto; intros y [].
      * intros [r [[a [b [E [I F]]]] <-]]. destruct a as [|y a]; cbn in E; injection E as E1 E2.
        -- now subst.
        -- subst y. exfalso. apply (F x); [now left|auto].
    + rewrite IH. split; intros [r [[a [b [E [I F]]]] T]].
      * exists r. split; auto. exists (x :: a), b. cbn. rewrite E. repeat split; auto. intros y [<-|J]; auto.
      * exists r. split; auto. destruct a as [|y a]; cbn in E; injection E as E1 E2; [congruence|].
        exists a, b. repeat split; auto. intros z J; apply F; now right.
Qed.
Lemma referid_none : forall l id, refer_id_in l id = Err ERR_REFID <-> ~ In id (map rel_target l).
Proof.
  induction l as [|x l IH]; intros id; cbn [refer_id_in map In]; [tauto|].
  destruct (String.eqb_spec (rel_target x) id).
  - split; [discriminate|tauto].
  - rewrite IH. tauto.
Qed.
Lemma refer_inverse : forall l tg i, NoDup (map rel_id l) -> refer_id_in l tg = Ok i -> refer_target_in l i = Ok tg.
Proof.
  intros l tg i N R. apply referid_first in R. destruct R as [r [[a [b [E [T F]]]] I]].
  apply refer_first. exists r. split; auto. exists a, b. repeat split; auto.
  intros x J Q. rewrite E, map_app in N. cbn in N. apply NoDup_remove_2 in N. apply N.
  rewrite I, <- Q. apply in_app_iff. left. now apply in_map.
Qed.
Lemma last_named_spec : forall n l m, last_named n l = Some m <-> last_media l n m.
Proof.
  intros n l. induction l as [|x l IH]; intros m; cbn [last_named].
  - split; [discriminate|]. intros [a [b [E _]]]. destruct a; discriminate.
  - destruct (last_named n l) as [y|] eqn:Q.
    + split.
      * intros [=->]. destruct (proj1 (IH m) eq_refl) as [a [b [E [I F]]]]. exists (x :: a), b. cbn. rewrite E. auto.
      * intros [a [b [E [I F]]]]. destruct a as [|z a]; cbn in E; injection E as E1 E2.
        -- subst. exfalso. destruct (last_named_some _ _ _ Q) as [J K]. apply (F y); auto.
        -- apply IH. exists a, b. auto.
    + destruct (String.eqb_spec (fst x) n).
      * split.
        -- intros [=->]. exists [], l. repeat split; auto. intros z J K.
           assert (last_named n l <> None); [|congruence]. clear - J K. induction l as [|u l IH]; [easy|]. cbn.
           destruct J as [->|J]; [destruct (last_named n l); [discriminate|]; rewrite K, seqb_refl; discriminate|].
           destruct (last_named n l); [discriminate|]. exfalso; now apply IH.
        -- intros [a [b [E [I F]]]]. destruct a as [|z a]; cbn in E; injection E as E1 E2; [congruence|].
           subst. exfalso. assert (K : None = Some m) by (apply IH; exists a, b; auto). discriminate K.
      * split; [discriminate|]. intros [a [b [E [I F]]]]. destruct a as [|z a]; cbn in E; injection E as E1 E2; [congruence|].
        subst. exfalso. assert (K : None = Some m) by (apply IH; exists a, b; auto). discriminate K.
Qed.
Lemma last_named_none_iff : forall n l, last_named n l = None <-> ~ In n (map fst l).
Proof.
  intros. split; [|apply last_named_none]. induction l as [|x l IH]; cbn; intros E; [tauto|].
  destruct (last_named n l); [discriminate|]. destruct (String.eqb_spec (fst x) n); [discriminate|]. intros [|J]; auto. now apply IH.
Qed.

(** ** RangeRelationships *)
Section Range.
Variable S : Type.
Variable iter : rel -> S -> rel * S * option string.
Lemma range_all : forall l s s', range_rels iter l s = (s', None) <-> all_calls iter l s = Some s'.
Proof.
  induction l as [|r l IH]; intros s s'; cbn.
  - split; congruence.
  - destruct (iter r s) as [[r1 s1] [e|]]; [split; discriminate|]. apply IH.
Qed.
Lemma range_stop : forall l s s' e, range_rels iter l s = (s', Some e) <->
  exists a r b s1 r', l = (a ++ r :: b)%list /\ all_calls iter a s = Some s1 /\ iter r s1 = (r', s', Some e).
Proof.
  induction l as [|r l IH]; intros s s' e; cbn.
  - split; [discriminate|]. intros [a [r [b [s1 [r' [E _]]]]]]. destruct a; discriminate.
  - destruct (iter r s) as [[r1 s1] [e1|]] eqn:Q.
    + split.
      * intros [=<-<-]. exists [], r, l, s, r1. auto.
      * intros [a [r2 [b [s2 [r' [E [A B]]]]]]]. destruct a as [|z a]; cbn in E; injection E as E1 E2; subst.
        -- cbn in A. injection A as <-. congruence.
        -- cbn in A. rewrite Q in A. discriminate.
    + rewrite IH. split; intros [a [r2 [b [s2 [r' [E [A B]]]]]]].
      * exists (r :: a), r2, b, s2, r'. cbn. rewrite Q, E. auto.
      * destruct a as [|z a]; cbn in E; injection E as E1 E2; subst.
        -- cbn in A. injection A as <-. congruence.
        -- cbn in A. rewrite Q in A. exists a, r2, b, s2, r'. auto.
Qed.
End Range.
