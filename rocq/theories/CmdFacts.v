(** What the program that comes with the package does. *)
From Coq Require Import String Ascii List Bool Arith NArith ZArith Lia Permutation.
From Verif Require Import GoStr Num Lib Types Docx Api Keep Copy Text Pack Theme History SpecApi SpecCopy SpecPack SpecReopen SpecCmd Cmd
  PackFacts CopyFacts2 HistInv ReopenFacts ReopenFacts2.
Import ListNotations.
Local Open Scope list_scope.
Local Open Scope string_scope.

(** ** slices *)
Lemma sub_all : forall s, substring 0 (String.length s) s = s.
Proof. induction s as [|a s IH]; cbn; [reflexivity|]. now rewrite IH. Qed.
Lemma sub_front : forall u v, substring 0 (String.length u) (u ++ v) = u.
Proof. induction u as [|a u IH]; intros v; cbn; [destruct v; reflexivity|]. now rewrite IH. Qed.
Lemma sub_mid : forall u v w, substring (String.length u) (String.length v) (u ++ v ++ w) = v.
Proof. induction u as [|a u IH]; intros v w; cbn [String.append String.length substring]; [apply sub_front|]. destruct v; apply (IH _ w). Qed.
Lemma sub_back : forall u v, substring (String.length u) (String.length v) (u ++ v) = v.
Proof. intros u v. rewrite <- (sapp_nil_r v) at 2. apply sub_mid. Qed.
Lemma slice_front : forall u v, slice 0 (Z.of_nat (String.length u)) (u ++ v) = Ok u.
Proof.
  intros u v. unfold slice. rewrite slength_app. rewrite (proj2 (andb_true_iff _ _)) by (rewrite andb_true_iff, !Z.leb_le; lia).
  rewrite Z.sub_0_r, Nat2Z.id. cbn [Z.to_nat]. now rewrite sub_front.
Qed.
Lemma slice_mid : forall u v w i j, i = Z.of_nat (String.length u) -> j = Z.of_nat (String.length u + String.length v) -> slice i j (u ++ v ++ w) = Ok v.
Proof.
  intros u v w i j -> ->. unfold slice. rewrite !slength_app. rewrite (proj2 (andb_true_iff _ _)) by (rewrite andb_true_iff, !Z.leb_le; lia). rewrite Nat2Z.id.
  replace (Z.to_nat (Z.of_nat (String.length u + String.length v) - Z.of_nat (String.length u))) with (String.length v) by lia. now rewrite sub_mid.
Qed.
Lemma end_back : forall u v i, i = Z.of_nat (String.length u) -> to_end i (u ++ v) = Ok v.
Proof. intros u v i ->. unfold to_end. replace (u ++ v) with (u ++ v ++ "") by now rewrite sapp_nil_r. apply slice_mid; [reflexivity|]. rewrite !slength_app. cbn [String.length]. now rewrite Nat.add_0_r. Qed.

Lemma last_none : forall c s, count c s = 0 -> last_index c s = (-1)%Z.
Proof. induction s as [|a s IH]; cbn; [reflexivity|]. intros E. destruct (Ascii.eqb a c); [discriminate|]. rewrite IH by assumption. reflexivity. Qed.
Lemma last_at : forall c u v, count c v = 0 -> last_index c (u ++ String c v) = Z.of_nat (String.length u).
Proof.
  induction u as [|a u IH]; intros v E; cbn [String.append last_index String.length].
  - rewrite last_none by assumption. now rewrite Ascii.eqb_refl.
  - rewrite IH by assumption. rewrite (proj2 (Z.leb_le _ _)) by lia. lia.
Qed.
Lemma last_lt : forall c s, (last_index c s < Z.of_nat (String.length s))%Z.
Proof. induction s as [|a s IH]; cbn [last_index String.length]; [lia|]. destruct (0 <=? _)%Z; [lia|]. destruct (Ascii.eqb a c); lia. Qed.
Lemma last_front : forall c u v, count c v = 0 -> last_index c (u ++ v) = last_index c u.
Proof. induction u as [|a u IH]; intros v E; cbn [String.append last_index]; [now apply last_none|]. now rewrite IH. Qed.

Lemma stands_some : forall loc, exists dir base, stands loc dir base.
Proof.
  assert (D : forall c s, count c s = 0 \/ exists u v, s = u ++ String c v /\ count c v = 0).
  { induction s as [|a s IH]; [now left|]. destruct IH as [IH|(u & v & -> & E)].
    - cbn. destruct (Ascii.eqb a c) eqn:Q; [|left; assumption]. right. exists "", s. apply Ascii.eqb_eq in Q. subst. auto.
    - right. exists (String a u), v. auto. }
  intros loc. destruct (D "/"%char loc) as [E|(u & v & -> & E)].
  - exists "", loc. split; auto.
  - exists (u ++ "/"), v. split; [now rewrite <- sapp_assoc|]. split; [right; eauto|assumption].
Qed.
Lemma stands_last : forall loc dir base, stands loc dir base -> (last_index "/" loc + 1)%Z = Z.of_nat (String.length dir).
Proof.
  intros loc dir base (-> & [->|(d & ->)] & E).
  - cbn. now rewrite last_none.
  - rewrite <- sapp_assoc. cbn [String.append]. rewrite last_at by assumption. rewrite slength_app. cbn [String.length]. lia.
Qed.
Lemma unm_named : forall loc dir base, stands loc dir base -> unm_name loc = Ok (dir ++ "unmarshal_" ++ base).
Proof.
  intros loc dir base S. unfold unm_name. rewrite (stands_last _ _ _ S). destruct S as (-> & _). rewrite slice_front. cbn [bind]. rewrite (end_back dir base) by reflexivity. reflexivity.
Qed.
Lemma split_named : forall loc dir base stem ext k, stands loc dir base -> dotted base stem ext ->
  split_name loc k = Ok (dir ++ "unmarshal_" ++ stem ++ "_split" ++ itoa (Z.of_nat k) ++ "." ++ ext).
Proof.
  intros loc dir base stem ext k S (-> & E). unfold split_name. rewrite (stands_last _ _ _ S). destruct S as (-> & _). rewrite slice_front. cbn [bind].
  assert (B : last_index "." (dir ++ stem ++ "." ++ ext) = Z.of_nat (String.length dir + String.length stem)).
  { rewrite sapp_assoc. cbn [String.append]. rewrite last_at by assumption. now rewrite slength_app. }
  rewrite B. rewrite (slice_mid dir stem) by reflexivity. cbn [bind]. rewrite sapp_assoc. rewrite (end_back (dir ++ stem)) by now rewrite slength_app. reflexivity.
Qed.
Lemma split_unnamed : forall loc dir base k, stands loc dir base -> count "." base = 0 -> split_name loc k = Panic.
Proof.
  intros loc dir base k S E. unfold split_name. pose proof (stands_last _ _ _ S) as Q. rewrite Q. destruct S as (-> & _). rewrite slice_front. cbn [bind].
  rewrite last_front by assumption. pose proof (last_lt "."%char dir) as P. unfold slice at 1. rewrite (proj2 (Z.leb_gt (Z.of_nat (String.length dir)) _)) by lia. now rewrite andb_false_r.
Qed.
Lemma dot_or_not : forall base, count "." base = 0 \/ exists stem ext, dotted base stem ext.
Proof.
  induction base as [|a s IH]; [now left|]. destruct IH as [IH|(u & v & -> & E)].
  - cbn. destruct (Ascii.eqb a ".") eqn:Q; [|left; assumption]. right. exists "", s. apply Ascii.eqb_eq in Q. subst. split; auto.
  - right. exists (String a u), v. split; auto.
Qed.
Lemma dup_named : forall loc dir base, stands loc dir base ->
  dup_name loc = Ok (if (2 <=? String.length dir)%nat then dir ++ "dup_/" ++ base else "dup_" ++ loc).
Proof.
  intros loc dir base S. unfold dup_name. pose proof (stands_last _ _ _ S) as Q. destruct (2 <=? String.length dir)%nat eqn:D.
  - apply Nat.leb_le in D. rewrite (proj2 (Z.ltb_lt _ _)) by lia. rewrite Q. destruct S as (-> & [->|(d & ->)] & E); [cbn in D; lia|]. rewrite slice_front. cbn [bind].
    rewrite slength_app in Q. cbn [String.length] in Q. rewrite <- (sapp_assoc d). rewrite (end_back d) by (rewrite sapp_assoc; lia). cbn [bind]. reflexivity.
  - apply Nat.leb_gt in D. rewrite (proj2 (Z.ltb_ge _ _)) by lia. reflexivity.
Qed.

(** ** programs *)
Lemma seqp_done : forall A B (p : prog A) (k : A -> prog B) es y, seqp p k = (es, Some y) ->
  exists e1 x e2, p = (e1, Some x) /\ k x = (e2, Some y) /\ es = (e1 ++ e2)%list.
Proof.
  intros A B [e1 [x|]] k es y E; cbn in E; [|discriminate]. destruct (k x) as (e2, r) eqn:K. cbn in E. injection E as <- ->. exists e1, x, e2. auto.
Qed.
Lemma seqp_some : forall A B (p : prog A) (k : A -> prog B) e1 x, p = (e1, Some x) -> seqp p k = ((e1 ++ fst (k x))%list, snd (k x)).
Proof. intros A B p k e1 x ->. reflexivity. Qed.
Lemma lift_done : forall A (r : res A) es x, lift r = (es, Some x) -> es = [] /\ r = Ok x.
Proof. intros A [y|e|] es x E; cbn in E; try discriminate. injection E as <- <-. auto. Qed.
Lemma emit_done : forall e es u, emit e = (es, Some u) -> es = [e].
Proof. intros e es u E. now injection E as <- _. Qed.
Lemma ret_done : forall A (x y : A) es, ret x = (es, Some y) -> es = [] /\ x = y.
Proof. intros A x y es E. injection E as <- <-. auto. Qed.
Lemma lines_app : forall a b, lines (a ++ b)%list = (lines a ++ lines b)%list.
Proof. intros. apply flat_map_app. Qed.
Lemma made_app : forall a b, made (a ++ b)%list = (made a ++ made b)%list.
Proof. intros. apply flat_map_app. Qed.
Lemma each_done : forall A (f : A -> prog unit) l es u, each f l = (es, Some u) -> exists ess, Forall2 (fun x e => f x = (e, Some tt)) l ess /\ es = concat ess.
Proof.
  induction l as [|x l IH]; cbn [each]; intros es u E.
  - apply ret_done in E as [-> _]. exists []. auto.
  - apply seqp_done in E as (e1 & [] & e2 & A1 & A2 & ->). destruct (IH _ _ A2) as (ess & B1 & ->). exists (e1 :: ess). auto.
Qed.
Lemma written_app : forall a b, written (a ++ b)%list = (written a ++ written b)%list.
Proof. intros. apply flat_map_app. Qed.
Lemma seqp_in : forall A B (p : prog A) (k : A -> prog B) e, In e (fst (seqp p k)) -> In e (fst p) \/ exists x, snd p = Some x /\ In e (fst (k x)).
Proof.
  intros A B [e1 [x|]] k e I; cbn in *; [|now left]. apply in_app_iff in I as [I|I]; [now left|]. right. eauto.
Qed.
Lemma lift_in : forall A (r : res A) e, ~ In e (fst (lift r)).
Proof. intros A [y|s|] e I; exact I. Qed.
Lemma lift_some : forall A (r : res A) x, snd (lift r) = Some x -> r = Ok x.
Proof. intros A [y|s|] x E; cbn in E; congruence. Qed.
Lemma each_in : forall A (f : A -> prog unit) l e, In e (fst (each f l)) -> exists x, In x l /\ In e (fst (f x)).
Proof.
  induction l as [|x l IH]; cbn [each]; intros e I; [destruct I|]. apply seqp_in in I as [I|([] & _ & I)]; [exists x; cbn; auto|].
  destruct (IH e I) as (y & Y1 & Y2). exists y. cbn. auto.
Qed.

(** ** strings *)
Section Strings.
Context `{GoLib}.
Variables w w' : world.
Hypothesis R : forall f, file_reg w' f = file_reg w f.
Lemma rconcat_ext : forall A B (f : A -> res string) (g : B -> res string) l l', Forall2 (fun x y => g y = f x) l l' -> rconcat g l' = rconcat f l.
Proof. intros A B f g l l' F. induction F as [|x y l l' E F IH]; cbn; [reflexivity|]. now rewrite E, IH. Qed.
Lemma f2_same : forall A (P : A -> A -> Prop) l, (forall x, P x x) -> Forall2 P l l.
Proof. intros A P l E. induction l; auto. Qed.
Lemma f2_len : forall A B (P : A -> B -> Prop) l l', Forall2 P l l' -> length l = length l'.
Proof. intros A B P l l' F. induction F; cbn; congruence. Qed.
Lemma gdata_ext : forall k f dp x, gdata_string w' k f dp x = gdata_string w k f dp x.
Proof. intros. unfold gdata_string, pic_hash. now rewrite R. Qed.
Lemma inline_ext : forall i, inline_string w' i = inline_string w i.
Proof. intros i. unfold inline_string. destruct (inlineR_graphic i) as [g|]; [|reflexivity]. destruct (graphicR_data g); [|reflexivity]. apply gdata_ext. Qed.
Lemma anchor_ext : forall i, anchor_string w' i = anchor_string w i.
Proof. intros i. unfold anchor_string. destruct (anchorR_graphic i) as [g|]; [|reflexivity]. destruct (graphicR_data g); [|reflexivity]. apply gdata_ext. Qed.
Lemma rchild_ext : forall c, rchild_string w' c = rchild_string w c.
Proof. intros [t|t|b|[i|] [a|]]; cbn [rchild_string]; auto using inline_ext, anchor_ext. Qed.
Lemma para_ext : forall p q, para_children q = para_children p -> para_file q = para_file p -> para_string w' q = para_string w p.
Proof.
  intros p q C F. unfold para_string. rewrite C, F. apply rconcat_ext, f2_same. intros [r|id r|r]; cbn [pchild_string].
  - apply rconcat_ext, f2_same, rchild_ext.
  - now rewrite R.
  - reflexivity.
Qed.
Lemma cell_ext : forall c e, bared_cell c e \/ e = c -> cell_string w' e = cell_string w c.
Proof.
  intros c e [(_ & _ & F)| ->]; unfold cell_string.
  - destruct F as [|p q l l' (_ & C & G) F]; [reflexivity|]. pose proof (para_ext p q C G) as X. rewrite C. destruct (para_children p); [reflexivity|]. now rewrite X.
  - destruct (cell_paras c) as [|p l]; [reflexivity|]. destruct (para_children p); [reflexivity|]. now rewrite (para_ext p p eq_refl eq_refl).
Qed.
Lemma table_ext : forall t u, Forall2 bared_row (table_rows t) (table_rows u) \/ u = t -> table_string w' u = table_string w t.
Proof.
  assert (G : forall t u, Forall2 (fun r s => Forall2 (fun c e => cell_string w' e = cell_string w c) (row_cells r) (row_cells s)) (table_rows t) (table_rows u) -> table_string w' u = table_string w t).
  { intros t u F. unfold table_string. pose proof F as F0. destruct F as [|r s l l' C F]; [reflexivity|].
    pose proof (f2_len _ _ _ _ _ C) as Lc. destruct (row_cells r) as [|c0 cs] eqn:E1, (row_cells s) as [|d0 ds] eqn:E2; try discriminate Lc; [reflexivity|]. rewrite <- E1, <- E2 in *.
    rewrite (rconcat_ext _ _ (fun r => bind (rconcat (cell_string w) (row_cells r)) (fun s => Ok (String "010" ("|" ++ s)))) (fun r => bind (rconcat (cell_string w') (row_cells r)) (fun s => Ok (String "010" ("|" ++ s)))) (r :: l) (s :: l')).
    - now rewrite Lc.
    - revert F0. generalize (r :: l) (s :: l'). intros k k' F0. induction F0 as [|a b k k' E F1 IH]; constructor; [|exact IH]. now rewrite (rconcat_ext _ _ _ _ _ _ E). }
  intros t u [F| ->]; apply G.
  - induction F as [|a b l l' (_ & C) F IH]; constructor; [|exact IH]. clear -C R. induction C; constructor; auto. apply cell_ext. auto.
  - apply f2_same. intros r. apply f2_same. intros c. apply cell_ext. auto.
Qed.
Lemma shown_ext : forall l l' ls, Forall2 (fun x y => bared x y \/ y = x) l l' -> (shown w' l' ls <-> shown w l ls).
Proof.
  intros l l' ls F. revert ls. induction F as [|x y l l' E F IH]; intros ls.
  - split; intros S; inversion S; constructor.
  - destruct x as [p|t|s], y as [q|u|r]; try (destruct E as [[]|E]; discriminate E).
    + assert (Q : para_string w' q = para_string w p) by (destruct E as [(_ & A & B)|E]; [now apply para_ext|injection E as ->; now apply para_ext]).
      split; intros S; inversion S; subst; constructor; try congruence; now apply IH.
    + assert (Q : table_string w' u = table_string w t) by (apply table_ext; destruct E as [(_ & _ & B)|E]; [now left|injection E as ->; now right]).
      split; intros S; inversion S; subst; constructor; try congruence; now apply IH.
    + split; intros S; inversion S; subst; constructor; now apply IH.
Qed.
End Strings.

Lemma bare_is : forall x, bared x (bare_item x).
Proof.
  assert (P : forall l, Forall2 bared_para l (map bare_para l)) by (induction l; constructor; auto; repeat split).
  assert (C : forall l, Forall2 bared_cell l (map bare_cell l)) by (induction l; constructor; auto; repeat split; apply P).
  assert (T : forall l, Forall2 bared_row l (map bare_row l)) by (induction l; constructor; auto; split; [reflexivity|apply C]).
  intros [p|t|s]; cbn; [repeat split|repeat split; apply T|reflexivity].
Qed.
Lemma bare_all : forall l, Forall2 bared l (map bare_item l).
Proof. induction l; constructor; auto using bare_is. Qed.
