(** Byte strings (Go [string] and [[]byte]) and the few operations of package
    strings that the modelled code uses. Facts only about these helpers. *)
From Coq Require Import String Ascii List Bool Arith Lia.
Import ListNotations.
Local Open Scope string_scope.

(** strings.HasPrefix *)
Fixpoint has_prefix (p s : string) : bool :=
  match p, s with
  | "", _ => true
  | String a p', String b s' => Ascii.eqb a b && has_prefix p' s'
  | _, "" => false
  end.

(** Go slice expression s[n:]; [None] models the run time panic
    (slice bounds out of range) when n > len(s). *)
Fixpoint drop (n : nat) (s : string) : option string :=
  match n, s with
  | O, _ => Some s
  | S n', String _ s' => drop n' s'
  | S _, "" => None
  end.

(** strings.Split(s, sep) for a separator of one byte: never empty. *)
Fixpoint split (c : ascii) (s : string) : list string :=
  match s with
  | "" => [""]
  | String a s' =>
      if Ascii.eqb a c then "" :: split c s'
      else match split c s' with
           | [] => [String a ""]
           | h :: t => String a h :: t
           end
  end.

(** Number of occurrences of a byte. *)
Fixpoint count (c : ascii) (s : string) : nat :=
  match s with
  | "" => 0
  | String a s' => (if Ascii.eqb a c then 1 else 0) + count c s'
  end.

(** strings.LastIndex(s, ".")+1 used as a slice bound: the suffix of s after
    the last occurrence of byte c, or all of s when there is none. *)
Fixpoint after_last (c : ascii) (s : string) : string :=
  match s with
  | "" => ""
  | String a s' =>
      if Nat.ltb 0 (count c s') then after_last c s'
      else if Ascii.eqb a c then s' else s
  end.

Fixpoint join (sep : string) (l : list string) : string :=
  match l with
  | [] => ""
  | [x] => x
  | x :: l' => x ++ sep ++ join sep l'
  end.

Fixpoint sconcat (l : list string) : string :=
  match l with
  | [] => ""
  | x :: l' => x ++ sconcat l'
  end.

Lemma sapp_nil_r : forall s, s ++ "" = s.
Proof. induction s; simpl; congruence. Qed.

Lemma sapp_assoc : forall a b c : string, a ++ b ++ c = (a ++ b) ++ c.
Proof. induction a; simpl; intros; [reflexivity|]. now rewrite IHa. Qed.

Lemma sapp_inv_head : forall a b c : string, a ++ b = a ++ c -> b = c.
Proof. induction a; simpl; intros b c H; [assumption|]. injection H; auto. Qed.

Lemma sconcat_app : forall a b, sconcat (a ++ b)%list = sconcat a ++ sconcat b.
Proof.
  induction a; simpl; intros; [reflexivity|]. now rewrite IHa, sapp_assoc.
Qed.

Lemma split_nonempty : forall c s, split c s <> [].
Proof.
  intros c s; destruct s; simpl; [discriminate|].
  destruct (Ascii.eqb a c); [discriminate|]. destruct (split c s); discriminate.
Qed.

Lemma join_split : forall c s, join (String c "") (split c s) = s.
Proof.
  intros c; induction s as [|a s IH]; [reflexivity|].
  simpl split. destruct (Ascii.eqb a c) eqn:E.
  - apply Ascii.eqb_eq in E; subst a.
    destruct (split c s) eqn:Es; [exfalso; eapply split_nonempty; eauto|].
    simpl in *. now rewrite IH.
  - destruct (split c s) eqn:Es; [exfalso; eapply split_nonempty; eauto|].
    destruct l; simpl in *; now rewrite IH.
Qed.

Lemma count_app : forall c a b, count c (a ++ b) = count c a + count c b.
Proof. induction a; simpl; intros; [reflexivity|]. rewrite IHa. lia. Qed.

Lemma split_parts : forall c s, Forall (fun x => count c x = 0) (split c s).
Proof.
  intros c; induction s as [|a s IH]; simpl; [repeat constructor|].
  destruct (Ascii.eqb a c) eqn:E; [constructor; auto|].
  destruct (split c s); [repeat constructor; simpl; now rewrite E|].
  inversion IH; subst. constructor; auto. simpl; now rewrite E.
Qed.

Lemma split_length : forall c s, length (split c s) = S (count c s).
Proof.
  intros c; induction s as [|a s IH]; [reflexivity|]. simpl.
  destruct (Ascii.eqb a c); simpl; [now rewrite IH|].
  destruct (split c s); simpl in *; lia.
Qed.

Lemma drop_app : forall a b n, n = String.length a -> drop n (a ++ b) = Some b.
Proof. induction a; simpl; intros; subst; [destruct b; reflexivity|]. simpl. now apply IHa. Qed.

Lemma has_prefix_app : forall a b, has_prefix a (a ++ b) = true.
Proof. induction a; simpl; intros; [reflexivity|]. rewrite Ascii.eqb_refl. simpl. apply IHa. Qed.

Lemma has_prefix_spec : forall p s, has_prefix p s = true <-> exists t, s = p ++ t.
Proof.
  induction p as [|a p IH]; simpl; intros s.
  - split; eauto.
  - destruct s as [|b s].
    + split; [discriminate|]. intros [t Ht]; discriminate.
    + rewrite andb_true_iff, Ascii.eqb_eq, IH. split.
      * intros [-> [t ->]]. now exists t.
      * intros [t Ht]. injection Ht as -> ->. eauto.
Qed.

Lemma has_prefix_drop : forall p s, has_prefix p s = true ->
  exists t, drop (String.length p) s = Some t /\ s = p ++ t.
Proof.
  intros p s H. apply has_prefix_spec in H. destruct H as [t ->].
  exists t. split; [now apply drop_app|reflexivity].
Qed.

Lemma seqb_refl : forall s, String.eqb s s = true.
Proof. exact String.eqb_refl. Qed.

Lemma seqb_sym : forall a b, String.eqb a b = String.eqb b a.
Proof. exact String.eqb_sym. Qed.

Lemma slength_app : forall a b, String.length (a ++ b) = String.length a + String.length b.
Proof. induction a; simpl; intros; [reflexivity|]. now rewrite IHa. Qed.

Lemma after_last_app_none : forall c a b, count c b = 0 ->
  after_last c (a ++ String c b) = b.
Proof.
  induction a as [|x a IH]; intros b H; simpl.
  - rewrite H. simpl. now rewrite Ascii.eqb_refl.
  - rewrite count_app. simpl. rewrite Ascii.eqb_refl.
    replace (Nat.ltb 0 (count c a + (1 + count c b))) with true
      by (symmetry; apply Nat.ltb_lt; lia).
    now apply IH.
Qed.
