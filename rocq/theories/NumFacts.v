(** Facts about GetInt and GetInt64. *)
From Coq Require Import String Ascii List Bool Arith NArith ZArith Lia.
From Verif Require Import GoStr Num Lib SpecNum.
Import ListNotations.
Local Open Scope string_scope.

Lemma digit_of_spec : forall c d, digit_of c d -> is_digit c = true /\ (N_of_ascii c - 48 = d)%N.
Proof.
  intros c d [L ->]. split; [now apply digit_is_digit|now apply digit_val].
Qed.
Lemma decimal_val : forall s n, decimal s n -> digits_val s 0 = Some n.
Proof.
  induction 1 as [|s n c d D IH C]; auto. rewrite digits_val_app, IH. cbn [digits_val]. destruct (digit_of_spec _ _ C) as [-> ->]. f_equal. lia.
Qed.
Lemma decimal_nat : forall s n, decimal s n -> s <> "" -> parse_nat s = Some n.
Proof. intros s n D K. unfold parse_nat. rewrite (decimal_val _ _ D). destruct s; congruence. Qed.
Lemma i64_of_z : forall z, in64 z = true -> iv (i64_of z) = z.
Proof. intros. cbn. now apply wrap64_id. Qed.
Lemma decimal_head : forall s n c t, decimal s n -> s = String c t -> is_digit c = true.
Proof. intros s n c t D ->. apply decimal_val in D. eapply digits_head; eauto. Qed.
Lemma get_int_spelling : forall (L : GoLib) s z, spells s z -> in64 z = true -> exists v, get_int s = GVal v /\ iv v = z.
Proof.
  intros L s z H B. exists (i64_of z). split; [|now apply i64_of_z]. unfold get_int. destruct H as [t n D K|t n D K|t n D K].
  - assert (E := decimal_nat _ _ D K). destruct t as [|c t]; [congruence|]. rewrite parse_int_digit by (eapply decimal_head; eauto). rewrite E. cbn [option_map]. rewrite B. reflexivity.
  - cbn [parse_int append]. unfold parse_int. rewrite (decimal_nat _ _ D K). cbn [option_map]. rewrite B. reflexivity.
  - unfold parse_int. cbn [append]. rewrite (decimal_nat _ _ D K). cbn [option_map]. rewrite B. reflexivity.
Qed.
