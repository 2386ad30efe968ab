(** Go integers and strconv. *)
From Coq Require Import String Ascii List Bool Arith NArith ZArith Lia Eqdep_dec.
From Verif Require Import GoStr.
Import ListNotations.
Local Open Scope string_scope.

(** ** Go int / int64 (64-bit platform) *)

Definition in64 (z : Z) : bool := (Z.leb (-9223372036854775808) z && Z.ltb z 9223372036854775808)%bool.

(** A value of Go type int or int64: both are 64 bits wide on the platforms the
    model covers. The range is part of the value. *)
Record i64 := mk_i64 { iv : Z; iok : in64 iv = true }.

(** two's complement truncation *)
Definition wrap64 (z : Z) : Z := (((z + 9223372036854775808) mod 18446744073709551616) - 9223372036854775808)%Z.

Lemma wrap64_in : forall z, in64 (wrap64 z) = true.
Proof.
  intros z. unfold in64, wrap64.
  pose proof (Z.mod_pos_bound (z + 9223372036854775808) 18446744073709551616 ltac:(lia)).
  apply andb_true_iff; split; [apply Z.leb_le|apply Z.ltb_lt]; lia.
Qed.

(** conversion of an arbitrary integer, with wrap around *)
Definition i64_of (z : Z) : i64 := mk_i64 (wrap64 z) (wrap64_in z).

Definition i0 : i64 := mk_i64 0 eq_refl.

Lemma i64_eq : forall a b, iv a = iv b -> a = b.
Proof.
  intros [a pa] [b pb] H; simpl in H; subst b.
  f_equal. apply UIP_dec. apply bool_dec.
Qed.

Lemma wrap64_id : forall z, in64 z = true -> wrap64 z = z.
Proof.
  intros z H. unfold in64 in H. apply andb_true_iff in H. destruct H as [H1 H2].
  apply Z.leb_le in H1. apply Z.ltb_lt in H2. unfold wrap64.
  rewrite Z.mod_small; lia.
Qed.

Lemma i64_of_iv : forall a, i64_of (iv a) = a.
Proof. intros a. apply i64_eq. simpl. apply wrap64_id. apply iok. Qed.

Definition i64_eqb (a b : i64) : bool := Z.eqb (iv a) (iv b).

Lemma i64_eqb_eq : forall a b, i64_eqb a b = true <-> a = b.
Proof.
  intros a b. unfold i64_eqb. rewrite Z.eqb_eq. split; [apply i64_eq|congruence].
Qed.

(** ** strconv.Itoa / FormatInt *)

Definition digit (n : N) : ascii := ascii_of_N (48 + n).

Fixpoint utoa_fuel (fuel : nat) (n : N) (acc : string) : string :=
  match fuel with
  | O => acc
  | S f =>
      let acc' := String (digit (n mod 10)) acc in
      if N.ltb n 10 then acc' else utoa_fuel f (n / 10) acc'
  end.

(** decimal digits of a natural number (strconv.FormatUint) *)
Definition utoa (n : N) : string := utoa_fuel (S (N.size_nat n)) n "".

(** strconv.Itoa / FormatInt base 10 *)
Definition itoa (z : Z) : string :=
  match z with
  | Zneg p => String "-" (utoa (Npos p))
  | _ => utoa (Z.to_N z)
  end.

(** ** strconv.ParseUint / ParseInt base 10 *)

Definition is_digit (a : ascii) : bool := (N.leb 48 (N_of_ascii a) && N.leb (N_of_ascii a) 57)%bool.

Fixpoint digits_val (s : string) (acc : N) : option N :=
  match s with
  | "" => Some acc
  | String a s' =>
      if is_digit a then digits_val s' (acc * 10 + (N_of_ascii a - 48))%N else None
  end.

(** Decimal digits only, at least one; no bound. *)
Definition parse_nat (s : string) : option N :=
  match s with "" => None | _ => digits_val s 0 end.

(** strconv.ParseUint(s, 10, 64): [None] is any error (syntax or range). *)
Definition parse_uint (s : string) : option N :=
  match parse_nat s with
  | Some n => if N.ltb n 18446744073709551616 then Some n else None
  | None => None
  end.

(** strconv.ParseInt(s, 10, 64) and strconv.Atoi: optional sign, digits, range
    check; [None] is any error. *)
Definition parse_int (s : string) : option i64 :=
  let z := match s with
           | String "-" s' => option_map (fun n => Z.opp (Z.of_N n)) (parse_nat s')
           | String "+" s' => option_map Z.of_N (parse_nat s')
           | _ => option_map Z.of_N (parse_nat s)
           end in
  match z with
  | Some z => if in64 z then Some (i64_of z) else None
  | None => None
  end.

(** Error classes of GetInt/GetInt64: whether the message starts with
    "expected" matters, because the decoders ignore such errors. *)
Inductive gint :=
| GVal (v : i64)          (** nil error *)
| GExp (v : i64)          (** an error whose text begins with "expected" *)
| GErr (v : i64).         (** any other error *)

(** ** proofs *)

Lemma digit_is_digit : forall n, (n < 10)%N -> is_digit (digit n) = true.
Proof.
  intros n H. unfold is_digit, digit. rewrite N_ascii_embedding by lia.
  apply andb_true_iff; split; apply N.leb_le; lia.
Qed.

Lemma digit_val : forall n, (n < 10)%N -> (N_of_ascii (digit n) - 48 = n)%N.
Proof. intros n H. unfold digit. rewrite N_ascii_embedding by lia. lia. Qed.

Lemma utoa_fuel_acc : forall f n acc, utoa_fuel f n acc = utoa_fuel f n "" ++ acc.
Proof.
  induction f; intros; simpl; [reflexivity|].
  destruct (N.ltb n 10); simpl; [reflexivity|].
  rewrite IHf. rewrite (IHf _ (String _ "")). now rewrite <- sapp_assoc.
Qed.

Lemma digits_val_app : forall a b acc,
  digits_val (a ++ b) acc = match digits_val a acc with Some v => digits_val b v | None => None end.
Proof.
  induction a; simpl; intros; [reflexivity|].
  destruct (is_digit a); [apply IHa|reflexivity].
Qed.

Fixpoint dlen (s : string) : N := match s with "" => 1 | String _ s' => 10 * dlen s' end.

Lemma digits_val_acc : forall s acc v, digits_val s 0 = Some v ->
  digits_val s acc = Some (acc * dlen s + v)%N.
Proof.
  assert (G : forall s acc0 acc v, digits_val s acc0 = Some v ->
     exists w, v = (acc0 * dlen s + w)%N /\ digits_val s acc = Some (acc * dlen s + w)%N).
  { induction s; cbn [digits_val dlen]; intros acc0 acc v H.
    - injection H as <-. exists 0%N. split; [lia|f_equal; lia].
    - destruct (is_digit a); [|discriminate].
      set (d := (N_of_ascii a - 48)%N) in *. clearbody d.
      apply (IHs _ (acc * 10 + d)%N) in H. destruct H as [w [H1 H2]].
      exists (d * dlen s + w)%N. rewrite H2. split; [rewrite H1; ring|f_equal; ring]. }
  intros s acc v H. destruct (G s 0%N acc v H) as [w [H1 H2]].
  rewrite H2. f_equal. lia.
Qed.

Lemma utoa_fuel_val : forall f n, (n < 10 ^ N.of_nat f)%N -> (f <> O) ->
  digits_val (utoa_fuel f n "") 0 = Some n.
Proof.
  induction f; intros n H Hf; [congruence|].
  simpl utoa_fuel. destruct (N.ltb n 10) eqn:E.
  - apply N.ltb_lt in E. simpl. rewrite N.mod_small by lia.
    rewrite digit_is_digit by lia. rewrite digit_val by lia. f_equal; lia.
  - apply N.ltb_ge in E. rewrite utoa_fuel_acc, digits_val_app.
    rewrite IHf.
    + simpl. pose proof (N.mod_lt n 10 ltac:(lia)).
      rewrite digit_is_digit, digit_val by lia. f_equal.
      pose proof (N.div_mod n 10 ltac:(lia)). lia.
    + apply N.div_lt_upper_bound; [lia|]. rewrite Nat2N.inj_succ, N.pow_succ_r' in H. exact H.
    + intros ->. simpl in H. lia.
Qed.

Lemma size_bound : forall n, (n < 10 ^ N.of_nat (S (N.size_nat n)))%N.
Proof.
  intros n. 
  assert (n < 2 ^ N.of_nat (N.size_nat n))%N.
  { destruct n; simpl; [lia|].
    induction p; simpl Pos.size_nat; rewrite Nat2N.inj_succ, N.pow_succ_r'; try lia.
  }
  eapply N.lt_le_trans; [exact H|].
  rewrite Nat2N.inj_succ, N.pow_succ_r'.
  pose proof (N.pow_le_mono_l 2 10 (N.of_nat (N.size_nat n)) ltac:(lia)). lia.
Qed.

Lemma utoa_val : forall n, digits_val (utoa n) 0 = Some n.
Proof. intros n. unfold utoa. apply utoa_fuel_val; [apply size_bound|discriminate]. Qed.

Lemma utoa_fuel_nonempty : forall f n acc, utoa_fuel (S f) n acc <> "".
Proof.
  assert (A: forall f n acc, acc <> "" -> utoa_fuel f n acc <> "").
  { induction f; simpl; intros; [assumption|]. destruct (N.ltb n 10); [discriminate|].
    apply IHf. discriminate. }
  intros. simpl. destruct (N.ltb n 10); [discriminate|]. apply A. discriminate.
Qed.

Lemma utoa_nonempty : forall n, utoa n <> "".
Proof. intros. apply utoa_fuel_nonempty. Qed.

Lemma parse_nat_utoa : forall n, parse_nat (utoa n) = Some n.
Proof.
  intros. unfold parse_nat. pose proof (utoa_val n). pose proof (utoa_nonempty n).
  destruct (utoa n); [congruence|assumption].
Qed.

Lemma utoa_inj : forall a b, utoa a = utoa b -> a = b.
Proof. intros a b H. pose proof (utoa_val a). rewrite H, utoa_val in H0. congruence. Qed.

Lemma digits_head : forall a s acc v, digits_val (String a s) acc = Some v -> is_digit a = true.
Proof. simpl; intros a s acc v H. destruct (is_digit a); [reflexivity|discriminate]. Qed.

Lemma utoa_head : forall n, exists a s, utoa n = String a s /\ is_digit a = true.
Proof.
  intros n. pose proof (utoa_val n). pose proof (utoa_nonempty n).
  destruct (utoa n) as [|a s]; [congruence|]. exists a, s. split; [reflexivity|].
  eapply digits_head; eauto.
Qed.

Lemma parse_int_digit : forall a s, is_digit a = true ->
  parse_int (String a s) =
  match option_map Z.of_N (parse_nat (String a s)) with
  | Some z => if in64 z then Some (i64_of z) else None | None => None end.
Proof.
  intros a s H. unfold parse_int.
  destruct a as [[] [] [] [] [] [] [] []]; try reflexivity; discriminate H.
Qed.

Lemma itoa_inj : forall a b, itoa a = itoa b -> a = b.
Proof.
  assert (D : forall n p, utoa n <> String "-" (utoa p)).
  { intros n p H. destruct (utoa_head n) as [a [s [E F]]]. rewrite E in H.
    injection H as -> _. discriminate F. }
  intros a b; destruct a, b; unfold itoa; simpl; intros H; try reflexivity;
   try (apply utoa_inj in H; congruence); try (injection H as H; apply utoa_inj in H; congruence);
   try (exfalso; eapply D; eauto); try (exfalso; eapply D; symmetry; eauto).
Qed.

Lemma itoa_nonempty : forall z, itoa z <> "".
Proof. destruct z; try apply utoa_nonempty. discriminate. Qed.

Theorem parse_int_itoa : forall a : i64, parse_int (itoa (iv a)) = Some a.
Proof.
  intros [z ok]. simpl.
  assert (G : (if in64 z then Some (i64_of z) else None) = Some (mk_i64 z ok)).
  { transitivity (Some (i64_of z)).
    - destruct (in64 z); [reflexivity|discriminate ok].
    - f_equal. apply i64_eq. simpl. now apply wrap64_id. }
  rewrite <- G. destruct (Z.neg_nonneg_cases z) as [H|H].
  - destruct z; try lia. simpl itoa. unfold parse_int. rewrite parse_nat_utoa. reflexivity.
  - assert (E : itoa z = utoa (Z.to_N z)) by (destruct z; [reflexivity|reflexivity|lia]).
    rewrite E. destruct (utoa_head (Z.to_N z)) as [a [s [E1 F]]]. rewrite E1.
    rewrite parse_int_digit by assumption. rewrite <- E1, parse_nat_utoa. simpl.
    rewrite Z2N.id by lia. reflexivity.
Qed.

Lemma utoa_count : forall c n, is_digit c = false -> count c (utoa n) = 0.
Proof.
  intros c n Hc. 
  assert (G : forall s acc v, digits_val s acc = Some v -> count c s = 0).
  { induction s; simpl; intros; [reflexivity|].
    destruct (is_digit a) eqn:E; [|discriminate].
    destruct (Ascii.eqb a c) eqn:E2; [apply Ascii.eqb_eq in E2; congruence|].
    simpl. eauto. }
  eapply G. apply utoa_val.
Qed.
