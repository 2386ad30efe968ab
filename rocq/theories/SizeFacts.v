(** The size of a new picture: the comparison in float64 is the comparison of
    the integers. *)
From Coq Require Import String Ascii List Bool Arith NArith ZArith Lia Floats.SpecFloat.
From Verif Require Import GoStr Num Lib Types Docx Text Api NumFacts RegFacts HistFacts2 SpecApi SpecEdit SpecSize.
Import ListNotations.
Local Open Scope Z_scope.

Lemma digits_bound : forall p, 2 ^ (Zpos (digits2_pos p) - 1) <= Zpos p < 2 ^ (Zpos (digits2_pos p)).
Proof.
  induction p as [p IH|p IH|]; cbn [digits2_pos]; rewrite ?Pos2Z.inj_succ.
  - replace (Z.succ (Zpos (digits2_pos p)) - 1) with (Z.succ (Zpos (digits2_pos p) - 1)) by lia. rewrite !Z.pow_succ_r by lia. lia.
  - replace (Z.succ (Zpos (digits2_pos p)) - 1) with (Z.succ (Zpos (digits2_pos p) - 1)) by lia. rewrite !Z.pow_succ_r by lia. lia.
  - cbn. lia.
Qed.
Lemma digits_unique : forall p d, 0 < d -> 2 ^ (d - 1) <= Zpos p < 2 ^ d -> Zpos (digits2_pos p) = d.
Proof.
  intros p d D (A & B). destruct (digits_bound p) as (A' & B').
  assert (d - 1 < Zpos (digits2_pos p)) by (apply (Z.pow_lt_mono_r_iff 2); lia).
  assert (Zpos (digits2_pos p) - 1 < d) by (apply (Z.pow_lt_mono_r_iff 2); lia). lia.
Qed.

Definition full (m : Z) : Prop := 2 ^ 52 <= m < 2 ^ 53.
Lemma full_digits : forall m, full m -> Zdigits2 m = 53.
Proof. intros m (A & B). destruct m as [|p|p]; [lia| |lia]. cbn [Zdigits2]. apply digits_unique; cbn in *; lia. Qed.
Lemma more_digits : forall m, 2 ^ 53 <= m < 2 ^ 54 -> Zdigits2 m = 54.
Proof. intros m (A & B). destruct m as [|p|p]; [lia| |lia]. cbn [Zdigits2]. apply digits_unique; cbn in *; lia. Qed.

Lemma loc_record : forall m l, shr_m (shr_record_of_loc m l) = m /\ loc_of_shr_record (shr_record_of_loc m l) = l.
Proof. intros m [|[| |]]; split; reflexivity. Qed.
Lemma fexp_mid : forall e, -1000 <= e <= 900 -> fexp 53 1024 (53 + e) = e.
Proof. intros e B. unfold fexp, emin. lia. Qed.
Lemma fexp_mid1 : forall e, -1000 <= e <= 900 -> fexp 53 1024 (54 + e) = e + 1.
Proof. intros e B. unfold fexp, emin. lia. Qed.
Lemma shr0 : forall m e l, full m -> -1000 <= e <= 900 -> shr_fexp 53 1024 m e l = (shr_record_of_loc m l, e).
Proof. intros m e l F B. unfold shr_fexp. rewrite full_digits, fexp_mid by assumption. rewrite Z.sub_diag. reflexivity. Qed.
Lemma shr1 : forall m e l, 2 ^ 53 <= m < 2 ^ 54 -> -1000 <= e <= 900 -> shr_fexp 53 1024 m e l = (shr_1 (shr_record_of_loc m l), e + 1).
Proof. intros m e l F B. unfold shr_fexp. rewrite more_digits, fexp_mid1 by assumption. replace (e + 1 - e) with 1 by lia. reflexivity. Qed.

(** finishing a rounded mantissa *)
Definition finish (mx e : Z) : spec_float :=
  let '(mrs, e') := shr_fexp 53 1024 mx e loc_Exact in
  match shr_m mrs with
  | Z0 => S754_zero false
  | Zpos m => if Zle_bool e' (1024 - 53) then S754_finite false m e' else S754_infinity false
  | _ => S754_nan
  end.
Lemma finish_full : forall m e, full m -> -1000 <= e <= 900 -> finish m e = S754_finite false (Z.to_pos m) e.
Proof.
  intros m e F B. unfold finish. rewrite shr0 by assumption. cbn [shr_record_of_loc shr_m]. destruct m as [|p|p]; [destruct F; cbn in *; lia| |destruct F; cbn in *; lia].
  replace (Zle_bool e (1024 - 53)) with true by (symmetry; apply Z.leb_le; lia). reflexivity.
Qed.
Lemma finish_top : forall e, -1000 <= e <= 900 -> finish (2 ^ 53) e = S754_finite false (Z.to_pos (2 ^ 52)) (e + 1).
Proof.
  intros e B. unfold finish. rewrite shr1 by (try assumption; lia). change (shr_m (shr_1 (shr_record_of_loc (2 ^ 53) loc_Exact))) with (2 ^ 52).
  change (2 ^ 52) with (Zpos 4503599627370496). cbn iota. replace (Zle_bool (e + 1) (1024 - 53)) with true by (symmetry; apply Z.leb_le; lia). reflexivity.
Qed.
Lemma rne_bounds : forall m l, m <= round_nearest_even m l <= m + 1.
Proof. intros m [|[| |]]; cbn; try lia. destruct (Z.even m); lia. Qed.

(** conversion *)
Lemma f64_pos : forall p, Zpos p < 2 ^ 40 ->
  binary_normalize 53 1024 (Zpos p) 0 false =
  S754_finite false (Z.to_pos (Zpos p * 2 ^ (53 - Zpos (digits2_pos p)))) (Zpos (digits2_pos p) - 53).
Proof.
  intros p L. cbn [binary_normalize]. unfold binary_round. destruct (digits_bound p) as (A & B). set (d := Zpos (digits2_pos p)) in *.
  assert (D : 1 <= d <= 40). { split; [unfold d; lia|]. assert (d - 1 < 40); [|lia]. apply (Z.pow_lt_mono_r_iff 2); [lia|lia|]. lia. }
  replace (fexp 53 1024 (d + 0)) with (d - 53) by (unfold fexp, emin; lia). unfold shl_align.
  destruct (d - 53 - 0) as [|k|k] eqn:K; [lia|lia|].
  assert (E : Zpos (shift_pos k p) = Zpos p * 2 ^ (53 - d)).
  { rewrite shift_pos_correct, Zpower_pos_nat, Zpower_nat_Z, positive_nat_Z. rewrite Z.mul_comm. f_equal. f_equal. lia. }
  assert (F : full (Zpos (shift_pos k p))).
  { unfold full. rewrite E. assert (P : 0 < 2 ^ (53 - d)) by (apply Z.pow_pos_nonneg; lia).
    replace (2 ^ 52) with (2 ^ (d - 1) * 2 ^ (53 - d)) by (rewrite <- Z.pow_add_r by lia; f_equal; lia).
    replace (2 ^ 53) with (2 ^ d * 2 ^ (53 - d)) by (rewrite <- Z.pow_add_r by lia; f_equal; lia). nia. }
  unfold binary_round_aux. rewrite shr0 by (try assumption; lia). destruct (loc_record (Zpos (shift_pos k p)) loc_Exact) as (-> & ->). cbn [round_nearest_even].
  fold (finish (Zpos (shift_pos k p)) (d - 53)). rewrite finish_full by (try assumption; lia). now rewrite E.
Qed.

(** the quotient of full mantissas, rounded *)
Lemma location_near : forall m2 r, 0 < m2 -> 0 <= r < m2 ->
  match new_location m2 r with
  | loc_Exact => r = 0
  | loc_Inexact Lt => 0 < r /\ 2 * r <= m2
  | loc_Inexact Eq => 2 * r = m2
  | loc_Inexact Gt => m2 <= 2 * r
  end.
Proof.
  intros m2 r P B. unfold new_location. destruct (Z.even m2) eqn:E.
  - unfold new_location_even. destruct (Z.eqb_spec r 0) as [->|N].
    + reflexivity.
    + replace (Zeq_bool r 0) with false. 2:{ symmetry. apply Bool.not_true_is_false. intros Q. apply Zeq_bool_eq in Q. contradiction. }
      destruct (Z.compare_spec (2 * r) m2); lia.
  - unfold new_location_odd. destruct (Z.eqb_spec r 0) as [->|N].
    + reflexivity.
    + replace (Zeq_bool r 0) with false. 2:{ symmetry. apply Bool.not_true_is_false. intros Q. apply Zeq_bool_eq in Q. contradiction. }
      destruct (Z.compare_spec (2 * r + 1) m2); lia.
Qed.
Lemma round_quotient : forall m1 m2 e, full m1 -> full m2 -> -990 <= e <= 890 ->
  exists M E, binary_round_aux 53 1024 false (m1 * 2 ^ 53 / m2) e (new_location m2 (m1 * 2 ^ 53 mod m2)) = S754_finite false (Z.to_pos M) E /\ full M /\
    (E = e /\ 2 * Z.abs (M * m2 - m1 * 2 ^ 53) <= m2 \/ E = e + 1 /\ Z.abs (2 * M * m2 - m1 * 2 ^ 53) <= m2).
Proof.
  intros m1 m2 e F1 F2 B. set (q := m1 * 2 ^ 53 / m2). set (r := m1 * 2 ^ 53 mod m2).
  assert (P2 : 0 < m2) by (destruct F2; cbn in *; lia).
  assert (DM : m1 * 2 ^ 53 = m2 * q + r) by (apply Z.div_mod; lia).
  assert (RB : 0 <= r < m2) by (apply Z.mod_pos_bound; lia).
  assert (QB : 2 ^ 52 <= q < 2 ^ 54).
  { destruct F1, F2. cbn in *. split; [apply Z.div_le_lower_bound; lia|]. apply Z.div_lt_upper_bound; lia. }
  pose proof (location_near m2 r P2 RB) as LN. set (l := new_location m2 r) in *. unfold binary_round_aux.
  destruct (Z_lt_ge_dec q (2 ^ 53)) as [LT|GE].
  - rewrite shr0 by (unfold full; lia). destruct (loc_record q l) as (-> & ->). fold (finish (round_nearest_even q l) e).
    assert (NEAR : 2 * Z.abs (round_nearest_even q l * m2 - m1 * 2 ^ 53) <= m2).
    { rewrite DM. destruct l as [|[| |]]; cbn [round_nearest_even]; try lia. destruct (Z.even q); lia. }
    pose proof (rne_bounds q l) as RN. destruct (Z.eq_dec (round_nearest_even q l) (2 ^ 53)) as [T|T].
    + rewrite T in *. rewrite finish_top by lia. exists (2 ^ 52), (e + 1). split; [reflexivity|]. split; [unfold full; lia|]. right. split; [reflexivity|]. lia.
    + assert (FM : full (round_nearest_even q l)) by (unfold full; lia). rewrite finish_full by (try assumption; lia). eexists _, e. split; [reflexivity|]. split; [assumption|]. left. auto.
  - rewrite shr1 by lia.
    assert (S1 : exists m, shr_m (shr_1 (shr_record_of_loc q l)) = m /\ (q = 2 * m \/ q = 2 * m + 1) /\
      Z.abs (2 * round_nearest_even m (loc_of_shr_record (shr_1 (shr_record_of_loc q l))) * m2 - m1 * 2 ^ 53) <= m2).
    { destruct q as [|p|p]; [lia| |lia]. destruct p as [p|p|].
      - exists (Zpos p). split; [destruct l as [|[| |]]; reflexivity|]. split; [right; lia|]. rewrite DM.
        assert (LO : loc_of_shr_record (shr_1 (shr_record_of_loc (Zpos p~1) l)) = match l with loc_Exact => loc_Inexact Eq | _ => loc_Inexact Gt end) by (destruct l as [|[| |]]; reflexivity).
        rewrite LO. replace (Zpos p~1) with (2 * Zpos p + 1) by lia. set (m := Zpos p). clearbody m.
        destruct l as [|[| |]]; cbn [round_nearest_even]; try lia. destruct (Z.even m); lia.
      - exists (Zpos p). split; [destruct l as [|[| |]]; reflexivity|]. split; [left; lia|]. rewrite DM.
        assert (LO : loc_of_shr_record (shr_1 (shr_record_of_loc (Zpos p~0) l)) = match l with loc_Exact => loc_Exact | _ => loc_Inexact Lt end) by (destruct l as [|[| |]]; reflexivity).
        rewrite LO. replace (Zpos p~0) with (2 * Zpos p) by lia. set (m := Zpos p). clearbody m.
        destruct l as [|[| |]]; cbn [round_nearest_even]; lia.
      - cbn in GE. lia. }
    destruct S1 as (m & SM & Q & NEAR). rewrite SM. set (lo := loc_of_shr_record _) in *. fold (finish (round_nearest_even m lo) (e + 1)).
    pose proof (rne_bounds m lo) as RN. destruct (Z.eq_dec (round_nearest_even m lo) (2 ^ 53)) as [T|T].
    + exfalso. destruct F1, F2. rewrite T in NEAR. lia.
    + assert (FM : full (round_nearest_even m lo)) by (unfold full; lia). rewrite finish_full by (try assumption; lia). eexists _, (e + 1). split; [reflexivity|]. split; [assumption|]. right. auto.
Qed.

Lemma f64_div : forall p q, Zpos p < 2 ^ 40 -> Zpos q < 2 ^ 40 ->
  let dp := Zpos (digits2_pos p) in let dq := Zpos (digits2_pos q) in
  let m1 := Zpos p * 2 ^ (53 - dp) in let m2 := Zpos q * 2 ^ (53 - dq) in
  exists M E, SFdiv 53 1024 (binary_normalize 53 1024 (Zpos p) 0 false) (binary_normalize 53 1024 (Zpos q) 0 false) = S754_finite false (Z.to_pos M) E /\ full M /\
    (E = dp - dq - 53 /\ 2 * Z.abs (M * m2 - m1 * 2 ^ 53) <= m2 \/ E = dp - dq - 52 /\ Z.abs (2 * M * m2 - m1 * 2 ^ 53) <= m2).
Proof.
  intros p q Lp Lq dp dq m1 m2. rewrite !f64_pos by assumption. fold dp dq. fold m1 m2.
  assert (full_of : forall x, Zpos x < 2 ^ 40 -> 1 <= Zpos (digits2_pos x) <= 40 /\ full (Zpos x * 2 ^ (53 - Zpos (digits2_pos x)))).
  { intros x L. destruct (digits_bound x) as (A & B). set (d := Zpos (digits2_pos x)) in *.
    assert (D : 1 <= d <= 40). { split; [unfold d; lia|]. assert (d - 1 < 40); [|lia]. apply (Z.pow_lt_mono_r_iff 2); lia. }
    split; [assumption|]. unfold full. assert (P : 0 < 2 ^ (53 - d)) by (apply Z.pow_pos_nonneg; lia).
    replace (2 ^ 52) with (2 ^ (d - 1) * 2 ^ (53 - d)) by (rewrite <- Z.pow_add_r by lia; f_equal; lia).
    replace (2 ^ 53) with (2 ^ d * 2 ^ (53 - d)) by (rewrite <- Z.pow_add_r by lia; f_equal; lia). nia. }
  destruct (full_of p Lp) as (Dp & F1). destruct (full_of q Lq) as (Dq & F2). fold dp in Dp, F1. fold dq in Dq, F2. fold m1 in F1. fold m2 in F2.
  assert (P1 : 0 < m1) by (destruct F1; lia). assert (P2 : 0 < m2) by (destruct F2; lia).
  unfold SFdiv. rewrite !Z2Pos.id by assumption. unfold SFdiv_core_binary. rewrite !full_digits by assumption.
  replace (Z.min (fexp 53 1024 (53 + (dp - 53) - (53 + (dq - 53)))) (dp - 53 - (dq - 53))) with (dp - dq - 53) by (unfold fexp, emin; lia).
  replace (dp - 53 - (dq - 53) - (dp - dq - 53)) with 53 by lia. rewrite Z.shiftl_mul_pow2 by lia.
  destruct (Z.div_eucl (m1 * 2 ^ 53) m2) as [qq rr] eqn:DE.
  assert (Q1 : qq = m1 * 2 ^ 53 / m2) by (unfold Z.div; now rewrite DE). assert (Q2 : rr = (m1 * 2 ^ 53) mod m2) by (unfold Z.modulo; now rewrite DE).
  rewrite Q1, Q2. destruct (round_quotient m1 m2 (dp - dq - 53) F1 F2 ltac:(lia)) as (M & E & H1 & H2 & H3). exists M, E. split; [exact H1|]. split; [assumption|].
  destruct H3 as [(-> & H3)|(-> & H3)]; [left|right]; (split; [lia|assumption]).
Qed.

Lemma pcompare_z : forall M c, 0 < M -> Pos.compare_cont Eq (Z.to_pos M) c = Z.compare M (Zpos c).
Proof. intros M c P. destruct M as [|m|m]; [lia| |lia]. reflexivity. Qed.
Lemma wide_exact : forall w h, 0 < iv w < 2 ^ 40 -> 0 <= iv h < 2 ^ 40 -> wide w h = (6 * iv h <? 5 * iv w).
Proof.
  intros w h (W0 & W1) (H0 & H1). unfold wide, f64, f64_1_2. destruct (iv w) as [|p|p]; [lia| |lia]. destruct (iv h) as [|q|q]; [| |lia].
  - rewrite f64_pos by assumption. cbn [binary_normalize SFdiv xorb SFcompare]. symmetry. apply Z.ltb_lt. lia.
  - destruct (f64_div p q W1 H1) as (M & E & -> & F & C). cbn [SFcompare].
    destruct (digits_bound p) as (Ap & Bp). destruct (digits_bound q) as (Aq & Bq). set (dp := Zpos (digits2_pos p)) in *. set (dq := Zpos (digits2_pos q)) in *.
    assert (Dp : 1 <= dp <= 40). { split; [unfold dp; lia|]. assert (dp - 1 < 40); [|lia]. apply (Z.pow_lt_mono_r_iff 2); lia. }
    assert (Dq : 1 <= dq <= 40). { split; [unfold dq; lia|]. assert (dq - 1 < 40); [|lia]. apply (Z.pow_lt_mono_r_iff 2); lia. }
    set (w' := Zpos p) in *. set (h' := Zpos q) in *. assert (w0 : 0 < w') by (unfold w'; lia). assert (h0 : 0 < h') by (unfold h'; lia). clearbody w' h'. clearbody dp dq. destruct F as (F1 & F2).
    set (x := 2 ^ (53 - dp)) in *. set (y := 2 ^ (53 - dq)) in *.
    assert (x0 : 0 < x) by (apply Z.pow_pos_nonneg; lia). assert (y0 : 0 < y) by (apply Z.pow_pos_nonneg; lia).
    assert (BIG : dq + 2 <= dp -> 2 * h' < w').
    { intros G. assert (2 ^ (dq + 1) <= 2 ^ (dp - 1)) by (apply Z.pow_le_mono_r; lia). rewrite Z.pow_add_r in H by lia. lia. }
    assert (SMALL : dp <= dq - 1 -> w' < h').
    { intros G. assert (2 ^ dp <= 2 ^ (dq - 1)) by (apply Z.pow_le_mono_r; lia). lia. }
    assert (ONE : dp = dq + 1 -> y = 2 * x). { intros ->. unfold x, y. replace (53 - dq) with (Z.succ (53 - (dq + 1))) by lia. now rewrite Z.pow_succ_r by lia. }
    assert (LESS : dp <= dq -> y <= x). { intros G. apply Z.pow_le_mono_r; lia. }
    assert (SAME : dp = dq -> y = x). { intros ->. reflexivity. }
    clearbody x y. destruct (Z.compare_spec E (-52)) as [EQ|LT|GT].
    + assert (N : Z.abs (2 * M * h' - w' * 2 ^ 53) <= h').
      { destruct C as [(EE & C)|(EE & C)].
        - rewrite (ONE ltac:(lia)) in C. assert (2 * x * Z.abs (2 * M * h' - w' * 2 ^ 53) <= 2 * x * h'); [|apply Z.mul_le_mono_pos_l with (p := 2 * x); [lia|assumption]].
          replace (2 * x * Z.abs (2 * M * h' - w' * 2 ^ 53)) with (2 * Z.abs (M * (h' * (2 * x)) - w' * x * 2 ^ 53)); [lia|].
          replace (M * (h' * (2 * x)) - w' * x * 2 ^ 53) with (x * (2 * M * h' - w' * 2 ^ 53)) by ring. rewrite Z.abs_mul, (Z.abs_eq x) by lia. ring.
        - rewrite (SAME ltac:(lia)) in C. assert (x * Z.abs (2 * M * h' - w' * 2 ^ 53) <= x * h'); [|apply Z.mul_le_mono_pos_l with (p := x); [lia|assumption]].
          replace (2 * M * (h' * x) - w' * x * 2 ^ 53) with (x * (2 * M * h' - w' * 2 ^ 53)) in C by ring. rewrite Z.abs_mul, (Z.abs_eq x) in C by lia. lia. }
      clear C ONE LESS SAME BIG SMALL. rewrite (pcompare_z M) by lia.
      destruct (Z.compare_spec M 5404319552844595) as [Q|Q|Q]; symmetry; first [apply Z.ltb_ge | apply Z.ltb_lt].
      * subst M. lia.
      * assert (M * h' <= 5404319552844595 * h') by (apply Z.mul_le_mono_nonneg_r; lia). lia.
      * assert (5404319552844596 * h' <= M * h') by (apply Z.mul_le_mono_nonneg_r; lia). lia.
    + symmetry. apply Z.ltb_ge. destruct C as [(EE & C)|(EE & C)].
      * specialize (LESS ltac:(lia)). assert (M * (h' * y) <= (2 ^ 53 - 1) * (h' * y)) by (apply Z.mul_le_mono_nonneg_r; nia).
        assert (w' * x < h' * y). { assert (0 < h' * y) by nia. lia. } assert (w' * y <= w' * x) by (apply Z.mul_le_mono_nonneg_l; lia). assert (WY : w' * y < h' * y) by lia. apply Z.mul_lt_mono_pos_r in WY; lia.
      * specialize (SMALL ltac:(lia)). lia.
    + symmetry. apply Z.ltb_lt. destruct (Z_le_gt_dec (dq + 2) dp) as [G|G]; [specialize (BIG G); lia|].
      destruct C as [(EE & C)|(EE & C)]; [lia|]. rewrite (ONE ltac:(lia)) in C.
      assert (2 ^ 52 * (h' * (2 * x)) <= M * (h' * (2 * x))) by (apply Z.mul_le_mono_nonneg_r; nia).
      assert (w' * x * 2 ^ 53 >= (2 ^ 53 - 1) * (2 * h' * x)) by lia.
      assert (HH : (w' * 2 ^ 53) * x >= ((2 ^ 53 - 1) * 2 * h') * x) by lia. assert ((2 ^ 53 - 1) * 2 * h' <= w' * 2 ^ 53) by (apply Z.mul_le_mono_pos_r with (p := x); [lia|apply Z.ge_le; exact HH]). lia.
Qed.

(** the extent *)

(** the extent *)
Lemma small_i64 : forall z, 0 <= z < 9223372036854775808 -> iv (i64_of z) = z.
Proof. intros z B. apply i64_of_z. unfold in64. apply andb_true_intro. split; [apply Z.leb_le; lia|apply Z.ltb_lt; lia]. Qed.
Lemma pic_size_fitted : forall w h, 0 < iv w < 2 ^ 40 -> 0 <= iv h < 2 ^ 40 ->
  exists ew eh, pic_size w h = Ok (ew, eh) /\ (iv ew, iv eh) = fitted (iv w) (iv h).
Proof.
  intros w h W H. unfold pic_size, fitted. destruct (i64_eqb w i0) eqn:Z0.
  - apply i64_eqb_eq in Z0. subst w. cbn in W. lia.
  - rewrite wide_exact by assumption.
    assert (Q : iv (iquot (imul (i64_of A4_EMU_MAX_WIDTH) h) w) = 5274310 * iv h / iv w).
    { unfold iquot, imul, A4_EMU_MAX_WIDTH. rewrite (small_i64 5274310) by lia. rewrite (small_i64 (5274310 * iv h)) by lia.
      rewrite Z.quot_div_nonneg by lia. apply small_i64. split; [apply Z.div_pos; lia|]. apply Z.div_lt_upper_bound; nia. }
    assert (QB : 0 <= 5274310 * iv h / iv w < 9223372036854775808).
    { split; [apply Z.div_pos; lia|]. apply Z.div_lt_upper_bound; nia. }
    destruct (6 * iv h <? 5 * iv w); eexists _, _; (split; [reflexivity|]).
    + rewrite Q. reflexivity.
    + f_equal. unfold iquot at 1. rewrite Q. rewrite (small_i64 2) by lia. rewrite Z.quot_div_nonneg by lia. apply small_i64.
      split; [apply Z.div_pos; lia|]. apply Z.div_lt_upper_bound; lia.
Qed.
Lemma drawing_size : forall (L : GoLib) anch data w p sw sh fmt w' p', add_drawing anch data w p = Ok (w', p') ->
  lib_imgsize data = Some (sw, sh, fmt) -> 0 < iv sw < 2 ^ 40 -> 0 <= iv sh < 2 ^ 40 ->
  exists r c, (para_children p' = para_children p ++ [PRun r])%list /\ runR_children r = [c] /\
    outer_size c = Some (fitted (iv sw) (iv sh)) /\ inner_size c = Some (fitted (iv sw) (iv sh)) /\ fst (fitted (iv sw) (iv sh)) <= 5274310.
Proof.
  intros L anch data w p sw sh fmt w' p' A I W H. destruct (add_drawing_inv _ _ _ _ _ _ A) as (i & d & sw' & sh' & fmt' & ew & eh & F & N & I' & P & _ & E).
  rewrite I in I'. injection I' as <- <- <-. destruct (pic_size_fitted sw sh W H) as (ew' & eh' & P' & V). rewrite P in P'. injection P' as <- <-.
  destruct (fst (new_image fmt data (d_reg d))) as [[idn id] r]. subst p'. eexists _, _. split; [reflexivity|]. split; [reflexivity|].
  rewrite <- V. split; [destruct anch; reflexivity|]. split; [destruct anch; reflexivity|]. cbn [fst]. replace (iv ew) with (fst (iv ew, iv eh)) by reflexivity. rewrite V.
  unfold fitted. destruct (6 * iv sh <? 5 * iv sw); cbn; lia.
Qed.
Lemma drawing_succeeds : forall (L : GoLib) anch data w p sw sh fmt i d, para_file p = Some i -> nth_error w i = Some d ->
  lib_imgsize data = Some (sw, sh, fmt) ->
  (iv sw = 0 -> add_drawing anch data w p = Panic) /\ (iv sw <> 0 -> exists w' p', add_drawing anch data w p = Ok (w', p')).
Proof.
  intros L anch data w p sw sh fmt i d F N I. unfold add_drawing, on_file. rewrite I, F, N.
  destruct (new_image fmt data (d_reg d)) as [[[idn id] r] g]. cbn [bind]. split; intros Z.
  - replace sw with i0 by (apply i64_eq; now rewrite Z). reflexivity.
  - unfold pic_size. destruct (i64_eqb sw i0) eqn:E.
    + apply i64_eqb_eq in E. subst sw. now elim Z.
    + destruct (wide sw sh); cbn [bind]; eauto.
Qed.
