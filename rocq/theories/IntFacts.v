(** Facts about GetInt on any text. *)
From Coq Require Import String Ascii List Bool Arith NArith ZArith Lia.
From Verif Require Import GoStr Num Lib SpecNum NumFacts SpecInt.
Import ListNotations.
Local Open Scope list_scope.
Local Open Scope string_scope.

Lemma sapp_assoc : forall a b c : string, (a ++ b) ++ c = a ++ b ++ c.
Proof. induction a as [|x a IH]; intros b c; [reflexivity|]. cbn. now rewrite IH. Qed.
Lemma sapp_nil : forall a : string, a ++ "" = a.
Proof. induction a as [|x a IH]; [reflexivity|]. cbn. now rewrite IH. Qed.

(** ** digits *)
Lemma digit_char : forall c, is_digit c = true -> digit_of c (N_of_ascii c - 48).
Proof.
  intros c D. unfold is_digit in D. apply andb_prop in D. destruct D as [D1 D2]. apply N.leb_le in D1, D2. split; [lia|].
  replace (48 + (N_of_ascii c - 48))%N with (N_of_ascii c) by lia. now rewrite ascii_N_embedding.
Qed.
Lemma decimal_of : forall s p acc v, digits_val s acc = Some v -> decimal p acc -> decimal (p ++ s) v.
Proof.
  induction s as [|c s IH]; intros p acc v E D; cbn [digits_val] in E.
  - rewrite sapp_nil. congruence.
  - destruct (is_digit c) eqn:C; [|discriminate]. change (String c s) with (String c "" ++ s). rewrite <- sapp_assoc. eapply IH; [exact E|].
    rewrite (N.mul_comm acc 10). constructor; auto. now apply digit_char.
Qed.
Lemma decimal_iff : forall s n, decimal s n <-> digits_val s 0 = Some n.
Proof. intros s n. split; [apply decimal_val|]. intros E. apply (decimal_of s "" 0 n E). constructor. Qed.

Definition zval (s : string) : option Z :=
  match s with
  | String "-" s' => option_map (fun n => Z.opp (Z.of_N n)) (parse_nat s')
  | String "+" s' => option_map Z.of_N (parse_nat s')
  | _ => option_map Z.of_N (parse_nat s)
  end.
Lemma parse_nat_iff : forall s n, parse_nat s = Some n <-> decimal s n /\ s <> "".
Proof.
  intros s n. unfold parse_nat. rewrite decimal_iff. destruct s; [split; [discriminate | intros [_ K]; congruence]|].
  split; [intros E; split; [exact E | discriminate] | tauto].
Qed.
Lemma zval_plain : forall c s, c <> "-"%char -> c <> "+"%char -> zval (String c s) = option_map Z.of_N (parse_nat (String c s)).
Proof. intros [[] [] [] [] [] [] [] []] s A B; try reflexivity; [exfalso; now apply B | exfalso; now apply A]. Qed.
Lemma digit_no_sign : forall c, is_digit c = true -> c <> "-"%char /\ c <> "+"%char.
Proof. intros c D. split; intros ->; discriminate. Qed.
Lemma spells_iff : forall s z, spells s z <-> zval s = Some z.
Proof.
  intros s z. split.
  - intros [t n D K|t n D K|t n D K].
    + destruct t as [|c t]; [congruence|]. destruct (digit_no_sign c) as [A B]; [eapply decimal_head; eauto|].
      rewrite zval_plain by auto. rewrite (proj2 (parse_nat_iff _ _) (conj D K)). reflexivity.
    + cbn [append zval]. rewrite (proj2 (parse_nat_iff _ _) (conj D K)). reflexivity.
    + cbn [append zval]. rewrite (proj2 (parse_nat_iff _ _) (conj D K)). reflexivity.
  - intros E. destruct s as [|c s]; [discriminate|].
    destruct (ascii_dec c "-") as [->|A].
    { cbn [zval] in E. destruct (parse_nat s) as [n|] eqn:P; [|discriminate]. injection E as <-. apply parse_nat_iff in P. destruct P. now apply (sp_minus s n). }
    destruct (ascii_dec c "+") as [->|B].
    { cbn [zval] in E. destruct (parse_nat s) as [n|] eqn:P; [|discriminate]. injection E as <-. apply parse_nat_iff in P. destruct P. now apply (sp_plus s n). }
    rewrite zval_plain in E by auto. destruct (parse_nat (String c s)) as [n|] eqn:P; [|discriminate]. injection E as <-. apply parse_nat_iff in P. destruct P. now apply sp_plain.
Qed.
Lemma parse_int_zval : forall s, parse_int s = match zval s with Some z => if in64 z then Some (i64_of z) else None | None => None end.
Proof. reflexivity. Qed.
Lemma spells_one : forall s z z', spells s z -> spells s z' -> z = z'.
Proof. intros s z z' A B. apply spells_iff in A, B. congruence. Qed.

(** ** blanks *)
Lemma drop_point : forall sp n s, In n space_points -> (forall a, is_space a = true -> sp a = true) -> (forall a, (128 <= N_of_ascii a)%N -> sp a = false) ->
  drop_spaces sp (utf8 n ++ s) = drop_spaces sp s.
Proof.
  intros sp n s I S0 S1. cbn [space_points In] in I.
  repeat (destruct I as [<-|I]; [cbn [utf8 bytes fold_right append]; 
    match goal with |- context [utf8 ?n] => let r := eval vm_compute in (utf8 n) in change (utf8 n) with r end; cbn [append drop_spaces];
    first [rewrite S0 by reflexivity; reflexivity | rewrite S1 by (vm_compute; discriminate); reflexivity]|]). contradiction.
Qed.
Lemma drop_blanks : forall b s, blanks b -> skip_space (b ++ s) = skip_space s.
Proof.
  intros b s B. unfold skip_space. induction B as [|n b I B IH]; [reflexivity|]. rewrite sapp_assoc, drop_point; auto.
  intros a L. unfold is_space. destruct (N.eqb_spec (N_of_ascii a) 32), (N.eqb_spec (N_of_ascii a) 9), (N.eqb_spec (N_of_ascii a) 11), (N.eqb_spec (N_of_ascii a) 12), (N.eqb_spec (N_of_ascii a) 13); try lia; reflexivity.
Qed.

Lemma is_space_point : forall a, is_space a = true -> exists n, In n space_points /\ String a "" = utf8 n.
Proof.
  intros a S0. exists (N_of_ascii a). unfold is_space in S0.
  destruct (N.eqb_spec (N_of_ascii a) 32) as [E|_]; [rewrite E; split; [cbn; tauto|]; rewrite <- (ascii_N_embedding a), E; reflexivity|].
  destruct (N.eqb_spec (N_of_ascii a) 9) as [E|_]; [rewrite E; split; [cbn; tauto|]; rewrite <- (ascii_N_embedding a), E; reflexivity|].
  destruct (N.eqb_spec (N_of_ascii a) 11) as [E|_]; [rewrite E; split; [cbn; tauto|]; rewrite <- (ascii_N_embedding a), E; reflexivity|].
  destruct (N.eqb_spec (N_of_ascii a) 12) as [E|_]; [rewrite E; split; [cbn; tauto|]; rewrite <- (ascii_N_embedding a), E; reflexivity|].
  destruct (N.eqb_spec (N_of_ascii a) 13) as [E|_]; [rewrite E; split; [cbn; tauto|]; rewrite <- (ascii_N_embedding a), E; reflexivity|].
  discriminate.
Qed.
Lemma is_space2_point : forall a b, is_space2 a b = true -> exists n, In n space_points /\ String a (String b "") = utf8 n.
Proof.
  intros a b S0. unfold is_space2 in S0. apply andb_prop in S0. destruct S0 as [A B]. apply N.eqb_eq in A. apply orb_prop in B.
  rewrite <- (ascii_N_embedding a), <- (ascii_N_embedding b), A.
  destruct B as [B|B]; apply N.eqb_eq in B; rewrite B; [exists 133%N | exists 160%N]; split; try reflexivity; cbn; tauto.
Qed.
Lemma is_space3_point : forall a b c, is_space3 a b c = true -> exists n, In n space_points /\ String a (String b (String c "")) = utf8 n.
Proof.
  intros a b c S0. unfold is_space3 in S0.
  rewrite <- (ascii_N_embedding a), <- (ascii_N_embedding b), <- (ascii_N_embedding c).
  generalize dependent (N_of_ascii a). generalize dependent (N_of_ascii b). generalize dependent (N_of_ascii c). intros z y x S0.
  rewrite !orb_true_iff, !andb_true_iff, !orb_true_iff, !andb_true_iff, !N.eqb_eq, !N.leb_le in S0.
  destruct S0 as [[[[[-> ->] ->]|[[-> ->] Z]]|[[-> ->] ->]]|[[-> ->] ->]].
  - exists 5760%N. split; [cbn; tauto|reflexivity].
  - assert (K : (exists k, (k < 11)%N /\ z = (128 + k)%N) \/ z = 168%N \/ z = 169%N \/ z = 175%N).
    { destruct Z as [[[[Z1 Z2]|Z]|Z]|Z]; auto. left. exists (z - 128)%N. lia. }
    destruct K as [[k [Lk ->]]|[->|[->| ->]]];
      [|exists 8232%N; split; [cbn; tauto|reflexivity]|exists 8233%N; split; [cbn; tauto|reflexivity]|exists 8239%N; split; [cbn; tauto|reflexivity]].
    exists (8192 + k)%N.
    assert (K : (k = 0 \/ k = 1 \/ k = 2 \/ k = 3 \/ k = 4 \/ k = 5 \/ k = 6 \/ k = 7 \/ k = 8 \/ k = 9 \/ k = 10)%N) by lia.
    repeat (destruct K as [->|K]; [split; [cbn; tauto|reflexivity]|]). subst k. split; [cbn; tauto|reflexivity].
  - exists 8287%N. split; [cbn; tauto|reflexivity].
  - exists 12288%N. split; [cbn; tauto|reflexivity].
Qed.

(** every text is blanks and a rest that does not start with one *)
Lemma split_blanks : forall n s, String.length s <= n -> exists b r, s = b ++ r /\ blanks b /\ skip_space s = r /\ ~ starts_blank r.
Proof.
  assert (Fix : forall s, skip_space s = s -> ~ starts_blank s).
  { intros s E [n [r [I ->]]]. assert (D := drop_blanks (utf8 n ++ "") r (b_cons n "" I b_nil)). rewrite sapp_nil in D.
    rewrite D in E. assert (L : String.length (skip_space r) <= String.length r).
    { clear. unfold skip_space. assert (G : forall m s, String.length s <= m -> String.length (drop_spaces is_space s) <= String.length s).
      { induction m as [|m IH]; intros s L; [destruct s; [cbn; lia|cbn in L; lia]|].
        destruct s as [|a s]; [cbn; lia|]. cbn [drop_spaces]. destruct (is_space a); [cbn in *; specialize (IH s); lia|].
        destruct s as [|b s]; [cbn; lia|]. destruct (is_space2 a b); [cbn in *; specialize (IH s); lia|].
        destruct s as [|c s]; [cbn; lia|]. destruct (is_space3 a b c); [cbn in *; specialize (IH s); lia|]. cbn. lia. }
      eapply G. reflexivity. }
    rewrite E in L. clear -L I. assert (G : forall a b, String.length (a ++ b) = String.length a + String.length b).
    { induction a as [|x a IHa]; intros b; [reflexivity|]. cbn. now rewrite IHa. }
    rewrite G in L. cbn [space_points In] in I.
    repeat (destruct I as [<-|I]; [match type of L with context [utf8 ?n] => let r := eval vm_compute in (utf8 n) in change (utf8 n) with r in L end; cbn in L; lia|]). contradiction. }
  induction n as [|n IH]; intros s L.
  - destruct s; [|cbn in L; lia]. exists "", "". split; [reflexivity|]. split; [constructor|]. split; [reflexivity|]. now apply Fix.
  - destruct s as [|a s]; [exists "", ""; split; [reflexivity|]; split; [constructor|]; split; [reflexivity|]; now apply Fix|].
    assert (Self : forall s, skip_space s = s -> exists b r, s = b ++ r /\ blanks b /\ s = r /\ ~ starts_blank r).
    { intros t E. exists "", t. split; [reflexivity|]. split; [constructor|]. split; [reflexivity|]. now apply Fix. }
    unfold skip_space in *. cbn [drop_spaces]. destruct (is_space a) eqn:S1.
    { destruct (IH s) as [b [r [E [B [D N]]]]]; [cbn in L; lia|]. destruct (is_space_point a S1) as [k [I E1]].
      exists (utf8 k ++ b), r. split; [rewrite sapp_assoc, <- E1; cbn [append]; now rewrite <- E|]. repeat split; auto. now constructor. }
    destruct s as [|b s]; [apply Self; cbn; now rewrite S1|]. destruct (is_space2 a b) eqn:S2.
    { destruct (IH s) as [b' [r [E [B [D N]]]]]; [cbn in L; lia|]. destruct (is_space2_point a b S2) as [k [I E1]].
      exists (utf8 k ++ b'), r. split; [rewrite sapp_assoc, <- E1; cbn [append]; now rewrite <- E|]. repeat split; auto. now constructor. }
    destruct s as [|c s]; [apply Self; cbn; now rewrite S1, S2|]. destruct (is_space3 a b c) eqn:S3.
    { destruct (IH s) as [b' [r [E [B [D N]]]]]; [cbn in L; lia|]. destruct (is_space3_point a b c S3) as [k [I E1]].
      exists (utf8 k ++ b'), r. split; [rewrite sapp_assoc, <- E1; cbn [append]; now rewrite <- E|]. repeat split; auto. now constructor. }
    apply Self. cbn. now rewrite S1, S2, S3.
Qed.

(** ** the number in front *)
Lemma starts_digit_iff : forall s, starts_digit s <-> match s with String c _ => is_digit c = true | "" => False end.
Proof.
  intros s. split.
  - intros [c [d [r [D ->]]]]. now destruct (digit_of_spec _ _ D).
  - destruct s as [|c s]; [contradiction|]. intros D. exists c, (N_of_ascii c - 48)%N, s. split; [now apply digit_char | reflexivity].
Qed.
Lemma take_digits_app : forall ds n junk, decimal ds n -> ~ starts_digit junk -> take_digits (ds ++ junk) = ds.
Proof.
  intros ds n junk D J. apply decimal_iff in D. revert D. generalize 0%N. induction ds as [|c ds IH]; intros acc D.
  - cbn [append]. destruct junk as [|c junk]; [reflexivity|]. cbn. destruct (is_digit c) eqn:C; [|reflexivity].
    exfalso. apply J. now apply starts_digit_iff.
  - cbn [digits_val] in D. destruct (is_digit c) eqn:C; [|discriminate]. cbn [append take_digits]. rewrite C. f_equal. eapply IH; eauto.
Qed.
Lemma take_digits_none : forall s, ~ starts_digit s -> take_digits s = "".
Proof. intros s J. apply (take_digits_app "" 0 s); [constructor | exact J]. Qed.
Lemma take_digits_split : forall s, exists n r, s = take_digits s ++ r /\ decimal (take_digits s) n /\ ~ starts_digit r.
Proof.
  assert (G : forall s acc, exists n r, s = take_digits s ++ r /\ digits_val (take_digits s) acc = Some n /\ ~ starts_digit r).
  { induction s as [|c s IH]; intros acc.
    - exists acc, "". split; [reflexivity|]. split; [reflexivity|]. rewrite starts_digit_iff. tauto.
    - cbn [take_digits]. destruct (is_digit c) eqn:C.
      + destruct (IH (acc * 10 + (N_of_ascii c - 48))%N) as [n [r [E [D J]]]]. exists n, r. cbn [append digits_val]. rewrite C, <- E. auto.
      + exists acc, (String c s). split; [reflexivity|]. split; [reflexivity|]. rewrite starts_digit_iff, C. discriminate. }
  intros s. destruct (G s 0%N) as [n [r [E [D J]]]]. exists n, r. rewrite decimal_iff. auto.
Qed.

(** what Sscanf gives *)
Lemma no_space_digit : forall c s, is_digit c = true \/ c = "+"%char \/ c = "-"%char \/ c = "010"%char -> skip_space (String c s) = String c s.
Proof.
  intros c s D. unfold skip_space. cbn [drop_spaces].
  assert (SP : is_space c = false /\ (forall b, is_space2 c b = false) /\ forall b b', is_space3 c b b' = false).
  { destruct D as [D|[->|[->| ->]]]; [|repeat split; reflexivity..].
    destruct c as [[] [] [] [] [] [] [] []]; try discriminate D; repeat split; reflexivity. }
  destruct SP as [-> [S2 S3]]. destruct s as [|b s]; [reflexivity|]. rewrite S2. destruct s as [|b' s]; [reflexivity|]. now rewrite S3.
Qed.

Lemma sscanf_number : forall v b t junk z, blanks b -> spells t z -> ~ starts_digit junk ->
  outcome_of (sscanf_d v (b ++ t ++ junk)) = if in64 z then ONum z else OOther.
Proof.
  intros v b t junk z B T J. unfold sscanf_d. rewrite drop_blanks by auto.
  assert (PI : parse_int t = if in64 z then Some (i64_of z) else None) by (rewrite parse_int_zval, (proj1 (spells_iff _ _) T); reflexivity).
  destruct T as [t n D K|t n D K|t n D K].
  - destruct t as [|c t]; [congruence|]. assert (C := decimal_head _ _ _ _ D eq_refl). cbn [append]. rewrite no_space_digit by auto.
    destruct (digit_no_sign c C) as [N1 N2]. destruct (Ascii.eqb_spec c "010") as [->|_]; [discriminate|].
    destruct (Ascii.eqb_spec c "+") as [->|_]; [congruence|]. destruct (Ascii.eqb_spec c "-") as [->|_]; [congruence|]. cbn [orb].
    change (String c (t ++ junk)) with (String c t ++ junk). rewrite (take_digits_app _ _ _ D J). cbn [append]. rewrite PI.
    destruct (in64 (Z.of_N n)) eqn:I6; [|reflexivity]. cbn [outcome_of]. now rewrite i64_of_z.
  - cbn [append]. rewrite no_space_digit by auto. cbn [Ascii.eqb Bool.eqb orb]. rewrite (take_digits_app _ _ _ D J).
    cbn [append] in PI. destruct t as [|c t]; [congruence|]. cbn [append]. rewrite PI.
    destruct (in64 (Z.of_N n)) eqn:I6; [|reflexivity]. cbn [outcome_of]. now rewrite i64_of_z.
  - cbn [append]. rewrite no_space_digit by auto. cbn [Ascii.eqb Bool.eqb orb]. rewrite (take_digits_app _ _ _ D J).
    cbn [append] in PI. destruct t as [|c t]; [congruence|]. cbn [append]. rewrite PI.
    destruct (in64 (- Z.of_N n)) eqn:I6; [|reflexivity]. cbn [outcome_of]. now rewrite i64_of_z.
Qed.

Lemma skip_not_blank : forall s, ~ starts_blank s -> skip_space s = s.
Proof.
  intros s N. destruct (split_blanks (String.length s) s (le_n _)) as [b [r [E [B [D _]]]]].
  destruct B as [|n b I B]; [cbn in E; congruence|]. exfalso. apply N. exists n, (b ++ r). split; [exact I|]. now rewrite E, sapp_assoc.
Qed.

Lemma sscanf_scan : forall v s o, scan s o -> outcome_of (sscanf_d v s) = o.
Proof.
  intros v s o [b t junk z B T J I6|b t junk z B T J I6|b B|b r B|b sg B G|b r B R NB NN NS ND|b sg r B G R ND].
  - rewrite (sscanf_number v b t junk z B T J), I6. reflexivity.
  - rewrite (sscanf_number v b t junk z B T J), I6. reflexivity.
  - unfold sscanf_d. rewrite <- (sapp_nil b), drop_blanks by auto. reflexivity.
  - unfold sscanf_d. rewrite drop_blanks by auto. unfold newline. cbn [append]. rewrite no_space_digit by auto. reflexivity.
  - unfold sscanf_d. rewrite drop_blanks by auto. destruct G as [->| ->]; reflexivity.
  - unfold sscanf_d. rewrite drop_blanks, skip_not_blank by auto. destruct r as [|c r]; [congruence|].
    destruct (Ascii.eqb_spec c "010") as [->|_]; [exfalso; apply NN; now exists r|].
    destruct (Ascii.eqb_spec c "+") as [->|_]; [exfalso; apply NS; exists r; now left|].
    destruct (Ascii.eqb_spec c "-") as [->|_]; [exfalso; apply NS; exists r; now right|].
    cbn [orb]. rewrite take_digits_none by auto. reflexivity.
  - unfold sscanf_d. rewrite drop_blanks by auto. destruct r as [|c r]; [congruence|].
    destruct G as [->| ->]; cbn [append]; (rewrite no_space_digit by auto); cbn [Ascii.eqb Bool.eqb orb]; rewrite take_digits_none by auto; reflexivity.
Qed.

(** every text has an outcome *)
Lemma scan_total : forall s, exists o, scan s o.
Proof.
  intros s. destruct (split_blanks (String.length s) s (le_n _)) as [b [r [E [B [_ NB]]]]]. subst s.
  destruct r as [|c r]; [exists OOther; rewrite sapp_nil; now constructor|].
  destruct (ascii_dec c "010") as [->|N0]; [exists OOther; exact (sc_line b r B)|].
  assert (Sg : forall sg, sg = "+" \/ sg = "-" -> exists o, scan (b ++ sg ++ r) o).
  { intros sg G. destruct (take_digits_split r) as [n [r' [Er [D J]]]]. destruct (take_digits r) as [|c1 ds] eqn:Td.
    - cbn [append] in Er. subst r'. destruct r as [|c2 r]; [exists OOther; rewrite sapp_nil; now apply sc_sign|].
      exists OExpected. apply sc_after; auto. discriminate.
    - rewrite Er. rewrite <- (sapp_assoc sg). assert (T : exists z, spells (sg ++ String c1 ds) z).
      { destruct G as [->| ->]; eexists; [eapply sp_plus|eapply sp_minus]; eauto; discriminate. }
      destruct T as [z T]. destruct (in64 z) eqn:I6; [exists (ONum z); now constructor | exists OOther; eapply sc_big; eauto]. }
  destruct (ascii_dec c "+") as [->|N1]; [apply (Sg "+"); auto|].
  destruct (ascii_dec c "-") as [->|N2]; [apply (Sg "-"); auto|].
  destruct (take_digits_split (String c r)) as [n [r' [Er [D J]]]]. destruct (take_digits (String c r)) as [|c1 ds] eqn:Td.
  - cbn [append] in Er. subst r'. exists OExpected. apply sc_other; auto; try discriminate.
    + intros [x X]. injection X as X _. congruence.
    + intros [x [X|X]]; injection X as X _; congruence.
  - rewrite Er. assert (T : spells (String c1 ds) (Z.of_N n)) by (apply sp_plain; [exact D | discriminate]).
    destruct (in64 (Z.of_N n)) eqn:I6; [exists (ONum (Z.of_N n)); now constructor | exists OOther; eapply sc_big; eauto].
Qed.

(** ** GetInt *)
Lemma sscanf_value : forall v s, match error_value (sscanf_d v s) with None => True | Some z => z = iv v end.
Proof.
  assert (G : forall v sg t, match error_value (match t with "" => GErr v | _ => match take_digits t with "" => GExp v
              | ds => match parse_int (sg ++ ds) with Some z => GVal z | None => GErr v end end end) with None => True | Some z => z = iv v end).
  { intros v sg t. destruct t; [reflexivity|]. destruct (take_digits _); [reflexivity|]. destruct (parse_int _); [exact I|reflexivity]. }
  intros v s. unfold sscanf_d. destruct (skip_space s) as [|c t]; [reflexivity|]. destruct (Ascii.eqb c "010"); [reflexivity|].
  destruct (_ || _)%bool; [exact (G v (String c "") t) | exact (G v "" (String c t))].
Qed.

Lemma atoi_beside : forall s, (forall z, spells s z -> in64 z = false) -> beside s (iv (atoi_errval s)).
Proof.
  intros s O. split.
  - intros z T. assert (I6 := O z T). destruct T as [t n D K|t n D K|t n D K].
    + assert (E := proj2 (parse_nat_iff _ _) (conj D K)). destruct t as [|c t]; [congruence|].
      destruct (digit_no_sign c) as [A B]; [eapply decimal_head; eauto|].
      replace (Z.of_N n <? 0)%Z with false by (symmetry; apply Z.ltb_ge; lia).
      assert (Q : atoi_errval (String c t) = match parse_nat (String c t) with Some _ => i64_of 9223372036854775807 | None => i0 end).
      { clear -A B. destruct c as [[] [] [] [] [] [] [] []]; try reflexivity; [exfalso; now apply B | exfalso; now apply A]. }
      rewrite Q, E. reflexivity.
    + cbn [append atoi_errval]. rewrite (proj2 (parse_nat_iff _ _) (conj D K)).
      replace (Z.of_N n <? 0)%Z with false by (symmetry; apply Z.ltb_ge; lia). reflexivity.
    + cbn [append atoi_errval]. rewrite (proj2 (parse_nat_iff _ _) (conj D K)).
      assert (- Z.of_N n < 0)%Z. { destruct n; [discriminate I6 | lia]. }
      replace (- Z.of_N n <? 0)%Z with true by (symmetry; apply Z.ltb_lt; lia). reflexivity.
  - intros N. assert (Z0 : zval s = None) by (destruct (zval s) as [z|] eqn:Z; [exfalso; apply (N z); now apply spells_iff | reflexivity]).
    destruct s as [|c t]; [reflexivity|].
    destruct (ascii_dec c "-") as [->|A]; [cbn [atoi_errval zval] in *; destruct (parse_nat t); [discriminate|reflexivity]|].
    destruct (ascii_dec c "+") as [->|B]; [cbn [atoi_errval zval] in *; destruct (parse_nat t); [discriminate|reflexivity]|].
    rewrite zval_plain in Z0 by auto.
    assert (Q : atoi_errval (String c t) = match parse_nat (String c t) with Some _ => i64_of 9223372036854775807 | None => i0 end).
    { clear -A B. destruct c as [[] [] [] [] [] [] [] []]; try reflexivity; [exfalso; now apply B | exfalso; now apply A]. }
    rewrite Q. destruct (parse_nat (String c t)); [discriminate|reflexivity].
Qed.

Lemma get_int_any : forall (L : GoLib) s o, scan s o -> (forall z, spells s z -> in64 z = false) -> lib_float s = None ->
  outcome_of (get_int s) = o /\ (forall v, error_value (get_int s) = Some v -> beside s v).
Proof.
  intros L s o S0 O F. assert (E : get_int s = sscanf_d (atoi_errval s) s).
  { unfold get_int. rewrite F, parse_int_zval. destruct (zval s) as [z|] eqn:Z; [|reflexivity].
    rewrite (O z) by now apply spells_iff. reflexivity. }
  rewrite E. split; [now apply sscanf_scan|]. intros v Ev. pose proof (sscanf_value (atoi_errval s) s) as V. rewrite Ev in V. subst v.
  now apply atoi_beside.
Qed.
Lemma get_int_text : forall (L : GoLib) s, (forall z, spells s z -> in64 z = false) -> lib_float s = None ->
  (exists o, scan s o) /\ (forall o, scan s o -> outcome_of (get_int s) = o) /\ (forall v, error_value (get_int s) = Some v -> beside s v).
Proof.
  intros L s O F. destruct (scan_total s) as [o S0]. split; [now exists o|]. split; [intros o' S1; now apply get_int_any|].
  intros v E. exact (proj2 (get_int_any L s o S0 O F) v E).
Qed.
Lemma get_int_float : forall (L : GoLib) s v, (forall z, spells s z -> in64 z = false) -> lib_float s = Some v -> get_int s = GVal v.
Proof.
  intros L s v O F. unfold get_int. rewrite F, parse_int_zval. destruct (zval s) as [z|] eqn:Z; [|reflexivity].
  rewrite (O z) by now apply spells_iff. reflexivity.
Qed.
