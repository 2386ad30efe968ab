(** Numbers in character data: the position of an anchored drawing. *)
From Coq Require Import String Ascii List Bool Arith NArith ZArith Lia.
From Verif Require Import GoStr Num Lib Types XmlTok Unmarshal DecLemmas Marshal RoundTrip SpecNum NumFacts SpecInt IntFacts.
Import ListNotations.
Local Open Scope list_scope.
Local Open Scope string_scope.

Lemma nl_high : forall a, (128 <= N_of_ascii a)%N -> is_space_nl a = false.
Proof.
  intros a L. unfold is_space_nl, is_space. destruct (Ascii.eqb_spec a "010") as [->|_]; [cbn in L; lia|].
  destruct (N.eqb_spec (N_of_ascii a) 32), (N.eqb_spec (N_of_ascii a) 9), (N.eqb_spec (N_of_ascii a) 11), (N.eqb_spec (N_of_ascii a) 12), (N.eqb_spec (N_of_ascii a) 13); try lia; reflexivity.
Qed.
Lemma ltrim_white : forall b s, white b -> ltrim (b ++ s) = ltrim s.
Proof.
  intros b s W. induction W as [|n b I W IH]; [reflexivity|]. rewrite sapp_assoc. destruct I as [->|I]; [exact IH|].
  unfold ltrim in *. rewrite drop_point; auto; [|apply nl_high]. intros a A. unfold is_space_nl. now rewrite A.
Qed.
Lemma ltrim_all : forall b, white b -> ltrim b = "".
Proof. intros b W. rewrite <- (sapp_nil b), ltrim_white by auto. reflexivity. Qed.
Lemma rtrim_all : forall b, white b -> rtrim b = "".
Proof. intros b W. destruct b as [|c b]; [reflexivity|]. cbn [rtrim]. rewrite ltrim_all by auto. reflexivity. Qed.

Lemma sign_nospace : forall c s, is_digit c = true \/ c = "-"%char \/ c = "+"%char -> ltrim (String c s) = String c s.
Proof. intros c s [D|[->| ->]]; [apply digit_nospace; auto | apply digit_nospace; auto|]. destruct s as [|? [|? ?]]; reflexivity. Qed.

Lemma rtrim_digits : forall t acc v b, digits_val t acc = Some v -> white b -> rtrim (t ++ b) = t.
Proof.
  induction t as [|c t IH]; intros acc v b D W; [now apply rtrim_all|]. cbn [digits_val] in D. destruct (is_digit c) eqn:C; [|discriminate].
  cbn [append rtrim]. rewrite sign_nospace by auto. cbn [String.eqb]. f_equal. eapply IH; eauto.
Qed.
Lemma trim_number : forall b t b' z, white b -> spells t z -> white b' -> rtrim (ltrim (b ++ t ++ b')) = t.
Proof.
  intros b t b' z W T W'. rewrite ltrim_white by auto. destruct T as [t n D K|t n D K|t n D K].
  - destruct t as [|c t]; [congruence|]. cbn [append]. rewrite sign_nospace by (left; eapply decimal_head; eauto).
    apply decimal_iff in D. eapply (rtrim_digits (String c t)); eauto.
  - cbn [append]. rewrite sign_nospace by auto. cbn [rtrim]. rewrite sign_nospace by auto. cbn [String.eqb]. f_equal.
    apply decimal_iff in D. eapply rtrim_digits; eauto.
  - cbn [append]. rewrite sign_nospace by auto. cbn [rtrim]. rewrite sign_nospace by auto. cbn [String.eqb]. f_equal.
    apply decimal_iff in D. eapply rtrim_digits; eauto.
Qed.

(** trimming takes away white space *)
Lemma ltrim_split : forall n s, String.length s <= n -> exists b, white b /\ s = b ++ ltrim s.
Proof.
  assert (Z : forall s, exists b, white b /\ s = b ++ s) by (intros s; exists ""; split; [constructor|reflexivity]).
  induction n as [|n IH]; intros s L; [destruct s; [apply Z|cbn in L; lia]|].
  destruct s as [|a s]; [apply Z|]. unfold ltrim in *. cbn [drop_spaces]. destruct (is_space_nl a) eqn:S1.
  { destruct (IH s) as [b [B E]]; [cbn in L; lia|]. unfold is_space_nl in S1. apply orb_prop in S1. destruct S1 as [S1|S1].
    - destruct (is_space_point a S1) as [k [I E1]]. exists (utf8 k ++ b). split; [constructor; auto|]. rewrite sapp_assoc, <- E1. cbn [append]. now rewrite <- E.
    - apply Ascii.eqb_eq in S1. subst a. exists (utf8 10 ++ b). split; [constructor; auto|]. rewrite sapp_assoc. cbn. now rewrite <- E. }
  destruct s as [|b s]; [apply Z|]. destruct (is_space2 a b) eqn:S2.
  { destruct (IH s) as [b' [B E]]; [cbn in L; lia|]. destruct (is_space2_point a b S2) as [k [I E1]].
    exists (utf8 k ++ b'). split; [constructor; auto|]. rewrite sapp_assoc, <- E1. cbn [append]. now rewrite <- E. }
  destruct s as [|c s]; [apply Z|]. destruct (is_space3 a b c) eqn:S3; [|apply Z].
  destruct (IH s) as [b' [B E]]; [cbn in L; lia|]. destruct (is_space3_point a b c S3) as [k [I E1]].
  exists (utf8 k ++ b'). split; [constructor; auto|]. rewrite sapp_assoc, <- E1. cbn [append]. now rewrite <- E.
Qed.
Lemma rtrim_split : forall s, exists b, white b /\ s = rtrim s ++ b.
Proof.
  induction s as [|c s IH]; [exists ""; split; [constructor|reflexivity]|]. cbn [rtrim].
  destruct (String.eqb_spec (ltrim (String c s)) "") as [E|_].
  - destruct (ltrim_split _ (String c s) (le_n _)) as [b [B Eb]]. rewrite E, sapp_nil in Eb. exists b. split; [exact B|exact Eb].
  - destruct IH as [b [B E]]. exists b. split; [exact B|]. cbn [append]. now rewrite <- E.
Qed.

(** ** the position *)
Definition pos_element (q : qname) (a : list attr) (q' : qname) (a' : list attr) (s : string) : tree := Elem q a [Elem q' a' [Chr s]].

Lemma pos_step : forall q a q' a' s k, snd q' = "posOffset" -> 
  u_wpos a (ftoks [Elem q' a' [Chr s]] ++ TEnd q :: TEof :: k) =
  let x := mk_wpos (get_att a "relativeFrom") i0 in
  if String.eqb s "" then (x, SOk, TEof :: k) else
  match parse_int (rtrim (ltrim s)) with
  | Some n => (mk_wpos (get_att a "relativeFrom") n, SOk, TEof :: k)
  | None => (x, SAbort XInt, TEnd q :: TEof :: k)
  end.
Proof.
  intros q a q' a' s k Q. unfold u_wpos, loop. cbn [ftoks flat_map toks app].
  cbn [loop_n size]. unfold eswitch. cbn [switch]. rewrite Q. cbn [String.eqb Ascii.eqb Bool.eqb].
  unfold xml_int. rewrite str_chr. cbv zeta. destruct (String.eqb s ""); [reflexivity|].
  destruct (parse_int (rtrim (ltrim s))); reflexivity.
Qed.

(** a text of white space, a number in range and white space gives the number,
    no text gives 0, every other text an error *)
Lemma pos_number : forall q a q' a' b t b' z k, snd q' = "posOffset" -> white b -> spells t z -> white b' -> in64 z = true ->
  exists v, iv v = z /\ sub (u_wpos a) (ftoks [Elem q' a' [Chr (b ++ t ++ b')]] ++ TEnd q :: k) = (mk_wpos (get_att a "relativeFrom") v, SOk, k).
Proof.
  intros q a q' a' b t b' z k Q W T W' I6. exists (i64_of z). split; [now apply i64_of_z|].
  unfold sub. rewrite push_eof_forest, pos_step by auto. cbv zeta. rewrite (trim_number b t b' z W T W').
  rewrite parse_int_zval, (proj1 (spells_iff _ _) T), I6.
  destruct (String.eqb_spec (b ++ t ++ b') "") as [E|_]; [|reflexivity].
  exfalso. destruct b; [|discriminate]. destruct T as [t n D K|t n D K|t n D K]; cbn in E; try discriminate. destruct t; [congruence|discriminate].
Qed.
Lemma pos_empty : forall q a q' a' k, snd q' = "posOffset" ->
  sub (u_wpos a) (ftoks [Elem q' a' [Chr ""]] ++ TEnd q :: k) = (mk_wpos (get_att a "relativeFrom") i0, SOk, k).
Proof. intros. unfold sub. rewrite push_eof_forest, pos_step by auto. reflexivity. Qed.
Lemma pos_error : forall q a q' a' s k, snd q' = "posOffset" -> s <> "" ->
  (forall b t b' z, s = b ++ t ++ b' -> white b -> white b' -> spells t z -> in64 z = false) ->
  exists x r, sub (u_wpos a) (ftoks [Elem q' a' [Chr s]] ++ TEnd q :: k) = (x, SAbort XInt, r).
Proof.
  intros q a q' a' s k Q NE N. unfold sub. rewrite push_eof_forest, pos_step by auto. cbv zeta.
  destruct (String.eqb_spec s "") as [E|_]; [congruence|]. rewrite parse_int_zval.
  destruct (zval (rtrim (ltrim s))) as [z|] eqn:Z; [|do 2 eexists; reflexivity].
  destruct (ltrim_split _ s (le_n _)) as [b [W E]]. destruct (rtrim_split (ltrim s)) as [b' [W' E']].
  rewrite (N b (rtrim (ltrim s)) b' z); [do 2 eexists; reflexivity| | | |]; auto; [rewrite <- E'; exact E | now apply spells_iff].
Qed.
