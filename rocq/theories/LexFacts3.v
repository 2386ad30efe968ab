(** Writing values that are not strings of XML characters. *)
From Coq Require Import String Ascii List Bool Arith NArith ZArith Lia ZifyN.
From Verif Require Import GoStr Num Lib XmlTok DecLemmas Lex SpecLex LexFacts.
Import ListNotations.
Local Open Scope list_scope.
Local Open Scope string_scope.
Ltac Zify.zify_post_hook ::= Z.div_mod_to_equations.

Lemma a_byte : forall a n, n = byte a -> ascii_of_N n = a.
Proof. intros a n ->. unfold byte. apply ascii_N_embedding. Qed.
Lemma between_inv : forall lo hi a, between lo hi a = true -> (lo <= byte a <= hi)%N.
Proof. intros lo hi a H. unfold between in H. apply andb_prop in H as [A B]. apply N.leb_le in A, B. lia. Qed.

(** what DecodeRune accepts is an encoding *)
Lemma rune_inv : forall s r n, rune_at s = Some (r, n) -> exists s', s = encode r ++ s' /\ n = String.length (encode r) /\ (0 < n)%nat.
Proof.
  intros [|a s1] r n H; [discriminate H|]. cbn [rune_at] in H. destruct (byte a <? 128)%N eqn:E1.
  { injection H as <- <-. exists s1. unfold encode. rewrite E1. split; [|split; [reflexivity|cbn; lia]]. cbn [append]. f_equal. symmetry. now apply a_byte. }
  apply N.ltb_ge in E1. destruct s1 as [|b s2]; [discriminate H|]. destruct (between 194 223 a) eqn:B1.
  { destruct (cont b) eqn:C; [|discriminate H]. injection H as <- <-. apply between_inv in B1. unfold cont in C. apply between_inv in C.
    exists s2. unfold encode. cbv zeta.
    assert ((((byte a - 192) * 64 + (byte b - 128)) <? 128)%N = false) as -> by (apply N.ltb_ge; lia).
    assert ((((byte a - 192) * 64 + (byte b - 128)) <? 2048)%N = true) as -> by (apply N.ltb_lt; lia).
    cbn [append String.length]. split; [|split; [reflexivity|lia]]. f_equal; [|f_equal]; symmetry; apply a_byte; lia. }
  destruct s2 as [|c s3]; [discriminate H|]. destruct (between 224 239 a) eqn:B2.
  { destruct (between (if (byte a =? 224)%N then 160 else 128)%N (if (byte a =? 237)%N then 159 else 191)%N b) eqn:D; [|discriminate H].
    destruct (cont c) eqn:C; [|discriminate H]. cbn [andb] in H. injection H as <- <-.
    apply between_inv in B2, D. unfold cont in C. apply between_inv in C.
    assert (D' : (128 <= byte b <= 191)%N) by (destruct (N.eqb_spec (byte a) 224), (N.eqb_spec (byte a) 237); lia).
    assert (D2 : (byte a = 224 -> 160 <= byte b)%N) by (destruct (N.eqb_spec (byte a) 224); [lia|congruence]).
    clear D. exists s3. unfold encode. cbv zeta. set (r := ((byte a - 224) * 4096 + (byte b - 128) * 64 + (byte c - 128))%N).
    assert (R : r = ((byte a - 224) * 4096 + (byte b - 128) * 64 + (byte c - 128))%N) by reflexivity. clearbody r.
    assert ((r <? 128)%N = false) as -> by (apply N.ltb_ge; lia).
    assert ((r <? 2048)%N = false) as -> by (apply N.ltb_ge; lia).
    assert ((r <? 65536)%N = true) as -> by (apply N.ltb_lt; lia).
    cbn [append String.length]. split; [|split; [reflexivity|lia]]. f_equal; [|f_equal; [|f_equal]]; symmetry; apply a_byte; lia. }
  destruct s3 as [|d s4]; [discriminate H|]. destruct (between 240 244 a) eqn:B3; [|discriminate H].
  destruct (between (if (byte a =? 240)%N then 144 else 128)%N (if (byte a =? 244)%N then 143 else 191)%N b) eqn:D; [|discriminate H].
  destruct (cont c) eqn:C; [|discriminate H]. destruct (cont d) eqn:C2; [|discriminate H]. cbn [andb] in H. injection H as <- <-.
  apply between_inv in B3, D. unfold cont in C, C2. apply between_inv in C, C2.
  assert (D' : (128 <= byte b <= 191)%N) by (destruct (N.eqb_spec (byte a) 240), (N.eqb_spec (byte a) 244); lia).
  assert (D2 : (byte a = 240 -> 144 <= byte b)%N) by (destruct (N.eqb_spec (byte a) 240); [lia|congruence]).
  clear D. exists s4. unfold encode. cbv zeta. set (r := ((byte a - 240) * 262144 + (byte b - 128) * 4096 + (byte c - 128) * 64 + (byte d - 128))%N).
  assert (R : r = ((byte a - 240) * 262144 + (byte b - 128) * 4096 + (byte c - 128) * 64 + (byte d - 128))%N) by reflexivity. clearbody r.
  assert ((r <? 128)%N = false) as -> by (apply N.ltb_ge; lia).
  assert ((r <? 2048)%N = false) as -> by (apply N.ltb_ge; lia).
  assert ((r <? 65536)%N = false) as -> by (apply N.ltb_ge; lia).
  cbn [append String.length]. split; [|split; [reflexivity|lia]]. f_equal; [|f_equal; [|f_equal; [|f_equal]]]; symmetry; apply a_byte; lia.
Qed.
Lemma range_char : forall r, in_char_range r = true -> xml_char r.
Proof.
  intros r H. unfold in_char_range in H. rewrite !orb_true_iff, !andb_true_iff, !N.leb_le, !N.eqb_eq in H. unfold xml_char. lia.
Qed.
Lemma encode_len : forall r, (0 < String.length (encode r))%nat.
Proof. intros r. unfold encode. cbv zeta. destruct (r <? 128)%N; [cbn; lia|]. destruct (r <? 2048)%N; [cbn; lia|]. destruct (r <? 65536)%N; cbn; lia. Qed.

Definition FFFD : string := String "239" (String "191" (String "189" "")).
Lemma fffd : FFFD = encode 65533 /\ xml_char 65533 /\ escape1 65533 = FFFD.
Proof. split; [reflexivity|]. split; [unfold xml_char; lia|reflexivity]. Qed.
Lemma escape_del : forall t s k, String.length t = k -> escape_go k true (t ++ s) = escape s.
Proof. induction t; intros s [|k] E; try discriminate E; [destruct s; reflexivity|]. cbn [append escape_go]. apply IHt. now injection E. Qed.

(** strings of XML characters can be taken apart at their characters *)
Lemma xml_string_cons : forall r s, xml_char r -> xml_string s -> xml_string (encode r ++ s).
Proof. intros r s X (l & F & ->). exists (r :: l). split; [now constructor|reflexivity]. Qed.
Lemma xml_string_inv : forall s, xml_string s -> s = "" \/ exists r s', xml_char r /\ s = encode r ++ s' /\ xml_string s'.
Proof.
  intros s ([|r l] & F & ->); [now left|]. right. inversion F; subst. exists r, (sconcat (map encode l)). split; [assumption|]. split; [reflexivity|]. exists l. auto.
Qed.
Lemma app_len_inv : forall a b c d, a ++ b = c ++ d -> String.length a = String.length c -> a = c /\ b = d.
Proof.
  induction a as [|x a IH]; intros b [|y c] d E L; try discriminate L; [auto|]. cbn [append] in E. injection E as -> E. injection L as L.
  destruct (IH b c d E L) as [-> ->]. auto.
Qed.
Lemma xml_string_tail : forall r s, xml_string (encode r ++ s) -> rune_at (encode r ++ s) = Some (r, String.length (encode r)) -> xml_string s.
Proof.
  intros r s X R. apply xml_string_inv in X as [E|(r' & s' & C & E & X)].
  - destruct (encode r) eqn:Z; [pose proof (encode_len r) as K; rewrite Z in K; cbn in K; lia|discriminate E].
  - rewrite E, (rune_encode r' s' C) in R. injection R as -> _. apply app_len_inv in E as [_ ->]; [assumption|reflexivity].
Qed.

Lemma clean_exists : forall n s, (String.length s <= n)%nat ->
  exists s', escape s = escape s' /\ (xml_string s' /\ (xml_string s -> s' = s)) /\ (s <> "" -> s' <> "").
Proof.
  induction n as [|n IH]; intros s L.
  { destruct s; [|cbn in L; lia]. exists "". split; [reflexivity|]. split; [|auto]. split; [exists []; auto|auto]. }
  destruct s as [|a s]. { exists "". split; [reflexivity|]. split; [|auto]. split; [exists []; auto|auto]. }
  destruct (rune_at (String a s)) as [[r k]|] eqn:R.
  - destruct (rune_inv _ _ _ R) as (s' & E & K & P). rewrite E in *. rewrite slen_app in L.
    destruct (in_char_range r) eqn:CR.
    + apply range_char in CR. destruct (IH s') as (u & E1 & (X & SAME) & NE); [lia|].
      exists (encode r ++ u). rewrite !escape_encode by assumption. rewrite E1. split; [reflexivity|]. split; [split|].
      * now apply xml_string_cons.
      * intros X'. rewrite SAME; [reflexivity|]. eapply xml_string_tail; [exact X'|]. now apply rune_encode.
      * intros _ Z. destruct (encode r) eqn:Q; [pose proof (encode_len r) as K'; rewrite Q in K'; cbn in K'; lia|discriminate Z].
    + destruct (IH s') as (u & E1 & (X & SAME) & NE); [lia|]. destruct fffd as (F1 & F2 & F3).
      exists (encode 65533 ++ u). rewrite (escape_encode 65533) by assumption. rewrite F3, <- E1. split; [|split; [split|]].
      * unfold escape at 1. destruct (encode r) as [|b t] eqn:Q; [subst k; cbn in P; lia|]. cbn [append escape_go] in *.
        unfold esc_rune. rewrite R.
        repeat match goal with |- context [(r =? ?m)%N] => destruct (N.eqb_spec r m) as [->|?]; [discriminate CR|] end.
        rewrite CR. fold FFFD. f_equal. subst k. cbn [String.length pred]. now apply escape_del.
      * now apply xml_string_cons.
      * intros X'. exfalso. apply xml_string_inv in X' as [Z|(r' & s2 & C & Z & _)].
        { destruct (encode r); [subst k; cbn in P; lia|discriminate Z]. }
        rewrite Z, (rune_encode r' s2 C) in R. injection R as -> _. rewrite (char_in_range r C) in CR. discriminate CR.
      * intros _ Z. discriminate Z.
  - cbn [String.length] in L. destruct (IH s) as (u & E1 & (X & SAME) & NE); [lia|]. destruct fffd as (F1 & F2 & F3).
    exists (encode 65533 ++ u). rewrite (escape_encode 65533) by assumption. rewrite F3, <- E1. split; [|split; [split|]].
    + unfold escape at 1. cbn [escape_go]. unfold esc_rune. rewrite R. fold FFFD. f_equal. cbn [pred]. apply escape_go_0.
    + now apply xml_string_cons.
    + intros X'. exfalso. apply xml_string_inv in X' as [Z|(r' & s2 & C & Z & _)]; [discriminate Z|].
      rewrite Z, (rune_encode r' s2 C) in R. discriminate R.
    + intros _ Z. discriminate Z.
Qed.

Lemma clean_attrs : forall a : list attr, exists a', show_attrs a = show_attrs a' /\ Forall2 (fun x y => fst x = fst y /\ cleaned (snd x) (snd y)) a a'.
Proof.
  induction a as [|[q v] a (a' & E & F)]; [exists []; split; [reflexivity|constructor]|].
  destruct (clean_exists _ v (le_n _)) as (v' & E1 & [C1 C2] & C3). assert (C : cleaned v v') by (repeat split; auto). exists ((q, v') :: a'). split; [cbn [show_attrs]; now rewrite E, E1|]. constructor; auto.
Qed.
Lemma clean_tree : forall t, good_shape t = true -> exists t', show t = show t' /\ cleaned_tree t t'.
Proof.
  induction t as [q a c P|s|] using tree_ind'; intros G.
  - rewrite shape_elem in G. apply andb_prop in G as [_ G]. destruct (clean_attrs a) as (a' & EA & FA).
    assert (K : exists c', shows c = shows c' /\ Forall2 cleaned_tree c c').
    { clear -P G. induction P as [|t c H P IH]; [exists []; split; [reflexivity|constructor]|]. cbn [forallb] in G. apply andb_prop in G as [G1 G2].
      destruct (H G1) as (t' & E1 & C1). destruct (IH G2) as (c' & E2 & C2). exists (t' :: c'). split; [|now constructor].
      unfold shows in *. cbn [map sconcat]. now rewrite E1, E2. }
    destruct K as (c' & EC & FC). exists (Elem q a' c'). split; [rewrite !show_elem; now rewrite EA, EC|]. now constructor.
  - destruct (clean_exists _ s (le_n _)) as (s' & E & [C1 C2] & NE). assert (C : cleaned s s') by (repeat split; auto). exists (Chr s'). split; [exact E|]. constructor; [|assumption]. apply NE.
    cbn in G. apply negb_true_iff in G. now apply String.eqb_neq in G.
  - discriminate G.
Qed.
Lemma cleaned_attrs_shape : forall (a a' : list attr), Forall2 (fun x y => fst x = fst y /\ cleaned (snd x) (snd y)) a a' ->
  forallb (fun x => good_name (fst x)) a = true -> forallb (fun x => good_name (fst x)) a' = true /\ Forall xml_string (map snd a').
Proof.
  intros a a' F. induction F as [|x y a a' (E & C) F IH]; intros G; [split; [reflexivity|constructor]|]. cbn [forallb map] in *. apply andb_prop in G as [G1 G2].
  destruct (IH G2) as [I1 I2]. rewrite <- E, G1, I1. split; [reflexivity|]. constructor; [apply C|assumption].
Qed.
Lemma cleaned_shape : forall t t', cleaned_tree t t' -> good_shape t = true -> good_shape t' = true /\ Forall xml_string (values t').
Proof.
  induction t as [q a c P|s|] using tree_ind'; intros t' C G; inversion C as [? ? a' ? c' FA FC|? s' NE CL]; subst.
  - rewrite shape_elem in G. apply andb_prop in G as [G G4]. apply andb_prop in G as [G G3]. apply andb_prop in G as [G1 G2].
    destruct (cleaned_attrs_shape _ _ FA G2) as [A1 A2].
    assert (K : forallb good_shape c' = true /\ Forall xml_string (flat_map values c')).
    { clear -P FC G4. induction FC as [|t t' c c' H FC IH]; [split; [reflexivity|constructor]|]. inversion P; subst. cbn [forallb flat_map] in *.
      apply andb_prop in G4 as [G1 G2]. destruct (H2 t' H G1) as [I1 I2]. destruct (IH H3 G2) as [J1 J2]. rewrite I1, J1. split; [reflexivity|]. apply Forall_app. auto. }
    assert (T : texts_apart c' = true).
    { clear -FC G3. induction FC as [|t t' c c' H FC IH]; [reflexivity|]. inversion H; subst.
      - cbn [texts_apart] in *. auto.
      - destruct c as [|[] c]; inversion FC as [|? ? ? ? Z]; subst; [reflexivity|inversion Z; subst; cbn in *; auto|discriminate G3|inversion Z]. }
    destruct K as [K1 K2]. rewrite shape_elem, values_elem, G1, A1, T, K1. split; [reflexivity|]. apply Forall_app. auto.
  - cbn. apply String.eqb_neq in NE. rewrite NE. split; [reflexivity|]. constructor; [apply CL|constructor].
Qed.

Theorem lex_write_any : forall t, (exists q a c, t = Elem q a c) -> good_shape t = true ->
  exists t', cleaned_tree t t' /\ lex (write_xml t) = (TMisc :: TChar (String "010" "") :: toks t')%list.
Proof.
  intros t (q & a & c & ->) G. destruct (clean_tree _ G) as (t' & E & C). exists t'. split; [assumption|].
  unfold write_xml. rewrite E. destruct (cleaned_shape _ _ C G) as [G' V]. apply lex_write; auto. inversion C; subst. eauto.
Qed.
