(** Reading back what was written. *)
From Coq Require Import String Ascii List Bool Arith NArith ZArith Lia ZifyN.
From Verif Require Import GoStr Num Lib XmlTok DecLemmas Lex SpecLex.
Import ListNotations.
Local Open Scope list_scope.
Local Open Scope string_scope.
Ltac Zify.zify_post_hook ::= Z.div_mod_to_equations.

Lemma byte_a : forall n, (n < 256)%N -> byte (ascii_of_N n) = n.
Proof. intros. unfold byte. apply N_ascii_embedding. assumption. Qed.
Lemma between_true : forall lo hi a, (lo <= byte a <= hi)%N -> between lo hi a = true.
Proof. intros. unfold between. apply andb_true_intro. split; apply N.leb_le; lia. Qed.
Lemma between_false : forall lo hi a, (byte a < lo \/ hi < byte a)%N -> between lo hi a = false.
Proof. intros lo hi a [H|H]; unfold between; [apply andb_false_intro1|apply andb_false_intro2]; apply N.leb_gt; lia. Qed.

(** the bytes of an encoded character *)
Inductive encoded (r : N) : string -> Prop :=
| enc1 : (r < 128)%N -> encoded r (String (ascii_of_N r) "")
| enc2 : forall a b, byte a = (192 + r / 64)%N -> byte b = (128 + r mod 64)%N -> (128 <= r < 2048)%N -> encoded r (String a (String b ""))
| enc3 : forall a b c, byte a = (224 + r / 4096)%N -> byte b = (128 + (r / 64) mod 64)%N -> byte c = (128 + r mod 64)%N ->
    (2048 <= r < 65536)%N -> encoded r (String a (String b (String c "")))
| enc4 : forall a b c d, byte a = (240 + r / 262144)%N -> byte b = (128 + (r / 4096) mod 64)%N -> byte c = (128 + (r / 64) mod 64)%N ->
    byte d = (128 + r mod 64)%N -> (65536 <= r <= 1114111)%N -> encoded r (String a (String b (String c (String d "")))).
Lemma encode_encoded : forall r, xml_char r -> encoded r (encode r).
Proof.
  intros r X. unfold encode. cbv zeta.
  assert (R : (r <= 1114111)%N) by (unfold xml_char in X; lia).
  destruct (r <? 128)%N eqn:E1; [apply N.ltb_lt in E1; now constructor|]. apply N.ltb_ge in E1.
  destruct (r <? 2048)%N eqn:E2.
  { apply N.ltb_lt in E2. apply enc2; [| |lia]; apply byte_a; lia. }
  apply N.ltb_ge in E2. destruct (r <? 65536)%N eqn:E3.
  { apply N.ltb_lt in E3. apply enc3; [| | |lia]; apply byte_a; lia. }
  apply N.ltb_ge in E3. apply enc4; [| | | |lia]; apply byte_a; lia.
Qed.

Lemma rune_encode : forall r s, xml_char r -> rune_at (encode r ++ s) = Some (r, String.length (encode r)).
Proof.
  intros r s X. pose proof (encode_encoded r X) as E. destruct E as [L|a b A B L|a b c A B C L|a b c d A B C D L]; cbn [append].
  - cbn [rune_at]. rewrite byte_a by lia. assert ((r <? 128)%N = true) as -> by (apply N.ltb_lt; lia). reflexivity.
  - cbn [rune_at String.length].
    assert ((byte a <? 128)%N = false) as -> by (apply N.ltb_ge; lia).
    rewrite (between_true 194 223 a) by lia. unfold cont. rewrite (between_true 128 191 b) by lia.
    f_equal. f_equal. lia.
  - cbn [rune_at String.length].
    assert ((byte a <? 128)%N = false) as -> by (apply N.ltb_ge; lia).
    rewrite (between_false 194 223 a) by lia. rewrite (between_true 224 239 a) by lia.
    unfold cont. rewrite (between_true 128 191 c) by lia.
    assert (Y : between (if (byte a =? 224)%N then 160 else 128)%N (if (byte a =? 237)%N then 159 else 191)%N b = true).
    { unfold xml_char in X. destruct (N.eqb_spec (byte a) 224); destruct (N.eqb_spec (byte a) 237); apply between_true; lia. }
    rewrite Y. cbn [andb]. f_equal. f_equal. lia.
  - cbn [rune_at String.length].
    assert ((byte a <? 128)%N = false) as -> by (apply N.ltb_ge; lia).
    rewrite (between_false 194 223 a) by lia. rewrite (between_false 224 239 a) by lia. rewrite (between_true 240 244 a) by lia.
    unfold cont. rewrite (between_true 128 191 c) by lia. rewrite (between_true 128 191 d) by lia.
    assert (Y : between (if (byte a =? 240)%N then 144 else 128)%N (if (byte a =? 244)%N then 143 else 191)%N b = true).
    { destruct (N.eqb_spec (byte a) 240); destruct (N.eqb_spec (byte a) 244); apply between_true; lia. }
    rewrite Y. cbn [andb]. f_equal. f_equal. lia.
Qed.

Lemma char_in_range : forall r, xml_char r -> in_char_range r = true.
Proof.
  intros r X. unfold in_char_range.
  destruct X as [->|[->|[->|[X|[X|X]]]]]; try reflexivity;
  rewrite !orb_true_iff, !andb_true_iff, !N.leb_le, !N.eqb_eq; lia.
Qed.

Lemma encode_cons : forall r, xml_char r -> exists a t, encode r = String a t.
Proof. intros r X. destruct (encode_encoded r X); eauto. Qed.

Lemma legal_skip : forall t s k, String.length t = k -> legal_go k (t ++ s) = legal s.
Proof. induction t; intros s [|k] E; try discriminate E; [destruct s; reflexivity|]. cbn [append legal_go]. apply IHt. now injection E. Qed.
Lemma legal_encode : forall r s, xml_char r -> legal (encode r ++ s) = legal s.
Proof.
  intros r s X. pose proof (rune_encode r s X) as R. destruct (encode_cons r X) as (a & t & E). rewrite E in *.
  unfold legal at 1. cbn [append] in *. cbn [legal_go]. rewrite R, (char_in_range r X). cbn [String.length andb pred]. now apply legal_skip.
Qed.
Lemma xml_legal : forall s, xml_string s -> legal s = true.
Proof. intros s (l & F & ->). induction F as [|r l X _ IH]; [reflexivity|]. cbn [map sconcat]. now rewrite legal_encode. Qed.

(** ** escaping *)
Definition escape1 (r : N) : string :=
  if (r =? 34)%N then "&#34;"
  else if (r =? 39)%N then "&#39;"
  else if (r =? 38)%N then "&amp;"
  else if (r =? 60)%N then "&lt;"
  else if (r =? 62)%N then "&gt;"
  else if (r =? 9)%N then "&#x9;"
  else if (r =? 10)%N then "&#xA;"
  else if (r =? 13)%N then "&#xD;"
  else encode r.
Lemma escape_skip : forall t s k, String.length t = k -> escape_go k false (t ++ s) = t ++ escape s.
Proof. induction t; intros s [|k] E; try discriminate E; [destruct s; reflexivity|]. cbn [append escape_go]. f_equal. apply IHt. now injection E. Qed.
Lemma escape_go_0 : forall b s, escape_go 0 b s = escape s.
Proof. intros b []; reflexivity. Qed.
Lemma escape_encode : forall r s, xml_char r -> escape (encode r ++ s) = escape1 r ++ escape s.
Proof.
  intros r s X. pose proof (rune_encode r s X) as R. destruct (encode_cons r X) as (a & t & E).
  unfold escape at 1. rewrite E in *. cbn [append] in *. cbn [escape_go]. unfold esc_rune. rewrite R.
  assert (SM : (r < 128)%N -> t = "").
  { intros L. unfold encode in E. assert ((r <? 128)%N = true) as Z by (apply N.ltb_lt; lia). rewrite Z in E. injection E. auto. }
  unfold escape1. rewrite E.
  repeat match goal with |- context [(r =? ?k)%N] => destruct (N.eqb_spec r k) as [->|?];
    [rewrite (SM eq_refl); cbn [String.length pred]; now rewrite escape_go_0|] end.
  rewrite (char_in_range r X). cbn [String.length pred append]. f_equal. now apply escape_skip.
Qed.

(** bytes that the reader copies *)
Definition safe (a : ascii) : bool :=
  negb ((byte a =? 60) || (byte a =? 62) || (byte a =? 38) || (byte a =? 34) || (byte a =? 13) || (byte a =? 10))%N.
Lemma eqb_byte : forall a b, Ascii.eqb a b = (byte a =? byte b)%N.
Proof.
  intros a b. destruct (Ascii.eqb_spec a b) as [->|N]; symmetry; [apply N.eqb_refl|].
  apply N.eqb_neq. intros E. apply N. unfold byte in E. rewrite <- (ascii_N_embedding a), <- (ascii_N_embedding b). congruence.
Qed.
Definition quoted (q : option ascii) : Prop := q = None \/ q = Some QUOTE.
Lemma text_copy : forall q b0 b1 a s, quoted q -> safe a = true ->
  text_go q b0 b1 None (String a s) = match text_go q b1 a None s with Some (x, r) => Some (String a x, r) | None => None end.
Proof.
  intros q b0 b1 a s Q S. unfold safe in S. apply negb_true_iff in S. rewrite !orb_false_iff in S.
  destruct S as (((((S1 & S2) & S3) & S4) & S5) & S6).
  cbn [text_go]. rewrite (eqb_byte a ">"), (eqb_byte a "<"), (eqb_byte a "&"), (eqb_byte a "013"), (eqb_byte a "010").
  change (byte ">") with 62%N. change (byte "<") with 60%N. change (byte "&") with 38%N. change (byte "013") with 13%N. change (byte "010") with 10%N.
  rewrite S1, S2, S3, S5, S6. rewrite !andb_false_r.
  destruct Q as [->| ->].
  - destruct (text_go None b1 a None s) as [[x r]|]; reflexivity.
  - rewrite (eqb_byte a QUOTE). change (byte QUOTE) with 34%N. rewrite S4.
    destruct (text_go (Some QUOTE) b1 a None s) as [[x r]|]; reflexivity.
Qed.
Lemma text_copies : forall t q s x r, quoted q -> all_chars safe t = true ->
  (forall b0 b1, text_go q b0 b1 None s = Some (x, r)) -> forall b0 b1, text_go q b0 b1 None (t ++ s) = Some (t ++ x, r).
Proof.
  induction t as [|a t IH]; intros q s x r Q F H b0 b1; [apply H|].
  cbn [all_chars] in F. apply andb_prop in F as [S F]. cbn [append]. rewrite text_copy by assumption.
  now rewrite (IH q s x r).
Qed.

Lemma safe_big : forall a, (128 <= byte a)%N -> safe a = true.
Proof.
  intros a B. unfold safe. apply negb_true_iff. rewrite !orb_false_iff, !N.eqb_neq. lia.
Qed.
Lemma safe_encode : forall r, xml_char r -> (r <> 34 -> r <> 38 -> r <> 60 -> r <> 62 -> r <> 10 -> r <> 13 -> all_chars safe (encode r) = true)%N.
Proof.
  intros r X N1 N2 N3 N4 N5 N6. destruct (encode_encoded r X) as [L|a b A B L|a b c A B C L|a b c d A B C D L]; cbn [all_chars].
  - rewrite andb_true_r. unfold safe. rewrite byte_a by lia. apply negb_true_iff. rewrite !orb_false_iff, !N.eqb_neq. lia.
  - rewrite !safe_big by lia. reflexivity.
  - rewrite !safe_big by lia. reflexivity.
  - rewrite !safe_big by lia. reflexivity.
Qed.

(** a reference *)
Lemma text_ent : forall e q b0 b1 acc v s x r, all_chars (fun a => negb (Ascii.eqb a ";")) e = true ->
  entity (acc ++ e) = Some v -> (forall b0 b1, text_go q b0 b1 None s = Some (x, r)) ->
  text_go q b0 b1 (Some acc) (e ++ String ";" s) = Some (v ++ x, r).
Proof.
  induction e as [|a e IH]; intros q b0 b1 acc v s x r A E H.
  - cbn [append text_go]. rewrite sapp_nil_r in E. cbn. rewrite E, H. reflexivity.
  - cbn [all_chars] in A. apply andb_prop in A as [A1 A2]. apply negb_true_iff in A1.
    cbn [append text_go]. rewrite A1. apply IH; auto. now rewrite <- sapp_assoc.
Qed.
Lemma text_ref : forall e q b0 b1 v s x r, quoted q -> all_chars (fun a => negb (Ascii.eqb a ";")) e = true ->
  entity e = Some v -> (forall b0 b1, text_go q b0 b1 None s = Some (x, r)) ->
  text_go q b0 b1 None (String "&" (e ++ String ";" s)) = Some (v ++ x, r).
Proof.
  intros e q b0 b1 v s x r Q A E H.
  transitivity (text_go q b0 b1 (Some "") (e ++ String ";" s)); [|now apply text_ent].
  cbn [text_go]. change (Ascii.eqb "&" ">") with false. change (Ascii.eqb "&" "<") with false. change (Ascii.eqb "&" "&") with true.
  rewrite andb_false_r. destruct Q as [->| ->]; reflexivity.
Qed.

Lemma text_escape1 : forall r q s x t, xml_char r -> quoted q ->
  (forall b0 b1, text_go q b0 b1 None s = Some (x, t)) ->
  forall b0 b1, text_go q b0 b1 None (escape1 r ++ s) = Some (encode r ++ x, t).
Proof.
  intros r q s x t X Q H b0 b1. unfold escape1.
  destruct (N.eqb_spec r 34) as [->|N1]; [exact (text_ref "#34" q b0 b1 _ s x t Q eq_refl eq_refl H)|].
  destruct (N.eqb_spec r 39) as [->|N2]; [exact (text_ref "#39" q b0 b1 _ s x t Q eq_refl eq_refl H)|].
  destruct (N.eqb_spec r 38) as [->|N3]; [exact (text_ref "amp" q b0 b1 _ s x t Q eq_refl eq_refl H)|].
  destruct (N.eqb_spec r 60) as [->|N4]; [exact (text_ref "lt" q b0 b1 _ s x t Q eq_refl eq_refl H)|].
  destruct (N.eqb_spec r 62) as [->|N5]; [exact (text_ref "gt" q b0 b1 _ s x t Q eq_refl eq_refl H)|].
  destruct (N.eqb_spec r 9) as [->|N6]; [exact (text_ref "#x9" q b0 b1 _ s x t Q eq_refl eq_refl H)|].
  destruct (N.eqb_spec r 10) as [->|N7]; [exact (text_ref "#xA" q b0 b1 _ s x t Q eq_refl eq_refl H)|].
  destruct (N.eqb_spec r 13) as [->|N8]; [exact (text_ref "#xD" q b0 b1 _ s x t Q eq_refl eq_refl H)|].
  apply text_copies; auto. apply safe_encode; auto.
Qed.
Lemma text_escape : forall l q s x t, Forall xml_char l -> quoted q ->
  (forall b0 b1, text_go q b0 b1 None s = Some (x, t)) ->
  forall b0 b1, text_go q b0 b1 None (escape (sconcat (map encode l)) ++ s) = Some (sconcat (map encode l) ++ x, t).
Proof.
  induction l as [|r l IH]; intros q s x t F Q H b0 b1; [apply H|].
  inversion F; subst. cbn [map sconcat]. rewrite escape_encode by assumption. rewrite <- !sapp_assoc.
  apply text_escape1; auto.
Qed.

(** text up to the next tag, and the value of an attribute *)
Lemma text_value : forall v s, xml_string v -> text (Some QUOTE) (escape v ++ String QUOTE s) = Some (v, s).
Proof.
  intros v s X. pose proof (xml_legal v X) as LG. destruct X as (l & F & ->). unfold text.
  rewrite (text_escape l (Some QUOTE) (String QUOTE s) "" s); [| assumption | now right |].
  - now rewrite sapp_nil_r, LG.
  - intros b0 b1. reflexivity.
Qed.
Lemma text_chars : forall v s, xml_string v -> text None (escape v ++ String "<" s) = Some (v, String "<" s).
Proof.
  intros v s X. pose proof (xml_legal v X) as LG. destruct X as (l & F & ->). unfold text.
  rewrite (text_escape l None (String "<" s) "" (String "<" s)); [| assumption | now left |].
  - now rewrite sapp_nil_r, LG.
  - intros b0 b1. cbn [text_go]. change (Ascii.eqb "<" ">") with false. rewrite !andb_false_r. reflexivity.
Qed.
(** ** names *)
Lemma letter_facts : forall a, letter a = true -> name_char a = true /\ name_start a = true.
Proof.
  intros a H. unfold name_char. rewrite H. split; [reflexivity|]. unfold letter in H. cbv zeta in H.
  unfold name_start, is_letter, between, byte. rewrite !orb_true_iff in *. tauto.
Qed.
Lemma name_char_facts : forall a, name_char a = true -> name_byte a = true /\ Ascii.eqb a ":" = false /\ (byte a <? 128)%N = true.
Proof.
  intros a H. rewrite eqb_byte. change (byte ":") with 58%N. unfold name_byte, is_letter, is_digit, between, byte in *.
  unfold name_char, letter in H. cbv zeta in H. rewrite !orb_true_iff, !andb_true_iff, !N.leb_le, !N.eqb_eq in H.
  rewrite !orb_true_iff, !andb_true_iff, !N.leb_le, !N.eqb_eq, N.eqb_neq, N.ltb_lt. lia.
Qed.
Lemma take_chars : forall n c t, all_chars name_char n = true -> name_byte c = false -> take_name (n ++ String c t) = (n, String c t).
Proof.
  induction n as [|a n IH]; intros c t A C; cbn [append take_name].
  - now rewrite C.
  - cbn [all_chars] in A. apply andb_prop in A as [A1 A2]. destruct (name_char_facts a A1) as (B & _). rewrite B, IH by assumption. reflexivity.
Qed.
Lemma take_more : forall n s, all_chars name_byte n = true -> take_name (n ++ s) = (n ++ fst (take_name s), snd (take_name s)).
Proof.
  induction n as [|a n IH]; intros s A; cbn [append take_name]; [now destruct (take_name s)|].
  cbn [all_chars] in A. apply andb_prop in A as [A1 A2]. rewrite A1, IH by assumption. reflexivity.
Qed.
Lemma chars_imp : forall (f g : ascii -> bool) s, (forall a, f a = true -> g a = true) -> all_chars f s = true -> all_chars g s = true.
Proof. intros f g s H. induction s; cbn [all_chars]; auto. intros A. apply andb_prop in A as [A1 A2]. rewrite H by assumption. auto. Qed.
Lemma chars_app : forall f a b, all_chars f (a ++ b) = all_chars f a && all_chars f b.
Proof. intros f a b. induction a; cbn [append all_chars]; [reflexivity|]. rewrite IHa. apply andb_assoc. Qed.
Lemma plain_chars : forall s, plain_name s = true -> all_chars name_char s = true.
Proof.
  intros [|a s] P; [discriminate P|]. cbn [plain_name all_chars] in *. apply andb_prop in P as [A B].
  destruct (letter_facts a A) as [C _]. now rewrite C.
Qed.
Lemma name_count : forall s, all_chars name_char s = true -> count ":" s = 0.
Proof.
  induction s as [|a s IH]; intros A; [reflexivity|]. cbn [all_chars count] in *. apply andb_prop in A as [A1 A2].
  destruct (name_char_facts a A1) as (_ & B & _). rewrite B. now apply IH.
Qed.
Lemma name_cut : forall s t, all_chars name_char s = true -> cut_colon (s ++ String ":" t) = Some (s, t).
Proof.
  induction s as [|a s IH]; intros t A; cbn [append cut_colon]; [reflexivity|]. cbn [all_chars] in A. apply andb_prop in A as [A1 A2].
  destruct (name_char_facts a A1) as (_ & B & _). now rewrite B, IH.
Qed.
Lemma name_nocut : forall s, all_chars name_char s = true -> cut_colon s = None.
Proof.
  induction s as [|a s IH]; intros A; cbn [cut_colon]; [reflexivity|]. cbn [all_chars] in A. apply andb_prop in A as [A1 A2].
  destruct (name_char_facts a A1) as (_ & B & _). now rewrite B, IH.
Qed.
Lemma rune_low : forall a s, (byte a <? 128)%N = true -> rune_at (String a s) = Some (byte a, 1).
Proof. intros a s H. unfold rune_at. fold (byte a). now rewrite H. Qed.
Lemma byte_back : forall a, ascii_of_N (byte a) = a.
Proof. intros a. apply ascii_N_embedding. Qed.
Lemma name_go_low : forall a s, name_byte a = true -> (byte a <? 128)%N = true -> name_go 0 s = true -> name_go 0 (String a s) = true.
Proof.
  intros a s A B S. cbn [name_go]. rewrite rune_low by assumption. unfold name_rune. rewrite B, byte_back, A. exact S.
Qed.
Lemma name_chars_go : forall s u, all_chars name_char s = true -> name_go 0 u = true -> name_go 0 (s ++ u) = true.
Proof.
  induction s as [|a s IH]; intros u A U; [exact U|]. cbn [append all_chars] in *. apply andb_prop in A as [A1 A2].
  destruct (name_char_facts a A1) as (B & _ & C). apply name_go_low; auto.
Qed.
Lemma plain_valid : forall s u, plain_name s = true -> name_go 0 u = true -> valid_name (s ++ u) = true.
Proof.
  intros [|a s] u P U; [discriminate P|]. pose proof (plain_chars _ P) as C. cbn [plain_name] in P. apply andb_prop in P as [A _].
  pose proof (name_chars_go _ u C U) as G. cbn [all_chars] in C. apply andb_prop in C as [C _]. destruct (name_char_facts a C) as (_ & _ & B).
  destruct (letter_facts a A) as [_ F]. unfold valid_name. rewrite G. cbn [append]. rewrite rune_low by assumption. unfold first_rune. now rewrite B, byte_back, F.
Qed.
Lemma ns_name_show : forall q c t, good_name q = true -> name_byte c = false -> ns_name (show_name q ++ String c t) = Some (q, String c t).
Proof.
  intros [x y] c t G C. unfold good_name in G. cbn [fst snd] in G. apply andb_prop in G as [G1 G2].
  pose proof (plain_chars y G2) as GY. unfold show_name. cbn [fst snd]. destruct (String.eqb_spec x "") as [->|NX].
  - unfold ns_name. rewrite take_chars by assumption.
    pose proof (plain_valid y "" G2 eq_refl) as V. rewrite sapp_nil_r in V. rewrite V, (name_count y GY), (name_nocut y GY). reflexivity.
  - cbn [orb] in G1. pose proof (plain_chars x G1) as GX.
    replace ((x ++ ":" ++ y) ++ String c t) with ((x ++ ":") ++ (y ++ String c t)) by (now rewrite <- !sapp_assoc).
    unfold ns_name. rewrite take_more.
    + rewrite take_chars by assumption. cbn [fst snd]. rewrite <- sapp_assoc.
      change (":" ++ y) with (String ":" y). rewrite plain_valid; [|assumption|apply name_go_low; [reflexivity|reflexivity|]; rewrite <- (sapp_nil_r y); now apply name_chars_go].
      rewrite count_app. cbn [count]. rewrite (name_count x GX), (name_count y GY), (name_cut x y GX).
      assert (String.eqb x "" = false) as -> by (now apply String.eqb_neq).
      destruct y; [discriminate G2|]. reflexivity.
    + rewrite chars_app. rewrite (chars_imp name_char name_byte x); [reflexivity| |assumption]. intros a H. now destruct (name_char_facts a H).
Qed.
Lemma name_first : forall q, good_name q = true -> exists a s, show_name q = String a s /\ name_char a = true.
Proof.
  intros [x y] G. unfold good_name in G. cbn [fst snd] in G. apply andb_prop in G as [G1 G2]. unfold show_name. cbn [fst snd].
  destruct (String.eqb_spec x "") as [->|NX].
  - apply plain_chars in G2 as H. destruct y as [|a y]; [discriminate G2|]. cbn [all_chars] in H. apply andb_prop in H as [H _]. eauto.
  - cbn [orb] in G1. apply plain_chars in G1 as H. destruct x as [|a x]; [now destruct NX|]. cbn [all_chars] in H. apply andb_prop in H as [H _]. cbn [append]. eauto.
Qed.
(** what a name character is not *)
Lemma name_not : forall a, name_char a = true ->
  is_space a = false /\ Ascii.eqb a "/" = false /\ Ascii.eqb a ">" = false /\ Ascii.eqb a "?" = false /\ Ascii.eqb a "!" = false.
Proof.
  intros a H. rewrite !eqb_byte. change (byte "/") with 47%N. change (byte ">") with 62%N. change (byte "?") with 63%N. change (byte "!") with 33%N.
  unfold name_char, letter in H. cbv zeta in H. fold (byte a) in H. rewrite !orb_true_iff, !andb_true_iff, !N.leb_le, !N.eqb_eq in H.
  rewrite !N.eqb_neq. split; [|lia]. unfold is_space.
  destruct (byte a) as [|p] eqn:E; [lia|]. do 6 (destruct p as [p|p|]; try reflexivity; try lia).
Qed.

(** ** attributes *)
Lemma read_show_attrs : forall l n rest, forallb (fun x => good_name (fst x)) l = true -> Forall xml_string (map snd l) -> (length l < n)%nat ->
  read_attrs n (show_attrs l ++ String ">" rest) = Some (l, false, rest).
Proof.
  induction l as [|[q v] l IH]; intros n rest G F N; (destruct n as [|n]; [lia|]).
  - reflexivity.
  - cbn [forallb fst] in G. apply andb_prop in G as [G1 G2]. cbn [map snd] in F. inversion F as [|? ? X F']; subst.
    cbn [show_attrs]. destruct (name_first q G1) as (a & nm & E & NC). destruct (name_not a NC) as (N1 & N2 & N3 & _).
    cbn [append]. rewrite <- !sapp_assoc. cbn [append]. cbn [read_attrs].
    change (skip_space (String " " ?z)) with (skip_space z). 
    replace (skip_space (show_name q ++ String "=" (String QUOTE ((escape v ++ String QUOTE (show_attrs l)) ++ String ">" rest))))
      with (show_name q ++ String "=" (String QUOTE ((escape v ++ String QUOTE (show_attrs l)) ++ String ">" rest))) by (rewrite E; cbn [append skip_space]; now rewrite N1).
    assert (NS := ns_name_show q "=" (String QUOTE ((escape v ++ String QUOTE (show_attrs l)) ++ String ">" rest)) G1 eq_refl).
    rewrite E in *. cbn [append] in *. rewrite N2, N3, NS.
    cbn [skip_space]. change (is_space "=") with false. cbv iota. change (Ascii.eqb "=" "=") with true. cbv iota.
    cbn [skip_space]. change (is_space QUOTE) with false. cbv iota. change (Ascii.eqb QUOTE QUOTE) with true. cbn [orb].
    rewrite <- sapp_assoc. cbn [append]. rewrite text_value by assumption. rewrite IH; [reflexivity|assumption|assumption|]. cbn in N. lia.
Qed.
Lemma slen_app : forall a b, String.length (a ++ b) = String.length a + String.length b.
Proof. induction a; intros; cbn; auto. Qed.
Lemma attrs_len : forall l, (length l <= String.length (show_attrs l))%nat.
Proof. induction l as [|[q v] l IH]; [cbn; lia|]. cbn [show_attrs String.length length]. rewrite !slen_app. cbn [String.length]. rewrite slen_app. cbn [String.length]. lia. Qed.

(** ** tokens *)
Inductive lexes : string -> list token -> string -> Prop :=
| lex_nil : forall s, lexes s [] s
| lex_step : forall s l r l2 r2, raw_token s = Some (l, r) -> (String.length r < String.length s)%nat -> lexes r l2 r2 -> lexes s (l ++ l2)%list r2.
Lemma lexes_app : forall a l b m c, lexes a l b -> lexes b m c -> lexes a (l ++ m)%list c.
Proof. intros a l b m c H. induction H; intros K; [exact K|]. rewrite <- app_assoc. econstructor; eauto. Qed.
Lemma lexes_lex : forall s l, lexes s l "" -> forall n, (String.length s < n)%nat -> lex_n n s = l.
Proof.
  intros s l H. remember "" as e eqn:Ee. induction H as [s|s l r l2 r2 E L H IH]; intros n N; subst.
  - destruct n; reflexivity.
  - destruct n as [|n]; [lia|]. destruct s as [|a s]; [cbn in L; lia|]. cbn [lex_n]. rewrite E, IH; auto. lia.
Qed.

Definition lt (s : string) : Prop := exists t, s = String "<" t.
Lemma lex_start : forall q a rest, good_name q = true -> forallb (fun x => good_name (fst x)) a = true -> Forall xml_string (map snd a) ->
  lexes ("<" ++ show_name q ++ show_attrs a ++ String ">" rest) [TStart q a] rest.
Proof.
  intros q a rest G A F. change [TStart q a] with ([TStart q a] ++ [])%list. econstructor; [| |constructor].
  2: { cbn [append String.length]. rewrite !slen_app. cbn [String.length]. lia. }
  destruct (name_first q G) as (b & nm & E & NC). destruct (name_not b NC) as (N1 & N2 & N3 & N4 & N5).
  assert (NS : exists c t, show_attrs a ++ String ">" rest = String c t /\ name_byte c = false).
  { destruct a as [|[q' v] a]; cbn [show_attrs append]; eauto. }
  destruct NS as (c & t & ET & NB).
  pose proof (ns_name_show q c t G NB) as NS. rewrite <- ET in NS.
  cbn [append raw_token]. change (Ascii.eqb "<" "<") with true. cbv iota.
  rewrite E in *. cbn [append] in *. rewrite N2, N4, N5, NS.
  rewrite read_show_attrs; auto. rewrite slen_app. eapply Nat.le_lt_trans; [apply attrs_len|]. lia.
Qed.
Lemma lex_end : forall q rest, good_name q = true -> lexes ("</" ++ show_name q ++ String ">" rest) [TEnd q] rest.
Proof.
  intros q rest G. change [TEnd q] with ([TEnd q] ++ [])%list. econstructor; [| |constructor].
  2: { cbn [append String.length]. rewrite !slen_app. cbn [String.length]. lia. }
  cbn [append raw_token]. change (Ascii.eqb "<" "<") with true. change (Ascii.eqb "/" "/") with true. cbv iota.
  rewrite (ns_name_show q ">" rest G eq_refl). reflexivity.
Qed.
Lemma escape_first : forall v s, xml_string v -> v <> "" -> exists a t, escape v ++ s = String a t /\ Ascii.eqb a "<" = false.
Proof.
  intros v s (l & F & ->) N. destruct l as [|r l]; [now destruct N|]. inversion F as [|? ? X F']; subst. cbn [map sconcat].
  rewrite escape_encode by assumption. unfold escape1.
  repeat match goal with |- context [(r =? ?k)%N] => destruct (N.eqb_spec r k) as [->|?]; [cbn [append]; eauto|] end.
  destruct (encode_cons r X) as (a & t & E).
  assert (SF : all_chars safe (encode r) = true) by (apply safe_encode; auto). rewrite E in *. cbn [all_chars append] in *.
  apply andb_prop in SF as [SF _]. exists a; eexists; split; [reflexivity|]. unfold safe in SF. apply negb_true_iff in SF.
  rewrite !orb_false_iff in SF. rewrite eqb_byte. change (byte "<") with 60%N. tauto.
Qed.
Lemma lex_text : forall v rest, xml_string v -> v <> "" -> lt rest -> lexes (escape v ++ rest) [TChar v] rest.
Proof.
  intros v rest X N (t & ->). change [TChar v] with ([TChar v] ++ [])%list. econstructor; [| |constructor].
  - pose proof (text_chars v t X) as T. destruct (escape_first v (String "<" t) X N) as (a & u & E & A). rewrite E in *.
    unfold raw_token. rewrite A, T. reflexivity.
  - destruct (escape_first v "" X N) as (a & u & E & A). rewrite sapp_nil_r in E. rewrite E, slen_app. cbn [String.length]. lia.
Qed.

(** the children, as [show], [good_shape] and [values] go through them *)
Lemma shows_fix : forall c, (fix go (l : list tree) : string := match l with [] => "" | t :: l' => show t ++ go l' end) c = shows c.
Proof. induction c; cbn; [reflexivity|]. now rewrite IHc. Qed.
Lemma shape_fix : forall c, (fix all l := match l with [] => true | t :: l' => good_shape t && all l' end) c = forallb good_shape c.
Proof. induction c; cbn; [reflexivity|]. now rewrite IHc. Qed.
Lemma values_fix : forall c, (fix all l := match l with [] => [] | t :: l' => (values t ++ all l')%list end) c = flat_map values c.
Proof. induction c; cbn; [reflexivity|]. now rewrite IHc. Qed.
Lemma show_elem : forall q a c, show (Elem q a c) = "<" ++ show_name q ++ show_attrs a ++ ">" ++ shows c ++ "</" ++ show_name q ++ ">".
Proof. intros. rewrite <- shows_fix. reflexivity. Qed.
Lemma shape_elem : forall q a c, good_shape (Elem q a c) = good_name q && forallb (fun x => good_name (fst x)) a && texts_apart c && forallb good_shape c.
Proof. intros. rewrite <- shape_fix. reflexivity. Qed.
Lemma values_elem : forall q a c, values (Elem q a c) = (map snd a ++ flat_map values c)%list.
Proof. intros. rewrite <- values_fix. reflexivity. Qed.

Definition shown (t : tree) : Prop := good_shape t = true -> Forall xml_string (values t) ->
  forall rest, (match t with Chr _ => lt rest | _ => True end) -> lexes (show t ++ rest) (toks t) rest.
Lemma shows_lt : forall c rest, forallb good_shape c = true -> lt rest -> (match c with Chr _ :: _ => False | _ => True end) -> lt (shows c ++ rest).
Proof.
  intros [|[q a d|s|] c] rest G L M; [exact L| |destruct M|discriminate G].
  unfold shows. cbn [map sconcat]. rewrite show_elem. cbn [append]. eexists; reflexivity.
Qed.
Lemma lex_forest : forall c, Forall shown c -> forallb good_shape c = true -> texts_apart c = true -> Forall xml_string (flat_map values c) ->
  forall rest, lt rest -> lexes (shows c ++ rest) (ftoks c) rest.
Proof.
  induction c as [|t c IH]; intros P G T F rest L; [constructor|].
  inversion P as [|? ? P1 P2]; subst. cbn [forallb flat_map] in *. apply andb_prop in G as [G1 G2].
  apply Forall_app in F as [F1 F2]. unfold shows. cbn [map sconcat]. fold (shows c). rewrite <- sapp_assoc.
  unfold ftoks. cbn [flat_map]. fold (ftoks c).
  assert (T2 : texts_apart c = true) by (destruct t, c as [|[] c]; cbn in T |- *; auto; discriminate).
  eapply lexes_app; [|apply IH; auto]. apply P1; auto.
  destruct t; auto. apply shows_lt; auto. destruct c as [|[] c]; auto; discriminate T.
Qed.
Lemma lex_tree : forall t, shown t.
Proof.
  induction t as [q a c P|s|] using tree_ind'; intros G F rest R.
  - rewrite shape_elem in G. rewrite values_elem in F. apply andb_prop in G as [G G4]. apply andb_prop in G as [G G3]. apply andb_prop in G as [G1 G2].
    apply Forall_app in F as [F1 F2]. rewrite show_elem. rewrite <- !sapp_assoc.
    change (TStart q a :: flat_map toks c ++ [TEnd q])%list with ([TStart q a] ++ (ftoks c ++ [TEnd q]))%list.
    change (toks (Elem q a c)) with ([TStart q a] ++ (ftoks c ++ [TEnd q]))%list.
    eapply lexes_app; [apply lex_start; auto|]. eapply lexes_app; [apply lex_forest; auto; eexists; reflexivity|]. now apply lex_end.
  - cbn [good_shape values show toks] in *. inversion F; subst. apply lex_text; auto.
    apply negb_true_iff in G. now apply String.eqb_neq in G.
  - discriminate G.
Qed.

Theorem lex_write : forall t, (exists q a c, t = Elem q a c) -> good_shape t = true -> Forall xml_string (values t) ->
  lex (write_xml t) = (TMisc :: TChar (String "010" "") :: toks t)%list.
Proof.
  intros t (q & a & c & ->) G F. unfold lex. apply lexes_lex; [|lia]. unfold write_xml.
  change (TMisc :: TChar (String "010" "") :: toks (Elem q a c))%list with ([TMisc] ++ ([TChar (String "010" "")] ++ toks (Elem q a c)))%list.
  assert (L : exists u, show (Elem q a c) = String "<" u) by (eexists; rewrite show_elem; reflexivity). destruct L as (u & E).
  pose proof (lex_tree (Elem q a c) G F "" I) as K. rewrite sapp_nil_r, E in K. rewrite E.
  econstructor; [cbn; reflexivity|cbn; lia|].
  econstructor; [cbn; reflexivity|cbn; lia|]. exact K.
Qed.
