(** The names that the reader takes. *)
From Coq Require Import String Ascii List Bool Arith NArith ZArith Lia.
From Verif Require Import GoStr Num Lib XmlTok DecLemmas NameTab Lex LexFuel SpecLex LexFacts LexFacts3 CleanFacts2 SpecForm.
Import ListNotations.
Local Open Scope list_scope.
Local Open Scope string_scope.

(** ** single characters *)
Lemma listed_in : forall t r, listed t r <-> in_ranges t r = true.
Proof.
  intros t r. unfold listed, in_ranges. rewrite existsb_exists. split.
  - intros (lo & hi & I & B). exists (lo, hi). split; [exact I|]. cbn [fst snd]. rewrite andb_true_iff, !N.leb_le. exact B.
  - intros ([lo hi] & I & B). cbn [fst snd] in B. rewrite andb_true_iff, !N.leb_le in B. eauto.
Qed.
Definition bounded (t : list (N * N)) (lo hi : N) : bool := forallb (fun p => (lo <=? fst p) && (snd p <=? hi))%N%bool t.
Lemma listed_bounds : forall t lo hi r, bounded t lo hi = true -> listed t r -> (lo <= r <= hi)%N.
Proof.
  intros t lo hi r B (a & b & I & R). unfold bounded in B. rewrite forallb_forall in B. specialize (B _ I). cbn [fst snd] in B.
  rewrite andb_true_iff, !N.leb_le in B. lia.
Qed.
Lemma first_bounds : forall r, listed FIRST_RANGES r -> (128 <= r <= 55295)%N.
Proof. intros r. apply listed_bounds. vm_compute. reflexivity. Qed.
Lemma second_bounds : forall r, listed SECOND_RANGES r -> (128 <= r <= 55295)%N.
Proof. intros r. apply listed_bounds. vm_compute. reflexivity. Qed.
Lemma in_name_xml : forall r, in_name r -> xml_char r.
Proof.
  intros r [[H|H]|[H|H]]; unfold xml_char; try lia; [apply first_bounds in H|apply second_bounds in H]; lia.
Qed.
Lemma byte_pos : forall r, (r < 128)%N -> byte (ascii_of_N r) = r.
Proof. intros r B. apply byte_a. lia. Qed.
Ltac nb := rewrite ?orb_true_iff, ?andb_true_iff, ?N.leb_le, ?N.eqb_eq.
Lemma first_iff : forall r, first_rune r = true <-> starts_name r.
Proof.
  intros r. unfold first_rune, starts_name. rewrite listed_in. destruct (N.ltb_spec r 128) as [B|B].
  - assert (F : in_ranges FIRST_RANGES r = false). { apply not_true_iff_false. rewrite <- listed_in. intros H. apply first_bounds in H. lia. }
    rewrite F. unfold name_start, is_letter, between. rewrite byte_pos by assumption. nb. intuition lia.
  - split; [auto|]. intros [H|H]; [lia|exact H].
Qed.
Lemma rune_iff : forall r, name_rune r = true <-> in_name r.
Proof.
  intros r. unfold name_rune, in_name, starts_name. rewrite !listed_in. destruct (N.ltb_spec r 128) as [B|B].
  - assert (F : in_ranges FIRST_RANGES r = false). { apply not_true_iff_false. rewrite <- listed_in. intros H. apply first_bounds in H. lia. }
    assert (S : in_ranges SECOND_RANGES r = false). { apply not_true_iff_false. rewrite <- listed_in. intros H. apply second_bounds in H. lia. }
    rewrite F, S. unfold name_byte, is_letter, is_digit, between. rewrite byte_pos by assumption. nb. intuition lia.
  - rewrite orb_true_iff. split; [intuition|]. intros [[H|H]|[H|H]]; auto; lia.
Qed.
Lemma starts_in : forall r, starts_name r -> in_name r. Proof. intros r H. now left. Qed.

(** ** strings of them *)
Lemma name_skip : forall t s k, String.length t = k -> name_go k (t ++ s) = name_go 0 s.
Proof. induction t as [|a t IH]; intros s k <-; [reflexivity|]. cbn [append String.length name_go]. now apply IH. Qed.
Lemma go_name : forall l, Forall in_name l -> name_go 0 (text_of l) = true.
Proof.
  intros l F. induction F as [|r l H F IH]; [reflexivity|]. unfold text_of in *. cbn [map sconcat].
  pose proof (in_name_xml r H) as X. pose proof (rune_encode r (sconcat (map encode l)) X) as R. destruct (encode_cons r X) as (a & t & E).
  rewrite E in *. cbn [append String.length] in *. cbn [name_go]. rewrite R. apply rune_iff in H. rewrite H. cbn [andb pred]. now rewrite name_skip.
Qed.
Lemma name_go_inv : forall n s, (String.length s <= n)%nat -> name_go 0 s = true -> exists l, Forall in_name l /\ s = text_of l.
Proof.
  induction n as [|n IH]; intros s Ln E; [destruct s; [|cbn in Ln; lia]; exists []; auto|].
  destruct s as [|a s]; [exists []; auto|]. cbn [name_go] in E. destruct (rune_at (String a s)) as [[r k]|] eqn:R; [|discriminate E].
  apply andb_prop in E as [E1 E2]. destruct (rune_inv _ _ _ R) as (s' & Es & -> & _). pose proof (encode_len r).
  destruct (encode r) as [|b t] eqn:Q; [cbn in *; lia|]. cbn [append] in Es. injection Es as <- ->. cbn [String.length pred] in E2. rewrite name_skip in E2 by reflexivity.
  cbn [String.length] in Ln. rewrite slen_app in Ln. destruct (IH s' ltac:(lia) E2) as (l & F & ->).
  exists (r :: l). split; [constructor; [now apply rune_iff|exact F]|]. unfold text_of. cbn [map sconcat]. rewrite Q. reflexivity.
Qed.
Lemma valid_iff : forall n, valid_name n = true <-> is_name n.
Proof.
  intros n. unfold valid_name, is_name. split.
  - destruct (rune_at n) as [[r k]|] eqn:R; [|discriminate]. intros E. apply andb_prop in E as [E1 E2].
    destruct (name_go_inv _ _ (le_n _) E2) as (l & F & ->). destruct F as [|r' l H F]; [discriminate R|].
    unfold text_of in R. cbn [map sconcat] in R. rewrite rune_encode in R by now apply in_name_xml. injection R as <- _. exists r', l. split; [now apply first_iff|]. auto.
  - intros (r & l & S & F & ->). assert (G := go_name (r :: l) (Forall_cons _ (starts_in _ S) F)). rewrite G. unfold text_of. cbn [map sconcat].
    rewrite rune_encode by now apply in_name_xml, starts_in. apply first_iff in S. now rewrite S.
Qed.

(** ** bytes of names *)
Lemma bytes_encode : forall r, in_name r -> all_chars name_byte (encode r) = true.
Proof.
  assert (BIG : forall a, (128 <= byte a)%N -> name_byte a = true).
  { intros a B. unfold name_byte. apply orb_true_intro. right. now apply N.leb_le. }
  intros r H. assert (X := in_name_xml r H). apply rune_iff in H.
  destruct (encode_encoded r X) as [L|a b A B L|a b c A B C L|a b c d A B C D L]; cbn [all_chars].
  - unfold name_rune in H. apply N.ltb_lt in L. rewrite L in H. now rewrite H.
  - rewrite !BIG by lia. reflexivity.
  - rewrite !BIG by lia. reflexivity.
  - rewrite !BIG by lia. reflexivity.
Qed.
Lemma bytes_text : forall l, Forall in_name l -> all_chars name_byte (text_of l) = true.
Proof.
  intros l F. induction F as [|r l H F IH]; [reflexivity|]. unfold text_of in *. cbn [map sconcat]. rewrite chars_app, IH, bytes_encode by assumption. reflexivity.
Qed.
Lemma bytes_name : forall n, is_name n -> all_chars name_byte n = true.
Proof. intros n (r & l & S & F & ->). apply bytes_text. constructor; [now apply starts_in|exact F]. Qed.
Lemma name_ne : forall n, is_name n -> n <> "".
Proof.
  intros n (r & l & S & F & ->). unfold text_of. cbn [map sconcat]. destruct (encode_cons r (in_name_xml r (starts_in r S))) as (a & t & ->). discriminate.
Qed.
Lemma name_byte_iff : forall a, name_byte a = false <-> (byte a < 128)%N /\ ~ in_name (byte a).
Proof.
  intros a. rewrite <- rune_iff, not_true_iff_false. unfold name_rune. rewrite byte_back.
  destruct (N.ltb_spec (byte a) 128) as [B|B].
  - intuition.
  - split; [|lia]. intros E. unfold name_byte in E. apply orb_false_iff in E as [_ E]. apply N.leb_gt in E. lia.
Qed.
Lemma ends_iff : forall s, name_ends s <-> match s with EmptyString => True | String a _ => name_byte a = false end.
Proof.
  intros [|a s]; unfold name_ends; split; intros H; auto; [intros ? ? K; discriminate K| |].
  - apply name_byte_iff. exact (H a s eq_refl).
  - intros b t E. injection E as <- <-. now apply name_byte_iff.
Qed.
Lemma take_whole : forall n s, all_chars name_byte n = true -> name_ends s -> take_name (n ++ s) = (n, s).
Proof.
  intros n s B E. rewrite take_more by assumption. apply ends_iff in E. destruct s as [|a s]; cbn [take_name]; [|rewrite E]; cbn [fst snd]; now rewrite sapp_nil_r.
Qed.
Lemma take_inv : forall s n r, take_name s = (n, r) -> s = n ++ r /\ name_ends r.
Proof.
  induction s as [|a s IH]; intros n r E; cbn [take_name] in E.
  - injection E as <- <-. split; [reflexivity|]. now apply ends_iff.
  - destruct (name_byte a) eqn:B.
    + destruct (take_name s) as [n' r'] eqn:T. injection E as <- <-. destruct (IH _ _ eq_refl) as [-> H]. auto.
    + injection E as <- <-. split; [reflexivity|]. now apply ends_iff.
Qed.

(** ** names with a prefix *)
Lemma colon_tl : forall a s, lacks ":" (String a s) <-> Ascii.eqb a ":" = false /\ lacks ":" s.
Proof.
  intros a s. split.
  - intros K. split.
    + apply Ascii.eqb_neq. intros ->. apply (K "" s). reflexivity.
    + intros x y ->. apply (K (String a x) y). reflexivity.
  - intros [N K] [|b x] y E; cbn [append] in E; injection E as -> E; [discriminate N|]. exact (K _ _ E).
Qed.
Lemma lacks_nil : lacks ":" "". Proof. intros [|? ?] y E; discriminate E. Qed.
Lemma cut_none : forall s, cut_colon s = None <-> lacks ":" s.
Proof.
  induction s as [|a s IH]; cbn [cut_colon]; [split; [intros _; apply lacks_nil|reflexivity]|]. rewrite colon_tl, <- IH.
  destruct (Ascii.eqb a ":"); [split; [discriminate|intros [K _]; discriminate K]|]. destruct (cut_colon s) as [[x y]|]; intuition discriminate.
Qed.
Lemma cut_some : forall s x y, cut_colon s = Some (x, y) <-> s = x ++ String ":" y /\ lacks ":" x.
Proof.
  induction s as [|a s IH]; intros x y; cbn [cut_colon].
  - split; [discriminate|]. intros [E _]. destruct x; discriminate E.
  - destruct (Ascii.eqb_spec a ":") as [->|N].
    + split; [intros E; injection E as <- <-; split; [reflexivity|apply lacks_nil]|]. intros [E L]. destruct x as [|b x]; [injection E as <-; reflexivity|].
      cbn [append] in E. injection E as <- E. apply colon_tl in L as [L _]. discriminate L.
    + destruct (cut_colon s) as [[x' y']|] eqn:C.
      * specialize (proj1 (IH x' y') eq_refl) as [E L]. split.
        -- intros K. injection K as <- <-. rewrite E at 1. split; [reflexivity|]. apply colon_tl. split; [now apply Ascii.eqb_neq|exact L].
        -- intros [K K']. destruct x as [|b x]; [injection K as K _; contradiction|]. cbn [append] in K. injection K as <- K. apply colon_tl in K' as [_ K'].
           pose proof (proj2 (IH x y) (conj K K')) as Z. injection Z as -> ->. reflexivity.
      * split; [discriminate|]. intros [K K']. destruct x as [|b x]; [injection K as K _; contradiction|]. cbn [append] in K. injection K as <- K. apply colon_tl in K' as [_ K'].
        pose proof (proj2 (IH x y) (conj K K')) as Z. discriminate Z.
Qed.
Lemma count_colon : forall a s, count ":" (String a s) = (if Ascii.eqb a ":" then 1 else 0) + count ":" s.
Proof. intros a s. cbn [count]. rewrite Ascii.eqb_sym. destruct (Ascii.eqb a ":"); reflexivity. Qed.
Lemma count_zero : forall s, count ":" s = 0 <-> lacks ":" s.
Proof.
  induction s as [|a s IH]; [split; [intros _; apply lacks_nil|reflexivity]|]. rewrite count_colon, colon_tl, <- IH. destruct (Ascii.eqb a ":"); intuition (discriminate || lia).
Qed.
Lemma count_split : forall x y, count ":" (x ++ String ":" y) = S (count ":" x + count ":" y).
Proof. induction x as [|a x IH]; intros y; [reflexivity|]. cbn [append]. rewrite !count_colon, IH. lia. Qed.

Lemma ns_iff : forall s q r, ns_name s = Some (q, r) <-> is_qname q /\ s = name q ++ r /\ r <> "" /\ name_ends r.
Proof.
  intros s q r. split.
  - unfold ns_name. destruct (take_name s) as [n r'] eqn:T. destruct (take_inv _ _ _ T) as [-> NE].
    destruct (_ && _ && _) eqn:C; [|discriminate]. apply andb_prop in C as [C C3]. apply andb_prop in C as [C1 C2].
    apply valid_iff in C1. apply negb_true_iff, Nat.ltb_ge in C2. apply negb_true_iff, String.eqb_neq in C3.
    intros E. assert (R : r = r'). { destruct (cut_colon n) as [[x y]|]; [destruct (_ || _)|]; now injection E. } subst r'.
    assert (P : parts q /\ name q = n).
    { destruct (cut_colon n) as [[x y]|] eqn:U.
      - apply cut_some in U as [-> L]. rewrite count_split in C2. assert (L' : lacks ":" y) by (apply count_zero; lia).
        destruct (String.eqb_spec x "") as [->|X]; [|destruct (String.eqb_spec y "") as [->|Y]]; cbn [orb] in E; injection E as <-.
        + split; [now apply pt_first|reflexivity].
        + split; [now apply pt_last|reflexivity].
        + split; [now apply pt_prefix|]. unfold name. cbn [fst snd]. apply String.eqb_neq in X. now rewrite X.
      - apply cut_none in U. injection E as <-. split; [now apply pt_plain|reflexivity]. }
    destruct P as [P <-]. split; [split; assumption|]. auto.
  - intros ((P & N) & -> & NR & NE). unfold ns_name. rewrite take_whole by (auto; now apply bytes_name). assert (V := proj2 (valid_iff _) N). rewrite V. apply String.eqb_neq in NR. rewrite NR.
    destruct P as [n L|p n NP NN LP LN|n L|n L]; unfold name; cbn [fst snd].
    + assert (Z := proj2 (count_zero n) L). assert (U := proj2 (cut_none n) L). change (String.eqb "" "") with true. cbv iota. now rewrite Z, U.
    + apply String.eqb_neq in NP as NP'. apply String.eqb_neq in NN as NN'. rewrite NP'. change (p ++ ":" ++ n) with (p ++ String ":" n).
      assert (Z := proj2 (count_zero n) LN). assert (Y := proj2 (count_zero p) LP). assert (U : cut_colon (p ++ String ":" n) = Some (p, n)) by (apply cut_some; auto).
      rewrite count_split, Z, Y, U, NP', NN'. reflexivity.
    + assert (Z := proj2 (count_zero n) L). change (String.eqb "" "") with true. cbv iota. rewrite count_colon. change (Ascii.eqb ":" ":") with true. cbv iota. rewrite Z. reflexivity.
    + assert (Z := proj2 (count_zero n) L). change (String.eqb "" "") with true. cbv iota. change (n ++ ":") with (n ++ String ":" "").
      assert (U : cut_colon (n ++ String ":" "") = Some (n, "")) by (apply cut_some; auto). rewrite count_split, Z, U. cbn. rewrite orb_true_r. reflexivity.
Qed.
Lemma first_byte : forall q, is_qname q -> exists a s, name q = String a s /\ name_byte a = true.
Proof.
  intros q [_ N]. assert (B := bytes_name _ N). apply name_ne in N. destruct (name q) as [|a s]; [now destruct N|]. cbn [all_chars] in B. apply andb_prop in B as [B _]. eauto.
Qed.
