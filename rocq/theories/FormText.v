(** The texts and values that the reader takes. *)
From Coq Require Import String Ascii List Bool Arith NArith ZArith Lia ZifyN.
From Verif Require Import GoStr Num Lib XmlTok DecLemmas Lex LexFuel SpecLex LexFacts LexFacts3 StableFacts2 SpecForm.
Import ListNotations.
Local Open Scope list_scope.
Local Open Scope string_scope.
Ltac Zify.zify_post_hook ::= Z.div_mod_to_equations.

(** ** references *)
Lemma digit_hex : forall b c d, (b <= 16)%N -> digit b c d -> hex_digit c = Some d /\ (d < b)%N.
Proof.
  intros b c d B H. unfold hex_digit, is_digit, between. destruct H as [d H1 H2|d H1 H2 H3|d H1 H2 H3]; rewrite byte_a by lia.
  - assert ((48 <=? 48 + d)%N = true) as -> by (apply N.leb_le; lia). assert ((48 + d <=? 57)%N = true) as -> by (apply N.leb_le; lia). split; [cbn [andb]; f_equal; lia|lia].
  - assert ((87 + d <=? 57)%N = false) as -> by (apply N.leb_gt; lia). rewrite andb_false_r.
    assert ((97 <=? 87 + d)%N = true) as -> by (apply N.leb_le; lia). assert ((87 + d <=? 102)%N = true) as -> by (apply N.leb_le; lia). split; [cbn [andb]; f_equal; lia|lia].
  - assert ((55 + d <=? 57)%N = false) as -> by (apply N.leb_gt; lia). rewrite andb_false_r. assert ((97 <=? 55 + d)%N = false) as -> by (apply N.leb_gt; lia). cbn [andb].
    assert ((65 <=? 55 + d)%N = true) as -> by (apply N.leb_le; lia). assert ((55 + d <=? 70)%N = true) as -> by (apply N.leb_le; lia). split; [cbn [andb]; f_equal; lia|lia].
Qed.
Lemma hex_inv : forall b c d, hex_digit c = Some d -> (d < b)%N -> digit b c d.
Proof.
  intros b c d E B. unfold hex_digit, is_digit in E. destruct (between 48 57 c) eqn:B1; [|destruct (between 97 102 c) eqn:B2; [|destruct (between 65 70 c) eqn:B3; [|discriminate]]];
  injection E as <-; [apply between_inv in B1|apply between_inv in B2|apply between_inv in B3].
  - replace c with (ascii_of_N (48 + (byte c - 48))) at 1 by (replace (48 + (byte c - 48))%N with (byte c) by lia; apply byte_back). apply dg_num; lia.
  - replace c with (ascii_of_N (87 + (byte c - 87))) at 1 by (replace (87 + (byte c - 87))%N with (byte c) by lia; apply byte_back). apply dg_low; lia.
  - replace c with (ascii_of_N (55 + (byte c - 55))) at 1 by (replace (55 + (byte c - 55))%N with (byte c) by lia; apply byte_back). apply dg_up; lia.
Qed.
Lemma number_app : forall b s t acc, number b acc (s ++ t) = match number b acc s with Some n => number b n t | None => None end.
Proof.
  induction s as [|a s IH]; intros t acc; cbn [append number]; [reflexivity|]. destruct (hex_digit a); [|reflexivity]. destruct (n <? b)%N; auto.
Qed.
Lemma numeral_number : forall b s n, (b <= 16)%N -> numeral b s n -> number b 0 s = Some n.
Proof.
  intros b s n B H. induction H as [|s n c d H IH D]; [reflexivity|]. destruct (digit_hex b c d B D) as [D1 D2].
  rewrite number_app, IH. cbn [number]. rewrite D1. apply N.ltb_lt in D2. now rewrite D2.
Qed.
Lemma number_numeral : forall b s t acc n, numeral b t acc -> number b acc s = Some n -> numeral b (t ++ s) n.
Proof.
  intros b s. induction s as [|a s IH]; intros t acc n H E; cbn [number] in E.
  - injection E as <-. now rewrite sapp_nil_r.
  - destruct (hex_digit a) as [d|] eqn:D; [|discriminate]. destruct (N.ltb_spec d b) as [B|_]; [|discriminate].
    change (String a s) with (String a "" ++ s). rewrite sapp_assoc. apply (IH _ _ _ (nu_snoc b t acc a d H (hex_inv b a d D B)) E).
Qed.
Lemma utf8_character : forall r, utf8 r = character r.
Proof.
  intros r. unfold utf8, character, a_of. destruct ((55296 <=? r) && (r <=? 57343))%N eqn:E.
  - apply andb_prop in E as [A B]. apply N.leb_le in A, B. assert ((r <? 128)%N = false) as -> by (apply N.ltb_ge; lia). assert ((r <? 2048)%N = false) as -> by (apply N.ltb_ge; lia). reflexivity.
  - unfold encode. cbv zeta. destruct (r <? 128)%N; [reflexivity|]. destruct (r <? 2048)%N; reflexivity.
Qed.
Lemma char_ref_iff : forall b s c, (b <= 16)%N -> char_ref b s = Some c <-> exists r, s <> "" /\ numeral b s r /\ (r <= 1114111)%N /\ c = character r.
Proof.
  intros b s c B. unfold char_ref. split.
  - destruct (String.eqb_spec s "") as [|N]; [discriminate|]. destruct (number b 0 s) as [r|] eqn:E; [|discriminate]. destruct (N.leb_spec r 1114111) as [L|]; [|discriminate].
    intros K. injection K as <-. exists r. rewrite utf8_character. split; [exact N|]. split; [|auto]. exact (number_numeral b s "" 0 r (nu_nil b) E).
  - intros (r & N & H & L & ->). apply String.eqb_neq in N. rewrite N, (numeral_number b s r B H). apply N.leb_le in L. rewrite L. now rewrite utf8_character.
Qed.
Lemma numeral_no_x : forall s n, numeral 10 (String "x" s) n -> False.
Proof. intros s n H. apply numeral_number in H; [|lia]. discriminate H. Qed.
Lemma entity_iff : forall e c, entity e = Some c <-> reference e c.
Proof.
  assert (T : (10 <= 16)%N) by lia. intros e c. split.
  - intros E. destruct (Ascii.eqb (match e with String a _ => a | _ => "a" end) "#") eqn:S.
    + destruct e as [|a e]; [discriminate S|]. apply Ascii.eqb_eq in S. subst a. destruct (Ascii.eqb (match e with String a _ => a | _ => "a" end) "x") eqn:S.
      * destruct e as [|a e]; [discriminate S|]. apply Ascii.eqb_eq in S. subst a. cbn [entity] in E. apply char_ref_iff in E as (r & N & H & L & ->); [|lia]. exact (rf_hex e r N H L).
      * assert (E' : char_ref 10 e = Some c).
        { rewrite <- E. destruct e as [|a e]; [reflexivity|]. destruct a as [[] [] [] [] [] [] [] []]; try reflexivity. discriminate S. }
        apply char_ref_iff in E' as (r & N & H & L & ->); [|exact T]. exact (rf_decimal e r N H L).
    + assert (E' : (if String.eqb e "lt" then Some "<" else if String.eqb e "gt" then Some ">" else if String.eqb e "amp" then Some "&"
         else if String.eqb e "apos" then Some "'" else if String.eqb e "quot" then Some (String QUOTE "") else None) = Some c).
      { rewrite <- E. destruct e as [|a e]; [reflexivity|]. destruct a as [[] [] [] [] [] [] [] []]; try reflexivity. discriminate S. }
      destruct (String.eqb_spec e "lt") as [->|_]; [injection E' as <-; constructor|]. destruct (String.eqb_spec e "gt") as [->|_]; [injection E' as <-; constructor|].
      destruct (String.eqb_spec e "amp") as [->|_]; [injection E' as <-; constructor|]. destruct (String.eqb_spec e "apos") as [->|_]; [injection E' as <-; constructor|].
      destruct (String.eqb_spec e "quot") as [->|_]; [injection E' as <-; constructor|]. discriminate E'.
  - intros H. destruct H as [s r N H L|s r N H L| | | | |]; try reflexivity.
    + assert (E : entity ("#" ++ s) = char_ref 10 s).
      { destruct s as [|a s]; [now destruct N|]. destruct (Ascii.eqb_spec a "x") as [->|X]; [destruct (numeral_no_x _ _ H)|].
        destruct a as [[] [] [] [] [] [] [] []]; try reflexivity. now destruct X. }
      rewrite E. apply char_ref_iff; [exact T|]. eauto.
    + cbn [append entity]. apply char_ref_iff; [lia|]. eauto.
Qed.
(** the bytes of a reference *)
Definition ref_byte (a : ascii) : bool := is_letter a || is_digit a || Ascii.eqb a "#".
Lemma digit_byte : forall b c d, digit b c d -> ref_byte c = true.
Proof.
  intros b c d H. unfold ref_byte, is_letter, is_digit. rewrite !orb_true_iff.
  destruct H; [left; right|left; left; right|left; left; left]; apply between_true; rewrite byte_a by lia; lia.
Qed.
Lemma reference_bytes : forall e c, reference e c -> all_chars ref_byte e = true.
Proof.
  assert (G : forall b s n, numeral b s n -> all_chars ref_byte s = true).
  { intros b s n H. induction H as [|s n c d H IH D]; [reflexivity|]. rewrite chars_app, IH. cbn [all_chars andb]. now rewrite (digit_byte b c d D). }
  intros e c H. destruct H as [s r N H L|s r N H L| | | | |]; try reflexivity; cbn [append all_chars]; now rewrite (G _ _ _ H).
Qed.
Lemma reference_ne : forall e c, reference e c -> c <> "".
Proof.
  assert (G : forall r, (r <= 1114111)%N -> character r <> "").
  { intros r _. unfold character. destruct (_ && _); [discriminate|]. pose proof (encode_len r). destruct (encode r); [cbn in *; lia|discriminate]. }
  intros e c H. destruct H; try discriminate; now apply G.
Qed.

(** ** the bytes ]]> *)
Lemma lacks_tl : forall p a s, lacks p (String a s) -> lacks p s.
Proof. intros p a s L x y E. apply (L (String a x) y). cbn [append]. now rewrite E. Qed.
Definition close3 (a b c : ascii) : bool := Ascii.eqb a "]" && Ascii.eqb b "]" && Ascii.eqb c ">".
Lemma close_hd : forall a b c s, lacks "]]>" (String a (String b (String c s))) <-> close3 a b c = false /\ lacks "]]>" (String b (String c s)).
Proof.
  intros a b c s. unfold close3. split.
  - intros L. split; [|eapply lacks_tl; eauto]. destruct (Ascii.eqb_spec a "]") as [->|]; [|reflexivity]. destruct (Ascii.eqb_spec b "]") as [->|]; [|reflexivity].
    destruct (Ascii.eqb_spec c ">") as [->|]; [|reflexivity]. exfalso. apply (L "" s). reflexivity.
  - intros [C L] [|d x] y E; cbn [append] in E.
    + injection E as -> -> -> E. discriminate C.
    + injection E as <- E. exact (L x y E).
Qed.
Lemma close_two : forall a b, lacks "]]>" (String a (String b "")).
Proof. intros a b x y E. do 2 (destruct x as [|? x]; [discriminate E|]; injection E as _ E). destruct x; discriminate E. Qed.
Lemma close_skip : forall a b s, a <> "]"%char -> lacks "]]>" (String a (String b s)) <-> lacks "]]>" (String b s).
Proof.
  intros a b s N. split; [apply lacks_tl|]. intros L [|d x] y E; cbn [append] in E; injection E as -> E; [now destruct N|]. exact (L x y E).
Qed.
Lemma close_skip2 : forall b s, b <> "]"%char -> b <> ">"%char -> lacks "]]>" (String b s) <-> lacks "]]>" s.
Proof.
  intros b s N N'. split; [apply lacks_tl|]. intros L [|d x] y E; cbn [append] in E; injection E as -> E; [now destruct N|]. exact (L x y E).
Qed.
Definition apart (a : ascii) : bool := negb (Ascii.eqb a "]") && negb (Ascii.eqb a ">").
Lemma apart_spec : forall a, apart a = true -> a <> "]"%char /\ a <> ">"%char.
Proof. intros a H. unfold apart in H. rewrite andb_true_iff, !negb_true_iff, !Ascii.eqb_neq in H. exact H. Qed.
Lemma close_run : forall t s, all_chars apart t = true -> lacks "]]>" (t ++ s) <-> lacks "]]>" s.
Proof.
  induction t as [|a t IH]; intros s A; [reflexivity|]. cbn [all_chars append] in *. apply andb_prop in A as [A B]. apply apart_spec in A as [A1 A2].
  rewrite close_skip2 by assumption. now apply IH.
Qed.
(** before anything that does not start with ] or > two bytes do not matter *)
Lemma close_start : forall a b c s, apart c = true -> lacks "]]>" (String a (String b (String c s))) <-> lacks "]]>" (String c s).
Proof.
  intros a b c s H. apply apart_spec in H as [N N']. split; [intros L; now apply lacks_tl, lacks_tl in L|]. intros L. apply close_hd. split.
  - unfold close3. apply Ascii.eqb_neq in N'. rewrite N'. apply andb_false_r.
  - intros [|d x] y E; cbn [append] in E; injection E as -> E; [contradiction|exact (L x y E)].
Qed.
Lemma apart_ref : forall a, ref_byte a = true -> apart a = true /\ Ascii.eqb a ";" = false.
Proof.
  intros a H. assert (G : (byte a <> 93 /\ byte a <> 62 /\ byte a <> 59)%N).
  { unfold ref_byte, is_letter, is_digit in H. rewrite !orb_true_iff in H. destruct H as [[[H|H]|H]|H]; [apply between_inv in H; lia..|]. apply Ascii.eqb_eq in H. subst a. cbn. lia. }
  unfold apart. rewrite !eqb_byte. change (byte "]") with 93%N. change (byte ">") with 62%N. change (byte ";") with 59%N.
  destruct G as (G1 & G2 & G3). apply N.eqb_neq in G1, G2, G3. rewrite G1, G2, G3. auto.
Qed.
Lemma close_ref : forall a b e c s, reference e c -> lacks "]]>" (String a (String b ("&" ++ e ++ ";" ++ s))) <-> lacks "]]>" s.
Proof.
  intros a b e c s H. cbn [append]. rewrite close_start by reflexivity. assert (A : all_chars apart (String "&" e) = true).
  { cbn [all_chars]. apply andb_true_intro. split; [reflexivity|]. apply (chars_imp ref_byte); [intros x X; now apply apart_ref|]. eapply reference_bytes; eauto. }
  change (String "&" (e ++ String ";" s)) with (String "&" e ++ String ";" s). rewrite close_run by assumption. apply close_skip2; discriminate.
Qed.

(** ** texts *)
(** where the reading of a text stops, and what is left then *)
Definition stops (q : option ascii) (z r : string) : Prop :=
  match q with Some c => z = String c r | None => z = r /\ (r = "" \/ exists u, r = String "<" u) end.
Definition proper (q : option ascii) : Prop := match q with None => True | Some c => c = QUOTE \/ c = "'"%char end.
(** a line feed behind a carriage return belongs to it *)
Definition strip (b1 : ascii) (s : string) : string :=
  match s with String a t => if Ascii.eqb b1 "013" && Ascii.eqb a "010" then t else s | EmptyString => "" end.
Definition open (q : option ascii) (b0 b1 : ascii) (s : string) : Prop := q = None -> lacks "]]>" (String b0 (String b1 s)).

Lemma ent_inv : forall s q b0 b1 acc x r, text_go q b0 b1 (Some acc) s = Some (x, r) ->
  exists e s' c x', s = e ++ String ";" s' /\ reference (acc ++ e) c /\ x = c ++ x' /\ text_go q zero zero None s' = Some (x', r).
Proof.
  induction s as [|b s IH]; intros q b0 b1 acc x r E; cbn [text_go] in E; [destruct q; discriminate|].
  destruct (Ascii.eqb_spec b ";") as [->|N].
  - destruct (entity acc) as [c|] eqn:T; [|discriminate]. destruct (text_go q zero zero None s) as [[x' r']|] eqn:G; [|discriminate]. injection E as <- <-.
    exists "", s, c, x'. rewrite sapp_nil_r. apply entity_iff in T. auto.
  - apply IH in E as (e & s' & c & x' & -> & R & -> & G). exists (String b e), s', c, x'. rewrite <- sapp_assoc in R. auto.
Qed.
Lemma text_inv : forall n s q b0 b1 x r, (String.length s <= n)%nat -> text_go q b0 b1 None s = Some (x, r) ->
  exists s1 z, s = s1 ++ z /\ stops q z r /\ spells q x (strip b1 s1) /\ open q b0 b1 s1.
Proof.
  induction n as [|n IH]; intros s q b0 b1 x r Ln E; (destruct s as [|b s]; [|try (cbn in Ln; lia)]).
  - cbn in E. destruct q; [discriminate|]. injection E as <- <-. exists "", "". split; [reflexivity|]. split; [split; auto|]. split; [constructor|]. intros _. apply close_two.
  - cbn in E. destruct q; [discriminate|]. injection E as <- <-. exists "", "". split; [reflexivity|]. split; [split; auto|]. split; [constructor|]. intros _. apply close_two.
  - cbn [String.length] in Ln. cbn [text_go] in E.
    assert (CL : q = None -> close3 b0 b1 b = false).
    { intros ->. unfold close3. cbn [andb] in E. destruct (Ascii.eqb b0 "]" && Ascii.eqb b1 "]" && Ascii.eqb b ">"); [discriminate E|reflexivity]. }
    destruct (_ && _ && _ && _); [discriminate|].
    destruct (Ascii.eqb_spec b "<") as [->|N1].
    { destruct q; [discriminate|]. injection E as <- <-. exists "", (String "<" s). split; [reflexivity|]. split; [split; eauto|]. split; [constructor|]. intros _. apply close_two. }
    destruct (match q with Some c => Ascii.eqb b c | None => false end) eqn:Q.
    { injection E as <- <-. destruct q as [c|]; [|discriminate]. apply Ascii.eqb_eq in Q. subst c. exists "", (String b s). split; [reflexivity|]. split; [reflexivity|]. split; [constructor|]. intros K. discriminate K. }
    assert (NQ : q <> Some b). { intros ->. rewrite Ascii.eqb_refl in Q. discriminate Q. }
    destruct (Ascii.eqb_spec b "&") as [->|N2].
    { apply ent_inv in E as (e & s' & c & x' & -> & R & -> & G). cbn [append] in R. rewrite slen_app in Ln. cbn [String.length] in Ln.
      apply IH in G as (s1 & z & -> & ST & SP & OP); [|lia]. exists ("&" ++ e ++ ";" ++ s1), z. split; [cbn [append]; now rewrite <- sapp_assoc|]. split; [exact ST|]. split.
      - assert (EQ : strip b1 ("&" ++ e ++ ";" ++ s1) = "&" ++ e ++ ";" ++ s1). { cbn [append strip]. change (Ascii.eqb "&" "010") with false. now rewrite andb_false_r. }
        rewrite EQ. apply sp_ref; [exact R|]. replace (strip zero s1) with s1 in SP; [exact SP|]. now destruct s1.
      - intros K. apply (close_ref b0 b1 e c s1 R). specialize (OP K). now apply lacks_tl, lacks_tl in OP. }
    destruct (text_go q b1 b None s) as [[x' r']|] eqn:G; [|discriminate].
    apply IH in G as (s1 & z & -> & ST & SP & OP); [|lia].
    assert (R : r' = r). { destruct (Ascii.eqb b "013"); [|destruct (_ && _)]; now injection E. } subst r'.
    exists (String b s1), z. split; [reflexivity|]. split; [exact ST|]. split.
    + cbn [strip]. destruct (Ascii.eqb_spec b "013") as [->|N3].
      * injection E as <-. change (Ascii.eqb "013" "010") with false. rewrite andb_false_r.
        destruct s1 as [|a t]; [apply sp_cr; [discriminate|exact SP]|]. cbn [strip] in SP. change (Ascii.eqb "013" "013") with true in SP. cbn [andb] in SP.
        destruct (Ascii.eqb_spec a "010") as [->|N4]; [now apply sp_crlf|]. apply sp_cr; [|exact SP]. intros u K. injection K as K _. contradiction.
      * assert (S1 : strip b s1 = s1). { destruct s1 as [|a t]; [reflexivity|]. cbn [strip]. apply Ascii.eqb_neq in N3. now rewrite N3. }
        rewrite S1 in SP. destruct (Ascii.eqb b1 "013" && Ascii.eqb b "010") eqn:C.
        -- injection E as <-. exact SP.
        -- injection E as <-. apply sp_byte; auto. cbn [In]. intuition congruence.
    + intros K. apply close_hd. split; [now apply CL|now apply OP].
Qed.
Lemma ent_go : forall e q b0 b1 acc c s x r, all_chars ref_byte e = true -> reference (acc ++ e) c -> text_go q zero zero None s = Some (x, r) ->
  text_go q b0 b1 (Some acc) (e ++ String ";" s) = Some (c ++ x, r).
Proof.
  induction e as [|a e IH]; intros q b0 b1 acc c s x r A R G.
  - cbn [append text_go]. rewrite sapp_nil_r in R. apply entity_iff in R. change (Ascii.eqb ";" ";") with true. cbv iota. now rewrite R, G.
  - cbn [all_chars] in A. apply andb_prop in A as [A1 A2]. destruct (apart_ref a A1) as [_ N]. cbn [append text_go]. rewrite N. apply IH; auto. now rewrite <- sapp_assoc.
Qed.
Lemma text_goes : forall q v s, proper q -> spells q v s -> forall b0 b1 z r, stops q z r -> open q b0 b1 s ->
  (b1 = "013"%char -> forall t, s <> String "010" t) -> text_go q b0 b1 None (s ++ z) = Some (v, r).
Proof.
  intros q v s P H. induction H as [|a v s N NQ H IH|v s NL H IH|v s H IH|e c v s R H IH]; intros b0 b1 z r ST OP B.
  - cbn [append]. destruct q as [c|]; cbn [stops] in ST.
    + subst z. destruct P as [->| ->]; reflexivity.
    + destruct ST as [-> [->|(u & ->)]]; [reflexivity|]. cbn [text_go]. change (Ascii.eqb "<" ">") with false. rewrite !andb_false_r. reflexivity.
  - cbn [append text_go]. cbn [In] in N.
    assert (CL : (match q with None => true | Some _ => false end) && Ascii.eqb b0 "]" && Ascii.eqb b1 "]" && Ascii.eqb a ">" = false).
    { destruct q; [reflexivity|]. cbn [andb]. specialize (OP eq_refl). apply close_hd in OP as [OP _]. exact OP. }
    rewrite CL. destruct (Ascii.eqb_spec a "<") as [->|_]; [intuition|]. destruct (match q with Some c => Ascii.eqb a c | None => false end) eqn:Q.
    { destruct q as [c|]; [|discriminate Q]. apply Ascii.eqb_eq in Q. subst c. now destruct NQ. }
    destruct (Ascii.eqb_spec a "&") as [->|_]; [intuition|]. rewrite (IH b1 a z r ST).
    + destruct (Ascii.eqb_spec a "013") as [->|_]; [intuition|]. destruct (Ascii.eqb_spec b1 "013") as [->|_]; [|reflexivity].
      destruct (Ascii.eqb_spec a "010") as [->|_]; [|reflexivity]. now destruct (B eq_refl s).
    + intros K. specialize (OP K). now apply lacks_tl in OP.
    + intros ->. intuition.
  - cbn [append text_go]. change (Ascii.eqb "013" ">") with false. rewrite andb_false_r. change (Ascii.eqb "013" "<") with false. cbv iota.
    assert (Q : match q with Some c => Ascii.eqb "013" c | None => false end = false) by (destruct q as [c|]; [destruct P as [->| ->]|]; reflexivity). rewrite Q.
    change (Ascii.eqb "013" "&") with false. change (Ascii.eqb "013" "013") with true. cbv iota. rewrite (IH b1 "013"%char z r ST); [reflexivity| |auto].
    intros K. specialize (OP K). now apply lacks_tl in OP.
  - assert (Q : forall c, Ascii.eqb c QUOTE || Ascii.eqb c "'" = false -> match q with Some d => Ascii.eqb c d | None => false end = false).
    { intros c C. apply orb_false_elim in C as [C1 C2]. destruct q as [d|]; [destruct P as [->| ->]|]; auto. }
    assert (K : text_go q b1 "013"%char None (String "010" (s ++ z)) = Some (v, r)).
    { cbn [text_go]. change (Ascii.eqb "010" ">") with false. rewrite andb_false_r. change (Ascii.eqb "010" "<") with false. cbv iota. rewrite (Q "010"%char eq_refl).
      change (Ascii.eqb "010" "&") with false. change (Ascii.eqb "010" "013") with false. change (Ascii.eqb "013" "013" && Ascii.eqb "010" "010") with true. cbv iota.
      rewrite (IH "013"%char "010"%char z r ST); [reflexivity| |discriminate]. intros K. specialize (OP K). now apply lacks_tl, lacks_tl in OP. }
    change (String "013" (String "010" s) ++ z) with (String "013" (String "010" (s ++ z))). remember (String "010" (s ++ z)) as u eqn:Eu.
    cbn [text_go]. change (Ascii.eqb "013" ">") with false. rewrite andb_false_r. change (Ascii.eqb "013" "<") with false. cbv iota. rewrite (Q "013"%char eq_refl).
    change (Ascii.eqb "013" "&") with false. change (Ascii.eqb "013" "013") with true. cbv iota. now rewrite K.
  - replace (("&" ++ e ++ ";" ++ s) ++ z) with (String "&" (e ++ String ";" (s ++ z))) by (cbn [append]; rewrite <- sapp_assoc; reflexivity).
    assert (Q : match q with Some d => Ascii.eqb "&" d | None => false end = false) by (destruct q as [d|]; [destruct P as [->| ->]|]; reflexivity).
    assert (G : text_go q b0 b1 (Some "") (e ++ String ";" (s ++ z)) = Some (c ++ v, r)).
    { apply ent_go; [eapply reference_bytes; eauto|exact R|]. apply IH; [exact ST| |discriminate]. intros K. specialize (OP K). apply (close_ref b0 b1 e c s R) in OP.
      apply close_skip; [discriminate|]. now apply close_skip2. }
    remember (e ++ String ";" (s ++ z)) as u eqn:Eu. cbn [text_go]. change (Ascii.eqb "&" ">") with false. rewrite andb_false_r. change (Ascii.eqb "&" "<") with false. cbv iota.
    rewrite Q. change (Ascii.eqb "&" "&") with true. cbv iota. exact G.
Qed.
Lemma open_zero : forall q s, (q = None -> lacks "]]>" s) -> open q zero zero s.
Proof.
  intros q s H K. specialize (H K). intros [|a [|b x]] y E; cbn [append] in E; try discriminate E. injection E as _ _ E. exact (H x y E).
Qed.
Lemma text_iff : forall q s v r, proper q -> text q s = Some (v, r) <->
  exists s1 z, s = s1 ++ z /\ stops q z r /\ spells q v s1 /\ xml_string v /\ (q = None -> lacks "]]>" s1).
Proof.
  intros q s v r P. split.
  - intros E. assert (X := text_xml _ _ _ _ E). unfold text in E. destruct (text_go q zero zero None s) as [[x r']|] eqn:G; [|discriminate]. destruct (legal x); [|discriminate].
    injection E as <- <-. apply (text_inv _ _ _ _ _ _ _ (le_n _)) in G as (s1 & z & -> & ST & SP & OP). exists s1, z. split; [reflexivity|]. split; [exact ST|].
    split; [now destruct s1|]. split; [exact X|]. intros K. specialize (OP K). now apply lacks_tl, lacks_tl in OP.
  - intros (s1 & z & -> & ST & SP & X & OP). unfold text. rewrite (text_goes q v s1 P SP zero zero z r ST (open_zero q s1 OP)) by discriminate. now rewrite (xml_legal v X).
Qed.

(** ** CDATA sections *)
Lemma prefix_inv : forall p s, has_prefix p s = true -> exists t, s = p ++ t.
Proof.
  induction p as [|a p IH]; intros s H; [exists s; reflexivity|]. destruct s as [|b s]; [discriminate H|]. cbn in H.
  apply andb_prop in H as [A B]. apply Ascii.eqb_eq in A. subst b. destruct (IH s B) as (t & ->). exists t. reflexivity.
Qed.
Lemma has_prefix_app : forall p t, has_prefix p (p ++ t) = true.
Proof. induction p as [|a p IH]; intros t; [now destruct t|]. cbn. now rewrite Ascii.eqb_refl, IH. Qed.
Lemma cdata_inv : forall s b1 x r, cdata_go b1 s = Some (x, r) -> exists s1, s = s1 ++ "]]>" ++ r /\ lines x (strip b1 s1) /\ lacks "]]>" s1.
Proof.
  induction s as [|b s IH]; intros b1 x r E; [discriminate|]. cbn [cdata_go] in E. destruct (has_prefix "]]>" (String b s)) eqn:PF.
  - apply prefix_inv in PF as (t & PF). rewrite PF in E. injection E as <- <-. exists "". split; [exact PF|]. split; [constructor|]. intros [|? ?] y K; discriminate K.
  - destruct (cdata_go b s) as [[x' r']|] eqn:G; [|discriminate]. apply IH in G as (s1 & -> & SP & L).
    assert (R : r' = r). { destruct (Ascii.eqb b "013"); [|destruct (_ && _)]; now injection E. } subst r'.
    exists (String b s1). split; [reflexivity|]. split.
    + cbn [strip]. destruct (Ascii.eqb_spec b "013") as [->|N3].
      * injection E as <-. change (Ascii.eqb "013" "010") with false. rewrite andb_false_r.
        destruct s1 as [|a t]; [apply ln_cr; [discriminate|exact SP]|]. cbn [strip] in SP. change (Ascii.eqb "013" "013") with true in SP. cbn [andb] in SP.
        destruct (Ascii.eqb_spec a "010") as [->|N4]; [now apply ln_crlf|]. apply ln_cr; [|exact SP]. intros u K. injection K as K _. contradiction.
      * assert (S1 : strip b s1 = s1). { destruct s1 as [|a t]; [reflexivity|]. cbn [strip]. apply Ascii.eqb_neq in N3. now rewrite N3. }
        rewrite S1 in SP. destruct (Ascii.eqb b1 "013" && Ascii.eqb b "010"); injection E as <-; [exact SP|now apply ln_byte].
    + intros [|d y] z K.
      * cbn [append] in K. assert (Q : String b (s1 ++ "]]>" ++ r) = "]]>" ++ (z ++ "]]>" ++ r)) by (change (String b (s1 ++ "]]>" ++ r)) with (String b s1 ++ "]]>" ++ r); rewrite K; reflexivity).
        rewrite Q, has_prefix_app in PF. discriminate PF.
      * cbn [append] in K. injection K as _ K. exact (L y z K).
Qed.
Lemma cdata_stop : forall a s rest, lacks "]]>" (String a s) -> has_prefix "]]>" (String a (s ++ "]]>" ++ rest)) = false.
Proof.
  intros a s rest L. destruct (has_prefix "]]>" (String a (s ++ "]]>" ++ rest))) eqn:E; [|reflexivity]. exfalso.
  apply prefix_inv in E as (t & E). destruct s as [|b [|c s]]; cbn [append] in E; try discriminate E.
  injection E as -> -> -> E. apply (L "" s). reflexivity.
Qed.
Lemma cdata_goes : forall v s, lines v s -> forall b1 rest, lacks "]]>" s -> (b1 = "013"%char -> forall t, s <> String "010" t) -> cdata_go b1 (s ++ "]]>" ++ rest) = Some (v, rest).
Proof.
  intros v s H. induction H as [|a v s N H IH|v s NL H IH|v s H IH]; intros b1 rest L B; [reflexivity| | |].
  - pose proof (cdata_stop a s rest L) as P. change (String a s ++ "]]>" ++ rest) with (String a (s ++ "]]>" ++ rest)). cbn [cdata_go]. rewrite P.
    rewrite (IH a rest); [|eapply lacks_tl; eauto|contradiction]. apply Ascii.eqb_neq in N. rewrite N. destruct (Ascii.eqb_spec b1 "013") as [->|_]; [|reflexivity].
    destruct (Ascii.eqb_spec a "010") as [->|_]; [|reflexivity]. now destruct (B eq_refl s).
  - pose proof (cdata_stop "013" s rest L) as P. change (String "013" s ++ "]]>" ++ rest) with (String "013" (s ++ "]]>" ++ rest)). cbn [cdata_go]. rewrite P.
    rewrite (IH "013"%char rest); [reflexivity|eapply lacks_tl; eauto|auto].
  - pose proof (cdata_stop "013" (String "010" s) rest L) as P. apply lacks_tl in L. pose proof (cdata_stop "010" s rest L) as P'.
    change (String "013" (String "010" s) ++ "]]>" ++ rest) with (String "013" (String "010" s ++ "]]>" ++ rest)). cbn [cdata_go]. rewrite P.
    change (String "010" s ++ "]]>" ++ rest) with (String "010" (s ++ "]]>" ++ rest)). cbn [cdata_go]. rewrite P'.
    rewrite (IH "010"%char rest); [reflexivity|eapply lacks_tl; eauto|discriminate].
Qed.
Lemma cdata_iff : forall s v r, cdata s = Some (v, r) <-> exists s1, s = s1 ++ "]]>" ++ r /\ lines v s1 /\ xml_string v /\ lacks "]]>" s1.
Proof.
  intros s v r. split.
  - intros E. assert (X := cdata_xml _ _ _ E). unfold cdata in E. destruct (cdata_go zero s) as [[x r']|] eqn:G; [|discriminate]. destruct (legal x); [|discriminate]. injection E as <- <-.
    apply cdata_inv in G as (s1 & -> & LN & L). exists s1. split; [reflexivity|]. split; [now destruct s1|]. auto.
  - intros (s1 & -> & LN & X & L). unfold cdata. rewrite (cdata_goes v s1 LN zero r L) by discriminate. now rewrite (xml_legal v X).
Qed.
