(** The reader of XML never runs out of fuel: every token takes bytes. *)
From Coq Require Import String Ascii List Bool Arith NArith ZArith Lia.
From Verif Require Import GoStr Num Lib XmlTok Lex.
Import ListNotations.
Local Open Scope list_scope.
Local Open Scope string_scope.

Notation slen := String.length.
Lemma skip_le : forall s, slen (skip_space s) <= slen s.
Proof. induction s as [|a s IH]; [constructor|]. cbn [skip_space]. destruct (is_space a); cbn [String.length] in *; lia. Qed.
Lemma take_le : forall s n r, take_name s = (n, r) -> slen r <= slen s.
Proof.
  induction s as [|a s IH]; intros n r E; cbn [take_name] in E; [injection E as <- <-; constructor|].
  destruct (name_byte a); [|injection E as <- <-; constructor].
  destruct (take_name s) as [n' r'] eqn:E'. injection E as <- <-. specialize (IH _ _ eq_refl). cbn [String.length]. lia.
Qed.
Lemma take_lt : forall s n r, take_name s = (n, r) -> n <> "" -> slen r < slen s.
Proof.
  intros [|a s] n r E N; cbn [take_name] in E; [injection E as <- <-; now destruct N|].
  destruct (name_byte a); [|injection E as <- <-; now destruct N].
  destruct (take_name s) as [n' r'] eqn:E'. injection E as <- <-. apply take_le in E'. cbn [String.length]. lia.
Qed.
Lemma ns_lt : forall s q r, ns_name s = Some (q, r) -> slen r < slen s.
Proof.
  intros s q r. unfold ns_name. destruct (take_name s) as [n r'] eqn:E. destruct (_ && _ && _) eqn:C; [|discriminate].
  intros K. assert (r = r') as ->.
  { destruct (cut_colon n) as [[x y]|]; [destruct (_ || _)|]; now injection K. }
  apply (take_lt _ _ _ E). intros ->. discriminate C.
Qed.
Lemma text_go_le : forall s q b0 b1 ent x r, text_go q b0 b1 ent s = Some (x, r) -> slen r <= slen s.
Proof.
  induction s as [|b s IH]; intros q b0 b1 ent x r E; cbn [text_go] in E.
  - destruct q, ent; try discriminate. injection E as <- <-. constructor.
  - cbn [String.length]. destruct ent as [e|].
    + destruct (Ascii.eqb b ";").
      * destruct (entity e); [|discriminate]. destruct (text_go q zero zero None s) as [[x' r']|] eqn:E'; [|discriminate]. injection E as <- <-. apply IH in E'. lia.
      * apply IH in E. lia.
    + destruct (_ && _ && _ && _); [discriminate|]. destruct (Ascii.eqb b "<").
      { destruct q; [discriminate|]. injection E as <- <-. cbn [String.length]. lia. }
      destruct (match q with Some c => Ascii.eqb b c | None => false end); [injection E as <- <-; lia|].
      destruct (Ascii.eqb b "&"); [apply IH in E; lia|].
      destruct (text_go q b1 b None s) as [[x' r']|] eqn:E'; [|discriminate]. apply IH in E'.
      destruct (Ascii.eqb b "013"); [injection E as <- <-; lia|]. destruct (_ && _); injection E as <- <-; lia.
Qed.
Lemma text_le : forall s q x r, text q s = Some (x, r) -> slen r <= slen s.
Proof.
  intros s q x r. unfold text. destruct (text_go q zero zero None s) as [[x' r']|] eqn:E; [|discriminate]. destruct (legal x'); [|discriminate].
  intros K. injection K as <- <-. now apply text_go_le in E.
Qed.
Lemma text_lt : forall b s x r, Ascii.eqb b "<" = false -> text None (String b s) = Some (x, r) -> slen r < slen (String b s).
Proof.
  intros b s x r N. unfold text. destruct (text_go None zero zero None (String b s)) as [[x' r']|] eqn:E; [|discriminate]. destruct (legal x'); [|discriminate].
  intros K. injection K as <- <-. cbn [text_go] in E. rewrite N in E. cbn in E. cbn [String.length].
  destruct (Ascii.eqb b "&"); [apply text_go_le in E; lia|].
  destruct (text_go None zero b None s) as [[x2 r2]|] eqn:E'; [|discriminate]. apply text_go_le in E'.
  destruct (Ascii.eqb b "013"); injection E as <- <-; lia.
Qed.
Lemma drop_len : forall n s r, drop n s = Some r -> slen s = n + slen r.
Proof.
  induction n as [|n IH]; intros s r E; cbn [drop] in E; [now injection E as <-|]. destruct s as [|a s]; [discriminate|]. apply IH in E. cbn [String.length]. lia.
Qed.
Lemma cdata_go_le : forall s b1 x r, cdata_go b1 s = Some (x, r) -> slen r <= slen s.
Proof.
  induction s as [|b s IH]; intros b1 x r E; [discriminate|]. cbn [cdata_go] in E. destruct (has_prefix "]]>" (String b s)).
  - destruct (drop 3 (String b s)) as [r'|] eqn:D; [|discriminate]. injection E as <- <-. apply drop_len in D. lia.
  - destruct (cdata_go b s) as [[x' r']|] eqn:E'; [|discriminate]. apply IH in E'. cbn [String.length].
    destruct (Ascii.eqb b "013"); [injection E as <- <-; lia|]. destruct (_ && _); injection E as <- <-; lia.
Qed.
Lemma cdata_le : forall s x r, cdata s = Some (x, r) -> slen r <= slen s.
Proof.
  intros s x r. unfold cdata. destruct (cdata_go zero s) as [[x' r']|] eqn:E; [|discriminate]. destruct (legal x'); [|discriminate].
  intros K. injection K as <- <-. now apply cdata_go_le in E.
Qed.
Lemma find_le : forall p s r, find_after p s = Some r -> slen r <= slen s.
Proof.
  intros p s. induction s as [|a s IH]; intros r E; [discriminate|]. cbn [find_after] in E. destruct (has_prefix p (String a s)).
  - apply drop_len in E. lia.
  - apply IH in E. cbn [String.length]. lia.
Qed.
Lemma directive_le : forall s m d r, directive m d s = Some r -> slen r <= slen s.
Proof.
  induction s as [|b s IH]; intros m d r E; [discriminate|]. cbn [directive] in E. cbn [String.length].
  assert (G : forall m' d', directive m' d' s = Some r -> slen r <= S (slen s)). { intros m' d' K. apply IH in K. lia. }
  destruct m as [|c|n|x y].
  - destruct (Ascii.eqb b ">"). { destruct d; [injection E as <-; lia|eauto]. }
    destruct (_ || _); [eauto|]. destruct (Ascii.eqb b "<"); [destruct (has_prefix "!--" s)|]; eauto.
  - eauto.
  - destruct n; eauto.
  - destruct (_ && _); eauto.
Qed.
Lemma attrs_le : forall n s l x r, read_attrs n s = Some (l, x, r) -> slen r <= slen s.
Proof.
  induction n as [|n IH]; intros s l x r E; [discriminate|]. cbn [read_attrs] in E. pose proof (skip_le s) as K.
  destruct (skip_space s) as [|b s1]; [discriminate|]. cbn [String.length] in K.
  destruct (Ascii.eqb b "/"). { destruct s1 as [|b' s2]; [discriminate|]. destruct (Ascii.eqb b' ">"); [|discriminate]. injection E as <- <- <-. cbn [String.length] in K. lia. }
  destruct (Ascii.eqb b ">"). { injection E as <- <- <-. lia. }
  destruct (ns_name (String b s1)) as [[q r1]|] eqn:N; [|discriminate]. apply ns_lt in N. cbn [String.length] in N. pose proof (skip_le r1) as K1.
  destruct (skip_space r1) as [|e r2]; [discriminate|]. cbn [String.length] in K1. destruct (Ascii.eqb e "="); [|discriminate]. pose proof (skip_le r2) as K2.
  destruct (skip_space r2) as [|c r3]; [discriminate|]. cbn [String.length] in K2. destruct (_ || _); [|discriminate].
  destruct (text (Some c) r3) as [[v r4]|] eqn:T; [|discriminate]. apply text_le in T.
  destruct (read_attrs n r4) as [[[l' x'] r5]|] eqn:R; [|discriminate]. injection E as <- <- <-. apply IH in R. lia.
Qed.
(** the bound on the number of attributes does not matter *)
Lemma attrs_fuel : forall n m s, slen s < n -> slen s < m -> read_attrs n s = read_attrs m s.
Proof.
  induction n as [|n IH]; intros m s Hn Hm; [lia|]. destruct m as [|m]; [lia|]. cbn [read_attrs]. pose proof (skip_le s) as K.
  destruct (skip_space s) as [|b s1]; [reflexivity|]. cbn [String.length] in K.
  destruct (Ascii.eqb b "/"); [reflexivity|]. destruct (Ascii.eqb b ">"); [reflexivity|].
  destruct (ns_name (String b s1)) as [[q r1]|] eqn:N; [|reflexivity]. apply ns_lt in N. cbn [String.length] in N. pose proof (skip_le r1) as K1.
  destruct (skip_space r1) as [|e r2]; [reflexivity|]. cbn [String.length] in K1. destruct (Ascii.eqb e "="); [|reflexivity]. pose proof (skip_le r2) as K2.
  destruct (skip_space r2) as [|c r3]; [reflexivity|]. cbn [String.length] in K2. destruct (_ || _); [|reflexivity].
  destruct (text (Some c) r3) as [[v r4]|] eqn:T; [|reflexivity]. apply text_le in T. rewrite (IH m r4); [reflexivity|lia|lia].
Qed.
Lemma raw_lt : forall s l r, raw_token s = Some (l, r) -> slen r < slen s.
Proof.
  intros [|b s] l r E; [discriminate|]. cbn [raw_token] in E. destruct (Ascii.eqb b "<") eqn:B.
  2: { destruct (text None (String b s)) as [[x r']|] eqn:T; [|discriminate]. injection E as <- <-. now apply text_lt in T. }
  destruct s as [|c r1]; [discriminate|]. cbn [String.length]. destruct (Ascii.eqb c "/").
  { destruct (ns_name r1) as [[q r2]|] eqn:N; [|discriminate]. apply ns_lt in N. pose proof (skip_le r2) as K. destruct (skip_space r2) as [|d r3]; [discriminate|].
    destruct (Ascii.eqb d ">"); [|discriminate]. injection E as <- <-. cbn [String.length] in K. lia. }
  destruct (Ascii.eqb c "?").
  { destruct (take_name r1) as [n r2] eqn:N. apply take_le in N. pose proof (skip_le r2) as K. destruct (find_after "?>" (skip_space r2)) as [r4|] eqn:F; [|discriminate].
    apply find_le in F. destruct (_ && _); [|discriminate]. injection E as <- <-. lia. }
  destruct (Ascii.eqb c "!").
  { destruct (has_prefix "--" r1).
    { destruct (drop 2 r1) as [r2|] eqn:D; [|discriminate]. apply drop_len in D. destruct (find_after "--" r2) as [[|d r3]|] eqn:F; [discriminate| |discriminate].
      apply find_le in F. destruct (Ascii.eqb d ">"); [|discriminate]. injection E as <- <-. cbn [String.length] in F. lia. }
    destruct (has_prefix "[CDATA[" r1).
    { destruct (drop 7 r1) as [r2|] eqn:D; [|discriminate]. apply drop_len in D. destruct (cdata r2) as [[x r3]|] eqn:F; [|discriminate]. apply cdata_le in F. injection E as <- <-. lia. }
    destruct r1 as [|d r2]; [discriminate|]. destruct (_ || _); [discriminate|]. destruct (directive DPlain 0 r2) as [r3|] eqn:F; [|discriminate].
    apply directive_le in F. injection E as <- <-. cbn [String.length]. lia. }
  destruct (ns_name (String c r1)) as [[q r2]|] eqn:N; [|discriminate]. apply ns_lt in N. cbn [String.length] in N.
  destruct (read_attrs (S (slen r2)) r2) as [[[l' x] r3]|] eqn:A; [|discriminate]. apply attrs_le in A. destruct x; injection E as <- <-; lia.
Qed.
(** the bound on the number of tokens does not matter *)
Lemma lex_fuel : forall n m s, slen s < n -> slen s < m -> lex_n n s = lex_n m s.
Proof.
  induction n as [|n IH]; intros m s Hn Hm; [lia|]. destruct m as [|m]; [lia|]. destruct s as [|a s]; [reflexivity|]. cbn [lex_n].
  destruct (raw_token (String a s)) as [[l r]|] eqn:E; [|reflexivity]. apply raw_lt in E. f_equal. apply IH; lia.
Qed.
Lemma lex_step : forall s l r, raw_token s = Some (l, r) -> lex s = (l ++ lex r)%list.
Proof.
  intros s l r E. unfold lex at 1. destruct s as [|a s]; [discriminate|]. cbn [lex_n]. rewrite E. f_equal. apply raw_lt in E. apply lex_fuel; lia.
Qed.
Lemma lex_stop : forall a s, raw_token (String a s) = None -> lex (String a s) = [TErr].
Proof. intros a s E. unfold lex. cbn [lex_n]. now rewrite E. Qed.
