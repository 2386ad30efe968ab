(** The markup that the reader takes. *)
From Coq Require Import String Ascii List Bool Arith NArith ZArith Lia.
From Verif Require Import GoStr Num Lib XmlTok DecLemmas Lex LexFuel SpecLex LexFacts LexFacts3 SpecForm FormNames FormText.
Import ListNotations.
Local Open Scope list_scope.
Local Open Scope string_scope.

(** ** the first occurrence of a string *)
Lemma find_first : forall p s pre rest, p <> "" -> s = pre ++ p ++ rest -> (forall x y, s = x ++ p ++ y -> String.length pre <= String.length x) -> find_after p s = Some rest /\ before p s = pre.
Proof.
  intros p s. induction s as [|a s IH]; intros pre rest N E F.
  - destruct pre; [|discriminate]. destruct p; [now destruct N|discriminate].
  - cbn [find_after before]. destruct (has_prefix p (String a s)) eqn:P.
    + apply prefix_inv in P as (t & P). specialize (F "" t). cbn [append] in F. destruct pre as [|b pre]; [|cbn in F; specialize (F P); lia].
      cbn [append] in E. rewrite E. split; [now apply drop_app|reflexivity].
    + destruct pre as [|b pre]. { cbn [append] in E. rewrite E, has_prefix_app in P. discriminate. }
      cbn [append] in E. injection E as <- E. destruct (IH pre rest N E) as [I1 I2].
      * intros x y K. specialize (F (String a x) y). cbn [append String.length] in F. rewrite K in F. specialize (F eq_refl). lia.
      * split; [exact I1|now rewrite I2].
Qed.
Lemma find_some : forall p s r, find_after p s = Some r -> exists pre, s = pre ++ p ++ r /\ before p s = pre /\ forall x y, s = x ++ p ++ y -> String.length pre <= String.length x.
Proof.
  intros p s. induction s as [|a s IH]; intros r E; [discriminate|]. cbn [find_after before] in *. destruct (has_prefix p (String a s)) eqn:P.
  - apply prefix_inv in P as (t & P). rewrite P in E. rewrite drop_app in E by reflexivity. injection E as <-. exists "". split; [exact P|]. split; [reflexivity|]. cbn. lia.
  - destruct (IH _ E) as (pre & E1 & E2 & F). exists (String a pre). split; [now rewrite E1 at 1|]. split; [now rewrite E2|].
    intros [|b x] y K. { cbn [append] in K. rewrite K, has_prefix_app in P. discriminate. }
    cbn [append] in K. injection K as <- K. apply F in K. cbn [String.length]. lia.
Qed.
Lemma find_none : forall p s, p <> "" -> find_after p s = None -> lacks p s.
Proof.
  intros p s N. induction s as [|a s IH]; intros E x y K.
  - destruct x; [|discriminate]. destruct p; [now destruct N|discriminate].
  - cbn [find_after] in E. destruct (has_prefix p (String a s)) eqn:P.
    + apply prefix_inv in P as (t & P). rewrite P, drop_app in E by reflexivity. discriminate.
    + destruct x as [|b x]; [cbn [append] in K; rewrite K, has_prefix_app in P; discriminate|]. cbn [append] in K. injection K as _ K. exact (IH E _ _ K).
Qed.
Lemma app_cut : forall a b c d : string, a ++ b = c ++ d -> String.length c <= String.length a -> exists e, a = c ++ e /\ d = e ++ b.
Proof.
  induction a as [|x a IH]; intros b [|y c] d E L; cbn [append String.length] in *; try lia.
  - exists "". auto.
  - exists (String x a). auto.
  - injection E as <- E. destruct (IH b c d E ltac:(lia)) as (e & -> & ->). exists e. auto.
Qed.
(** [p] with the last byte [a] occurs first behind [pre] *)
Lemma find_lacks : forall p a pre rest, find_after (p ++ String a "") (pre ++ (p ++ String a "") ++ rest) = Some rest /\ before (p ++ String a "") (pre ++ (p ++ String a "") ++ rest) = pre <->
  lacks (p ++ String a "") (pre ++ p).
Proof.
  intros p a pre rest. split.
  - intros [E B] x y K. apply find_some in E as (pre' & E & B' & F). rewrite B in B'. subst pre'.
    specialize (F x (y ++ String a "" ++ rest)). assert (Q : pre ++ (p ++ String a "") ++ rest = x ++ (p ++ String a "") ++ y ++ String a "" ++ rest).
    { rewrite <- (sapp_assoc p). rewrite sapp_assoc. rewrite K. rewrite <- !sapp_assoc. reflexivity. }
    apply F in Q. apply (f_equal String.length) in K. rewrite !slen_app in K. cbn [String.length] in K. lia.
  - intros L. apply find_first; [destruct p; discriminate|reflexivity|]. intros x y E.
    destruct (le_lt_dec (String.length pre) (String.length x)) as [H|H]; [exact H|]. exfalso.
    rewrite <- (sapp_assoc p), sapp_assoc in E. rewrite (sapp_assoc x) in E.
    destruct (app_cut _ _ _ _ E) as (e & K & _). { rewrite !slen_app. cbn [String.length]. lia. }
    rewrite <- sapp_assoc in K. exact (L x e K).
Qed.
Lemma lacks_q : forall d, lacks "?>" (d ++ "?") <-> lacks "?>" d.
Proof.
  intros d. split.
  - intros L x y ->. apply (L x (y ++ "?")). rewrite <- !sapp_assoc. reflexivity.
  - intros L x y E. destruct (le_lt_dec (String.length x + 2) (String.length d)) as [H|H].
    + rewrite sapp_assoc in E. destruct (app_cut _ _ _ _ E) as (e & -> & _); [rewrite slen_app; cbn [String.length]; lia|]. apply (L x e). now rewrite <- sapp_assoc.
    + assert (Y : y = ""). { apply (f_equal String.length) in E. rewrite !slen_app in E. cbn [String.length] in E. destruct y; [reflexivity|cbn [String.length] in E; lia]. }
      subst y. replace (x ++ "?>" ++ "") with ((x ++ "?") ++ ">") in E by (rewrite <- sapp_assoc; reflexivity).
      assert (G : forall a b c e, a ++ String c "" = b ++ String e "" -> c = e).
      { clear. induction a as [|p a IH]; intros [|q b] c e E; cbn [append] in E.
        - now injection E.
        - injection E as _ E. destruct b; discriminate E.
        - injection E as _ E. destruct a; discriminate E.
        - injection E as _ E. now apply IH in E. }
      apply G in E. discriminate E.
Qed.

(** ** white space *)
Lemma space_white : forall a, is_space a = true <-> white (String a "").
Proof.
  intros a. unfold white. cbn [all_chars]. rewrite andb_true_r. unfold is_space, byte. split.
  - intros S. destruct (N_of_ascii a) as [|p]; [discriminate|]. repeat (destruct p as [p|p|]; try discriminate S; try reflexivity).
  - rewrite !orb_true_iff, !N.eqb_eq. intros [[[->| ->]| ->]| ->]; reflexivity.
Qed.
Lemma white_cons : forall a w, white (String a w) <-> is_space a = true /\ white w.
Proof. intros a w. rewrite space_white. unfold white. cbn [all_chars]. rewrite andb_true_r. apply andb_true_iff. Qed.
Definition blackens (s : string) : Prop := match s with String a _ => is_space a = false | EmptyString => True end.
Lemma skip_inv : forall s, exists w, white w /\ s = w ++ skip_space s /\ blackens (skip_space s).
Proof.
  induction s as [|a s (w & W & E & B)]; [exists ""; repeat split|]. cbn [skip_space]. destruct (is_space a) eqn:S.
  - exists (String a w). split; [now apply white_cons|]. split; [now rewrite E at 1|exact B].
  - exists "". repeat split. exact S.
Qed.
Lemma skip_white : forall w s, white w -> blackens s -> skip_space (w ++ s) = s.
Proof.
  induction w as [|a w IH]; intros s W B; [destruct s as [|b s]; [reflexivity|]; cbn [append skip_space]; cbn in B; now rewrite B|].
  apply white_cons in W as [S W]. cbn [append skip_space]. rewrite S. now apply IH.
Qed.
Lemma space_no_name : forall a, is_space a = true -> name_byte a = false.
Proof.
  intros a H. unfold is_space in H. unfold name_byte, is_letter, is_digit, between.
  destruct (byte a) as [|p]; [discriminate H|]. do 6 (destruct p as [p|p|]; try discriminate H; try reflexivity).
Qed.
Lemma white_ends : forall w s, white w -> name_ends s -> name_ends (w ++ s).
Proof.
  intros [|a w] s W E; [exact E|]. apply white_cons in W as [S _]. apply ends_iff. cbn [append]. now apply space_no_name.
Qed.
Lemma ends_app : forall s t, name_ends (s ++ t) -> name_ends s.
Proof. intros [|a s] t H; apply ends_iff; [exact I|]. now apply ends_iff in H. Qed.
Lemma ends_with : forall s t, name_ends s -> name_ends t -> name_ends (s ++ t).
Proof. intros [|a s] t H K; [exact K|]. apply ends_iff. apply ends_iff in H. exact H. Qed.
Lemma name_not : forall a, name_byte a = true -> is_space a = false /\ Ascii.eqb a "/" = false /\ Ascii.eqb a ">" = false /\ Ascii.eqb a "?" = false /\ Ascii.eqb a "!" = false.
Proof.
  intros a H. split; [destruct (is_space a) eqn:S; [apply space_no_name in S; congruence|reflexivity]|].
  repeat split; apply Ascii.eqb_neq; intros ->; discriminate H.
Qed.

(** ** attributes *)
Definition closes (x : bool) (b : string) : Prop := b = ">" /\ x = false \/ b = "/>" /\ x = true.
Lemma attrs_read : forall a sa, attrs_spelling a sa -> forall w b x rest n,
  closes x b -> white w -> (length a < n)%nat -> read_attrs n (sa ++ w ++ b ++ rest) = Some (a, x, rest).
Proof.
  intros a sa H. induction H as [|q v a w0 w1 w2 c s s' G W0 W1 W2 C V X H IH]; intros w b x rest n B W L; (destruct n as [|n]; [lia|]).
  - cbn [append read_attrs]. rewrite skip_white by (auto; destruct B as [[-> _]|[-> _]]; reflexivity). destruct B as [[-> ->]|[-> ->]]; reflexivity.
  - destruct (first_byte q G) as (a0 & nm & E & NC). destruct (name_not a0 NC) as (N1 & N2 & N3 & _).
    set (tail := w ++ b ++ rest) in *.
    replace ((w0 ++ name q ++ w1 ++ "=" ++ w2 ++ String c (s ++ String c s')) ++ tail)
      with (w0 ++ name q ++ w1 ++ String "=" (w2 ++ String c (s ++ String c (s' ++ tail))))
      by (repeat first [rewrite <- sapp_assoc | progress cbn [append]]; reflexivity).
    set (r1 := w1 ++ String "=" (w2 ++ String c (s ++ String c (s' ++ tail)))).
    cbn [read_attrs]. rewrite (skip_white w0) by (auto; rewrite E; exact N1).
    assert (NS : ns_name (name q ++ r1) = Some (q, r1)).
    { apply ns_iff. split; [exact G|]. split; [reflexivity|]. split; [unfold r1; destruct w1; discriminate|]. apply white_ends; [exact W1|]. now apply ends_iff. }
    assert (SP : exists t, name q ++ r1 = String a0 t) by (rewrite E; eexists; reflexivity). destruct SP as (t & SP). rewrite SP in *. rewrite N2, N3, NS.
    unfold r1. rewrite skip_white by (auto; reflexivity). change (Ascii.eqb "=" "=") with true. cbv iota.
    rewrite skip_white by (auto; destruct C as [->| ->]; reflexivity).
    assert (QC : Ascii.eqb c QUOTE || Ascii.eqb c "'" = true) by (destruct C as [->| ->]; reflexivity). rewrite QC.
    assert (TX : text (Some c) (s ++ String c (s' ++ tail)) = Some (v, s' ++ tail)).
    { apply text_iff; [destruct C as [->| ->]; [now left|now right]|]. exists s, (String c (s' ++ tail)). split; [reflexivity|]. split; [reflexivity|]. split; [exact V|]. split; [exact X|discriminate]. }
    rewrite TX. unfold tail. rewrite (IH w b x rest n B W); [reflexivity|]. cbn [length] in L. lia.
Qed.
Lemma attrs_length : forall a sa, attrs_spelling a sa -> (length a <= String.length sa)%nat.
Proof.
  intros a sa H. induction H; [cbn; lia|]. repeat (rewrite ?slen_app; cbn [String.length append length]). lia.
Qed.
Lemma attrs_inv : forall n s a x r, read_attrs n s = Some (a, x, r) -> exists sa w b, s = sa ++ w ++ b ++ r /\ attrs_spelling a sa /\ white w /\ closes x b.
Proof.
  induction n as [|n IH]; intros s a x r E; [discriminate|]. cbn [read_attrs] in E. destruct (skip_inv s) as (w0 & W0 & Es & B0). rewrite Es.
  destruct (skip_space s) as [|b r0]; [discriminate|].
  destruct (Ascii.eqb_spec b "/") as [->|N1].
  { destruct r0 as [|b' r']; [discriminate|]. destruct (Ascii.eqb_spec b' ">") as [->|]; [|discriminate]. injection E as <- <- <-. exists "", w0, "/>". repeat split; auto; [constructor|now right]. }
  destruct (Ascii.eqb_spec b ">") as [->|N2].
  { injection E as <- <- <-. exists "", w0, ">". repeat split; auto; [constructor|now left]. }
  destruct (ns_name (String b r0)) as [[q r1]|] eqn:NS; [|discriminate]. apply ns_iff in NS as (Q & -> & _ & _).
  destruct (skip_inv r1) as (w1 & W1 & E1 & _). destruct (skip_space r1) as [|e r2]; [discriminate|]. destruct (Ascii.eqb_spec e "=") as [->|]; [|discriminate].
  destruct (skip_inv r2) as (w2 & W2 & E2 & _). destruct (skip_space r2) as [|c r3]; [discriminate|]. destruct (_ || _) eqn:C; [|discriminate].
  assert (C' : c = QUOTE \/ c = "'"%char) by (apply orb_prop in C as [C|C]; apply Ascii.eqb_eq in C; auto).
  destruct (text (Some c) r3) as [[v r4]|] eqn:T; [|discriminate]. apply text_iff in T as (s1 & z & -> & ST & SP & X & _); [|exact C']. cbn [stops] in ST. subst z.
  destruct (read_attrs n r4) as [[[l x'] r5]|] eqn:R; [|discriminate]. injection E as <- <- <-. apply IH in R as (sa & w & b' & -> & A & W & CL).
  exists (w0 ++ name q ++ w1 ++ "=" ++ w2 ++ String c (s1 ++ String c sa)), w, b'. split; [|split; [|auto]].
  - rewrite E1, E2. repeat first [rewrite <- sapp_assoc | progress cbn [append]]. reflexivity.
  - now apply as_cons.
Qed.

(** ** declarations *)
Lemma lacks_cons : forall c a v, lacks (String c "") (String a v) <-> a <> c /\ lacks (String c "") v.
Proof.
  intros c a v. split.
  - intros K. split; [intros ->; apply (K "" v); reflexivity|]. intros x y ->. apply (K (String a x) y). reflexivity.
  - intros [N K] [|b x] y E; cbn [append] in E; injection E as -> E; [now apply N|]. exact (K _ _ E).
Qed.
Lemma lacks_empty : forall a p, lacks (String a p) "".
Proof. intros a p [|? ?] y E; discriminate E. Qed.
Lemma quote_split : forall c v rest, lacks (String c "") v -> find_after (String c "") (v ++ String c rest) = Some rest /\ before (String c "") (v ++ String c rest) = v.
Proof. intros c v rest K. apply (find_lacks "" c v rest). now rewrite sapp_nil_r. Qed.
Lemma quote_find : forall c v r, find_after (String c "") v = Some r -> v = before (String c "") v ++ String c r /\ lacks (String c "") (before (String c "") v).
Proof.
  intros c v r E. destruct (find_some _ _ _ E) as (pre & K & B & F). split; [rewrite B; exact K|]. rewrite <- (sapp_nil_r (before _ _)). apply (find_lacks "" c _ r). cbn [append].
  rewrite B. cbn [append] in K. rewrite <- K. auto.
Qed.
Lemma param_ne : forall p, p ++ "=" <> "".
Proof. intros [|a p]; discriminate. Qed.
Lemma says_inst : forall p d v, says p d v -> proc_inst p d = v.
Proof.
  intros p d v (pre & c & rest & C & E & K & F). unfold proc_inst.
  destruct (find_first (p ++ "=") d pre (String c (v ++ String c rest)) (param_ne p)) as [-> _].
  - rewrite <- sapp_assoc. exact E.
  - intros x y. rewrite <- sapp_assoc. apply F.
  - destruct (quote_split c v rest K) as [-> ->]. destruct C as [-> | ->]; reflexivity.
Qed.
Lemma inst_says : forall p d, proc_inst p d <> "" -> says p d (proc_inst p d).
Proof.
  intros p d. unfold proc_inst. destruct (find_after (p ++ "=") d) as [[|c v]|] eqn:E; try (intros K; now destruct K).
  destruct (_ || _) eqn:C; [|intros K; now destruct K]. destruct (find_after (String c "") v) as [r|] eqn:Q; [|intros K; now destruct K]. intros _.
  apply find_some in E as (pre & E & _ & F). apply quote_find in Q as [Q K]. exists pre, c, r. split; [|split; [|split; [exact K|]]].
  - apply orb_prop in C as [C|C]; apply Ascii.eqb_eq in C; auto.
  - rewrite <- Q. rewrite <- sapp_assoc in E. exact E.
  - intros x y. specialize (F x y). rewrite <- sapp_assoc in F. exact F.
Qed.
Lemma lower_utf8 : forall e, String.eqb (lower e) "utf-8" = true <-> is_utf8 e.
Proof.
  intros e. rewrite String.eqb_eq. split.
  - intros E. destruct e as [|a e]; [discriminate|]. destruct e as [|b e]; [discriminate|]. destruct e as [|c e]; [discriminate|].
    destruct e as [|h e]; [discriminate|]. destruct e as [|k e]; [discriminate|]. destruct e as [|z e]; [|discriminate].
    cbn [lower] in E. injection E as Ea Eb Ec Eh Ek.
    assert (G : forall x y : ascii, (if between 65 90 x then ascii_of_N (byte x + 32) else x) = y -> x = y \/ (between 65 90 x = true /\ x = ascii_of_N (byte y - 32))).
    { intros x y. destruct (between 65 90 x) eqn:B; [|auto]. intros <-. right. split; [reflexivity|]. unfold byte. unfold between in B. apply andb_prop in B as [B1 B2].
      apply N.leb_le in B1, B2. unfold byte in *. rewrite N_ascii_embedding by lia. replace (N_of_ascii x + 32 - 32)%N with (N_of_ascii x) by lia. now rewrite ascii_N_embedding. }
    apply G in Ea, Eb, Ec, Eh, Ek.
    destruct Eh as [->|[Eh Eh']]; [|subst h; discriminate]. destruct Ek as [->|[Ek Ek']]; [|subst k; discriminate].
    exists a, b, c. split; [reflexivity|].
    destruct Ea as [Ea|[_ Ea]], Eb as [Eb|[_ Eb]], Ec as [Ec|[_ Ec]]; subst; auto.
  - intros (a & b & c & -> & A & B & C). destruct A as [-> | ->], B as [-> | ->], C as [-> | ->]; reflexivity.
Qed.
Lemma xml_iff : forall d, pi_ok "xml" d = true <-> acceptable d.
Proof.
  intros d. unfold pi_ok, acceptable. cbn [String.eqb Ascii.eqb Bool.eqb negb orb]. change (negb (String.eqb "xml" "xml") || ?x) with x.
  rewrite andb_true_iff, !orb_true_iff, lower_utf8, !String.eqb_eq. split.
  - intros [V E]. split; intros v S; apply says_inst in S; subst v; assumption.
  - intros [V E]. split.
    + destruct (string_dec (proc_inst "version" d) "") as [->|N]; [now left|]. exact (V _ (inst_says _ _ N)).
    + destruct (string_dec (proc_inst "encoding" d) "") as [->|N]; [now left|]. exact (E _ (inst_says _ _ N)).
Qed.
Lemma pi_iff : forall n d, pi_ok n d = true <-> (n = "xml" -> acceptable d).
Proof.
  intros n d. destruct (string_dec n "xml") as [->|N]; [rewrite xml_iff; intuition|]. unfold pi_ok. apply String.eqb_neq in N as N'. rewrite N'. intuition.
Qed.
Lemma blackens_iff : forall d, blackens d <-> forall a t, d = String a t -> ~ white (String a "").
Proof.
  intros [|b d]; split; cbn [blackens]; auto; [intros _ a t E; discriminate E| |].
  - intros B a t E W. injection E as <- <-. apply space_white in W. congruence.
  - intros H. destruct (is_space b) eqn:S; [|reflexivity]. apply space_white in S. now destruct (H b d eq_refl).
Qed.

(** ** document type declarations *)
Lemma dash3 : forall x y b s, lacks "-->" (String x (String y (String b s))) <-> Ascii.eqb x "-" && Ascii.eqb y "-" && Ascii.eqb b ">" = false /\ lacks "-->" (String y (String b s)).
Proof.
  intros x y b s. split.
  - intros L. split; [|eapply lacks_tl; eauto]. destruct (Ascii.eqb_spec x "-") as [->|]; [|reflexivity]. destruct (Ascii.eqb_spec y "-") as [->|]; [|reflexivity].
    destruct (Ascii.eqb_spec b ">") as [->|]; [|reflexivity]. exfalso. apply (L "" s). reflexivity.
  - intros [C L] [|d u] v E; cbn [append] in E.
    + injection E as -> -> -> E. discriminate C.
    + injection E as <- E. exact (L u v E).
Qed.
Lemma comment_inv : forall s x y d r, directive (DComment x y) d s = Some r ->
  exists v s' u, s = v ++ ">" ++ s' /\ directive DPlain d s' = Some r /\ String x (String y v) = u ++ "--" /\ lacks "-->" (String x (String y v)).
Proof.
  induction s as [|b s IH]; intros x y d r E; cbn [directive] in E; [discriminate|]. destruct (Ascii.eqb x "-" && Ascii.eqb y "-" && Ascii.eqb b ">") eqn:C.
  - apply andb_prop in C as [C C3]. apply andb_prop in C as [C1 C2]. apply Ascii.eqb_eq in C1, C2, C3. subst. exists "", s, "". repeat split; auto.
    intros p q K. do 2 (destruct p as [|? p]; [discriminate K|]; injection K as _ K). destruct p; discriminate K.
  - apply IH in E as (v & s' & u & -> & E & EQ & L). exists (String b v), s', (String x u). split; [reflexivity|]. split; [exact E|]. split; [now rewrite EQ|].
    apply dash3. auto.
Qed.
Lemma comment_goes : forall v x y u d rest, String x (String y v) = u ++ "--" -> lacks "-->" (String x (String y v)) -> directive (DComment x y) d (v ++ ">" ++ rest) = directive DPlain d rest.
Proof.
  induction v as [|b v IH]; intros x y u d rest E L.
  - destruct u as [|a u]; [|destruct u as [|a' u]; [discriminate E|destruct u; discriminate E]]. injection E as -> ->. reflexivity.
  - apply dash3 in L as [C L]. change (String b v ++ ">" ++ rest) with (String b (v ++ ">" ++ rest)). cbn [directive]. rewrite C.
    destruct u as [|a u]; [discriminate E|]. injection E as -> E. exact (IH y b u d rest E L).
Qed.
Lemma quoted_inv : forall s c d r, directive (DQuote c) d s = Some r -> exists q s', s = q ++ String c s' /\ lacks (String c "") q /\ directive DPlain d s' = Some r.
Proof.
  induction s as [|b s IH]; intros c d r E; cbn [directive] in E; [discriminate|]. destruct (Ascii.eqb_spec b c) as [->|N].
  - exists "", s. split; [reflexivity|]. split; [apply lacks_empty|exact E].
  - apply IH in E as (q & s' & -> & L & E). exists (String b q), s'. split; [reflexivity|]. split; [now apply lacks_cons|exact E].
Qed.
Lemma quoted_goes : forall q c d rest, lacks (String c "") q -> directive (DQuote c) d (q ++ String c rest) = directive DPlain d rest.
Proof.
  induction q as [|a q IH]; intros c d rest L; cbn [append directive]; [now rewrite Ascii.eqb_refl|]. apply lacks_cons in L as [N L]. apply Ascii.eqb_neq in N. rewrite N. now apply IH.
Qed.
Lemma text_dir : forall s, decl_text s -> forall d rest, directive DPlain d (s ++ rest) = directive DPlain d rest.
Proof.
  intros s T. induction T as [|a s N T IH|c q s C L T IH|u s N U IU T IH|u s C T IH]; intros d rest; [reflexivity| | | |].
  - cbn [append directive]. cbn [In] in N.
    destruct (Ascii.eqb_spec a ">") as [->|_]; [exfalso; auto|]. destruct (Ascii.eqb_spec a QUOTE) as [->|_]; [exfalso; apply N; auto|].
    destruct (Ascii.eqb_spec a "'") as [->|_]; [exfalso; auto|]. destruct (Ascii.eqb_spec a "<") as [->|_]; [exfalso; auto|]. apply IH.
  - change (String c (q ++ String c s) ++ rest) with (String c ((q ++ String c s) ++ rest)). rewrite <- sapp_assoc. cbn [append].
    assert (E : directive DPlain d (String c (q ++ String c (s ++ rest))) = directive (DQuote c) d (q ++ String c (s ++ rest))) by (destruct C as [-> | ->]; reflexivity).
    rewrite E, quoted_goes by assumption. apply IH.
  - rewrite <- !sapp_assoc. cbn [append]. cbn [directive]. change (Ascii.eqb "<" ">") with false. change (Ascii.eqb "<" QUOTE || Ascii.eqb "<" "'") with false. change (Ascii.eqb "<" "<") with true. cbv iota.
    assert (P : has_prefix "!--" (u ++ String ">" (s ++ rest)) = false).
    { destruct (has_prefix "!--" (u ++ String ">" (s ++ rest))) eqn:P; [|reflexivity]. exfalso. apply prefix_inv in P as (t & E).
      destruct u as [|a [|b [|c u]]]; cbn [append] in E; try discriminate E. injection E as -> -> -> E. exact (N u eq_refl). }
    rewrite P, IU. cbn [directive]. change (Ascii.eqb ">" ">") with true. cbv iota. apply IH.
  - replace (("<!--" ++ u ++ "-->" ++ s) ++ rest) with ("<!--" ++ (u ++ "--") ++ ">" ++ s ++ rest) by (rewrite <- !sapp_assoc; reflexivity).
    change (directive (DComment "000" "000") d ((u ++ "--") ++ ">" ++ s ++ rest) = directive DPlain d rest).
    rewrite (comment_goes _ _ _ (String "000" (String "000" u))); [apply IH|reflexivity|].
    intros [|a [|b x]] y E; cbn [append] in E; try discriminate E. injection E as _ _ E. exact (C x y E).
Qed.
Lemma dir_inv : forall n s d r, (String.length s <= n)%nat -> directive DPlain d s = Some r ->
  exists u s', s = u ++ ">" ++ s' /\ decl_text u /\ match d with O => s' = r | S d' => directive DPlain d' s' = Some r end.
Proof.
  induction n as [|n IH]; intros s d r Ln E; (destruct s as [|b s]; [discriminate E|]); [cbn in Ln; lia|]. cbn [String.length] in Ln. cbn [directive] in E.
  destruct (Ascii.eqb_spec b ">") as [->|N1].
  { exists "", s. split; [reflexivity|]. split; [constructor|]. destruct d; [now injection E|exact E]. }
  destruct (_ || _) eqn:Q.
  { assert (C : b = QUOTE \/ b = "'"%char) by (apply orb_prop in Q as [C|C]; apply Ascii.eqb_eq in C; auto).
    apply quoted_inv in E as (q & s' & -> & L & E). rewrite slen_app in Ln. cbn [String.length] in Ln. apply IH in E as (u & s2 & -> & T & K); [|lia].
    exists (String b (q ++ String b u)), s2. split; [cbn [append]; now rewrite <- sapp_assoc|]. split; [now apply dt_quoted|exact K]. }
  destruct (Ascii.eqb_spec b "<") as [->|N2].
  - destruct (has_prefix "!--" s) eqn:P.
    + apply prefix_inv in P as (t & ->). change (directive (DSkip 2) d ("!--" ++ t)) with (directive (DComment "000" "000") d t) in E.
      apply comment_inv in E as (v & s' & u & -> & E & EQ & L). rewrite !slen_app in Ln. cbn [String.length] in Ln.
      apply IH in E as (u2 & s2 & -> & T & K); [|lia].
      destruct u as [|a u]; [discriminate EQ|]. injection EQ as <- EQ. destruct u as [|a u]; [discriminate EQ|]. injection EQ as <- ->.
      exists ("<!--" ++ u ++ "-->" ++ u2), s2. split; [repeat first [rewrite <- sapp_assoc | progress cbn [append]]; reflexivity|]. split; [|exact K].
      apply dt_comment; [now apply lacks_tl, lacks_tl in L|exact T].
    + apply IH in E as (u1 & s1 & -> & T1 & E); [|lia]. rewrite !slen_app in Ln. cbn [String.length] in Ln. apply IH in E as (u2 & s2 & -> & T2 & K); [|lia].
      exists ("<" ++ u1 ++ ">" ++ u2), s2. split; [repeat first [rewrite <- sapp_assoc | progress cbn [append]]; reflexivity|]. split; [|exact K].
      apply dt_nested; auto. intros v ->. rewrite <- sapp_assoc, has_prefix_app in P. discriminate P.
  - apply IH in E as (u & s' & -> & T & K); [|lia]. exists (String b u), s'. split; [reflexivity|]. split; [|exact K]. apply dt_char; [|exact T].
    apply orb_false_elim in Q as [Q1 Q2]. apply Ascii.eqb_neq in Q1, Q2. cbn [In]. unfold QUOTE in Q1. intuition congruence.
Qed.
Lemma dir_iff : forall s r, directive DPlain 0 s = Some r <-> exists u, s = u ++ ">" ++ r /\ decl_text u.
Proof.
  intros s r. split.
  - intros E. apply (dir_inv _ _ _ _ (le_n _)) in E as (u & s' & -> & T & ->). eauto.
  - intros (u & -> & T). rewrite text_dir by assumption. reflexivity.
Qed.

(** ** tokens *)
Inductive token_spelling : list token -> string -> Prop :=
| k_start : forall q a sa w, is_qname q -> attrs_spelling a sa -> name_ends sa -> white w -> token_spelling [TStart q a] ("<" ++ name q ++ sa ++ w ++ ">")
| k_empty : forall q a sa w, is_qname q -> attrs_spelling a sa -> name_ends sa -> white w -> token_spelling [TStart q a; TEnd q] ("<" ++ name q ++ sa ++ w ++ "/>")
| k_end : forall q w, is_qname q -> white w -> token_spelling [TEnd q] ("</" ++ name q ++ w ++ ">")
| k_cdata : forall v s, tree_spelling (Chr v) s -> token_spelling [TChar v] s
| k_misc : forall s, tree_spelling Cmt s -> token_spelling [TMisc] s.

Lemma raw_start : forall q a sa w b x rest, is_qname q -> attrs_spelling a sa -> name_ends sa -> white w -> closes x b ->
  raw_token ("<" ++ name q ++ sa ++ w ++ b ++ rest) = Some (if x then [TStart q a; TEnd q] else [TStart q a], rest).
Proof.
  intros q a sa w b x rest G A NE W B. destruct (first_byte q G) as (c & nm & E & NC). destruct (name_not c NC) as (N1 & N2 & N3 & N4 & N5).
  assert (NS : ns_name (name q ++ sa ++ w ++ b ++ rest) = Some (q, sa ++ w ++ b ++ rest)).
  { apply ns_iff. split; [exact G|]. split; [reflexivity|]. split.
    - intros K. apply (f_equal String.length) in K. rewrite !slen_app in K. destruct B as [[-> _]|[-> _]]; cbn [String.length] in K; lia.
    - apply ends_with; [exact NE|]. apply white_ends; [exact W|]. apply ends_iff. destruct B as [[-> _]|[-> _]]; reflexivity. }
  pose proof (attrs_read a sa A w b x rest (S (String.length (sa ++ w ++ b ++ rest))) B W) as RA.
  cbn [append raw_token]. change (Ascii.eqb "<" "<") with true. cbv iota.
  assert (SP : exists t, name q ++ sa ++ w ++ b ++ rest = String c t) by (rewrite E; eexists; reflexivity). destruct SP as (t & SP). rewrite SP in *. rewrite N2, N4, N5, NS. rewrite RA; [destruct x; reflexivity|].
  rewrite slen_app. pose proof (attrs_length _ _ A). lia.
Qed.
Lemma raw_spelled : forall ts s rest, token_spelling ts s -> raw_token (s ++ rest) = Some (ts, rest).
Proof.
  intros ts s rest H. destruct H as [q a sa w G A NE W|q a sa w G A NE W|q w G W|v s H|s H].
  - replace (("<" ++ name q ++ sa ++ w ++ ">") ++ rest) with ("<" ++ name q ++ sa ++ w ++ ">" ++ rest) by (repeat first [rewrite <- sapp_assoc | progress cbn [append]]; reflexivity).
    apply (raw_start q a sa w ">" false); auto. now left.
  - replace (("<" ++ name q ++ sa ++ w ++ "/>") ++ rest) with ("<" ++ name q ++ sa ++ w ++ "/>" ++ rest) by (repeat first [rewrite <- sapp_assoc | progress cbn [append]]; reflexivity).
    apply (raw_start q a sa w "/>" true); auto. now right.
  - replace (("</" ++ name q ++ w ++ ">") ++ rest) with (String "<" (String "/" (name q ++ w ++ String ">" rest))) by (repeat first [rewrite <- sapp_assoc | progress cbn [append]]; reflexivity).
    cbn [raw_token]. change (Ascii.eqb "<" "<") with true. change (Ascii.eqb "/" "/") with true. cbv iota.
    assert (NS : ns_name (name q ++ w ++ String ">" rest) = Some (q, w ++ String ">" rest)).
    { apply ns_iff. split; [exact G|]. split; [reflexivity|]. split; [destruct w; discriminate|]. apply white_ends; [exact W|]. now apply ends_iff. }
    rewrite NS, skip_white by (auto; reflexivity). reflexivity.
  - inversion H as [| |v' s' LN X L| | |]; subst. rewrite <- !sapp_assoc.
    change (raw_token ("<![CDATA[" ++ s' ++ "]]>" ++ rest)) with (match cdata (s' ++ "]]>" ++ rest) with Some (x, r3) => Some ([TChar x], r3) | None => None end).
    assert (C : cdata (s' ++ "]]>" ++ rest) = Some (v, rest)) by (apply cdata_iff; eauto). now rewrite C.
  - inversion H as [| | |s' L|n w d N W NE B L A|a s' NA T]; subst.
    + rewrite <- !sapp_assoc. change (raw_token ("<!--" ++ s' ++ "-->" ++ rest)) with
        (match find_after "--" (s' ++ "--" ++ String ">" rest) with Some (String d r3) => if Ascii.eqb d ">" then Some ([TMisc], r3) else None | _ => None end).
      destruct (proj2 (find_lacks "-" "-" s' (String ">" rest)) L) as [F _]. cbn [append] in F. cbn [append]. rewrite F. reflexivity.
    + replace (("<?" ++ n ++ w ++ d ++ "?>") ++ rest) with ("<?" ++ n ++ (w ++ d ++ "?>" ++ rest)) by (repeat first [rewrite <- sapp_assoc | progress cbn [append]]; reflexivity).
      set (r2 := w ++ d ++ "?>" ++ rest).
      change (raw_token ("<?" ++ n ++ r2)) with
        (let (n, r2) := take_name (n ++ r2) in match find_after "?>" (skip_space r2) with
         | Some r4 => if valid_name n && pi_ok n (before "?>" (skip_space r2)) then Some ([TMisc], r4) else None | None => None end).
      rewrite take_whole; [|now apply bytes_name|]. 2:{ unfold r2. rewrite sapp_assoc. apply ends_with; [exact NE|]. now apply ends_iff. }
      apply blackens_iff in B. unfold r2. rewrite skip_white; [|exact W|destruct d as [|c d]; [reflexivity|exact B]].
      destruct (proj2 (find_lacks "?" ">" d rest) (proj2 (lacks_q d) L)) as [F1 F2]. cbn [append] in F1, F2. cbn [append]. rewrite F1, F2.
      apply valid_iff in N. apply pi_iff in A. now rewrite N, A.
    + replace (("<!" ++ String a (s' ++ ">")) ++ rest) with ("<!" ++ String a (s' ++ ">" ++ rest)) by (repeat first [rewrite <- sapp_assoc | progress cbn [append]]; reflexivity).
      assert (D := proj2 (dir_iff (s' ++ ">" ++ rest) rest) (ex_intro _ s' (conj eq_refl T))). set (u := s' ++ ">" ++ rest) in *. destruct NA as [A1 A2]. apply Ascii.eqb_neq in A1, A2.
      cbn [append raw_token]. change (Ascii.eqb "<" "<") with true. change (Ascii.eqb "!" "/") with false. change (Ascii.eqb "!" "?") with false. change (Ascii.eqb "!" "!") with true. cbv iota.
      cbn [has_prefix]. rewrite (Ascii.eqb_sym "-" a), (Ascii.eqb_sym "[" a), A1, A2. cbn [andb orb]. now rewrite D.
Qed.
Definition text_spelling (v s r : string) : Prop := s <> "" /\ spells None v s /\ xml_string v /\ lacks "]]>" s /\ (r = "" \/ exists u, r = String "<" u).
Lemma spells_first : forall v s, spells None v s -> s <> "" -> exists a t, s = String a t /\ Ascii.eqb a "<" = false.
Proof.
  intros v s H N. destruct H as [|a v s NI _ _|v s _ _|v s _|e c v s _ _]; [now destruct N| | | |]; try (eexists; eexists; split; reflexivity).
  exists a, s. split; [reflexivity|]. apply Ascii.eqb_neq. intros ->. apply NI. cbn. auto.
Qed.
Lemma raw_text : forall v s r, text_spelling v s r -> raw_token (s ++ r) = Some ([TChar v], r).
Proof.
  intros v s r (N & SP & X & L & R). destruct (spells_first v s SP N) as (a & t & -> & NA).
  assert (T : text None (String a t ++ r) = Some (v, r)) by (apply text_iff; [exact I|]; exists (String a t), r; repeat split; auto).
  cbn [append] in *. cbn [raw_token]. now rewrite NA, T.
Qed.
Lemma raw_inv : forall s ts r, raw_token s = Some (ts, r) -> exists s1, s = s1 ++ r /\ (token_spelling ts s1 \/ exists v, ts = [TChar v] /\ text_spelling v s1 r).
Proof.
  intros s ts r E. destruct s as [|b s0]; [discriminate|]. cbn [raw_token] in E. destruct (Ascii.eqb_spec b "<") as [->|N].
  2:{ destruct (text None (String b s0)) as [[x r']|] eqn:T; [|discriminate]. injection E as <- <-. apply text_iff in T as (s1 & z & EQ & [-> R] & SP & X & L); [|exact I].
      exists s1. split; [exact EQ|]. right. exists x. split; [reflexivity|]. repeat split; auto.
      intros ->. cbn [append] in EQ. subst r'. destruct R as [R|(u & R)]; [discriminate R|]. injection R as R _. contradiction. }
  destruct s0 as [|c r1]; [discriminate|].
  destruct (Ascii.eqb_spec c "/") as [->|N1].
  { destruct (ns_name r1) as [[q r2]|] eqn:NS; [|discriminate]. apply ns_iff in NS as (Q & -> & _ & _). destruct (skip_inv r2) as (w & W & E2 & _). destruct (skip_space r2) as [|d r3]; [discriminate|].
    destruct (Ascii.eqb_spec d ">") as [->|]; [|discriminate]. injection E as <- <-. exists ("</" ++ name q ++ w ++ ">"). split.
    - rewrite E2. repeat first [rewrite <- sapp_assoc | progress cbn [append]]. reflexivity.
    - left. now apply k_end. }
  destruct (Ascii.eqb_spec c "?") as [->|N2].
  { destruct (take_name r1) as [n r2] eqn:T. destruct (take_inv _ _ _ T) as [-> NE]. destruct (skip_inv r2) as (w & W & E2 & B).
    destruct (find_after "?>" (skip_space r2)) as [r4|] eqn:F; [|discriminate]. destruct (_ && _) eqn:V; [|discriminate]. injection E as <- <-. apply andb_prop in V as [V P].
    destruct (find_some _ _ _ F) as (d & ED & BD & _). rewrite BD in P. rewrite ED in *.
    exists ("<?" ++ n ++ w ++ d ++ "?>"). split.
    - rewrite E2. repeat first [rewrite <- sapp_assoc | progress cbn [append]]. reflexivity.
    - left. apply k_misc, ts_pi; auto.
      + now apply valid_iff.
      + rewrite E2 in NE. rewrite sapp_assoc in NE. now apply ends_app in NE.
      + apply blackens_iff. destruct d; [exact I|exact B].
      + apply lacks_q. apply (find_lacks "?" ">" d r4). cbn [append] in *. auto.
      + now apply pi_iff. }
  destruct (Ascii.eqb_spec c "!") as [->|N3].
  { destruct (has_prefix "--" r1) eqn:P1.
    { apply prefix_inv in P1 as (r2 & ->). change (drop 2 ("--" ++ r2)) with (Some r2) in E. cbv iota in E. destruct (find_after "--" r2) as [[|d r3]|] eqn:F; try discriminate.
      destruct (Ascii.eqb_spec d ">") as [->|]; [|discriminate]. injection E as <- <-. destruct (find_some _ _ _ F) as (u & EU & BU & _).
      exists ("<!--" ++ u ++ "-->"). split; [rewrite EU; repeat first [rewrite <- sapp_assoc | progress cbn [append]]; reflexivity|]. left. apply k_misc, ts_comment.
      apply (find_lacks "-" "-" u (String ">" r3)). cbn [append] in *. rewrite <- EU. auto. }
    destruct (has_prefix "[CDATA[" r1) eqn:P2.
    { apply prefix_inv in P2 as (r2 & ->). change (drop 7 ("[CDATA[" ++ r2)) with (Some r2) in E. cbv iota in E. destruct (cdata r2) as [[x r3]|] eqn:C; [|discriminate]. injection E as <- <-.
      apply cdata_iff in C as (s1 & -> & LN & X & L). exists ("<![CDATA[" ++ s1 ++ "]]>"). split; [repeat first [rewrite <- sapp_assoc | progress cbn [append]]; reflexivity|]. left. now apply k_cdata, ts_cdata. }
    destruct r1 as [|d r2]; [discriminate|]. destruct (_ || _) eqn:D; [discriminate|]. apply orb_false_elim in D as [D1 D2]. apply Ascii.eqb_neq in D1, D2.
    destruct (directive DPlain 0 r2) as [r3|] eqn:DR; [|discriminate]. injection E as <- <-. apply dir_iff in DR as (u & -> & T).
    exists ("<!" ++ String d (u ++ ">")). split; [repeat first [rewrite <- sapp_assoc | progress cbn [append]]; reflexivity|]. left. now apply k_misc, ts_doctype. }
  destruct (ns_name (String c r1)) as [[q r2]|] eqn:NS; [|discriminate]. apply ns_iff in NS as (Q & EQ & _ & NE). rewrite EQ.
  destruct (read_attrs _ r2) as [[[l x] r3]|] eqn:R; [|discriminate]. apply attrs_inv in R as (sa & w & b & -> & A & W & CL). apply ends_app in NE.
  destruct CL as [[-> ->]|[-> ->]]; injection E as <- <-.
  - exists ("<" ++ name q ++ sa ++ w ++ ">"). split; [repeat first [rewrite <- sapp_assoc | progress cbn [append]]; reflexivity|]. left. now apply k_start.
  - exists ("<" ++ name q ++ sa ++ w ++ "/>"). split; [repeat first [rewrite <- sapp_assoc | progress cbn [append]]; reflexivity|]. left. now apply k_empty.
Qed.
