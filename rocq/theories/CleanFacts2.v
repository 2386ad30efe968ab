(** Bytes that XML cannot represent: what is written for them. *)
From Coq Require Import String Ascii List Bool Arith NArith ZArith Lia ZifyN Permutation.
From Verif Require Import GoStr Num Lib Types XmlTok Marshal Docx Lex Rels Reload Pack SpecLex SpecPack SpecClean DecLemmas LexFacts LexFacts2 LexFacts3 PackFacts3 StableFacts2 ReopenFacts SpecNum CleanFacts.
Import ListNotations.
Local Open Scope list_scope.
Local Open Scope string_scope.
Ltac Zify.zify_post_hook ::= Z.div_mod_to_equations.

(** ** all code points *)
Lemma encode_scalar : forall r, scalar r -> encoded r (encode r).
Proof.
  intros r X. unfold encode. cbv zeta. assert (R : (r <= 1114111)%N) by (unfold scalar in X; lia).
  destruct (r <? 128)%N eqn:E1; [apply N.ltb_lt in E1; now constructor|]. apply N.ltb_ge in E1.
  destruct (r <? 2048)%N eqn:E2.
  { apply N.ltb_lt in E2. apply enc2; [| |lia]; apply byte_a; lia. }
  apply N.ltb_ge in E2. destruct (r <? 65536)%N eqn:E3.
  { apply N.ltb_lt in E3. apply enc3; [| | |lia]; apply byte_a; lia. }
  apply N.ltb_ge in E3. apply enc4; [| | | |lia]; apply byte_a; lia.
Qed.
Lemma rune_scalar : forall r s, scalar r -> rune_at (encode r ++ s) = Some (r, String.length (encode r)).
Proof.
  intros r s X. pose proof (encode_scalar r X) as E. destruct E as [L|a b A B L|a b c A B C L|a b c d A B C D L]; cbn [append].
  - cbn [rune_at]. rewrite byte_a by lia. assert ((r <? 128)%N = true) as -> by (apply N.ltb_lt; lia). reflexivity.
  - cbn [rune_at String.length]. assert ((byte a <? 128)%N = false) as -> by (apply N.ltb_ge; lia).
    rewrite (between_true 194 223 a) by lia. unfold cont. rewrite (between_true 128 191 b) by lia. f_equal. f_equal. lia.
  - cbn [rune_at String.length]. assert ((byte a <? 128)%N = false) as -> by (apply N.ltb_ge; lia).
    rewrite (between_false 194 223 a) by lia. rewrite (between_true 224 239 a) by lia. unfold cont. rewrite (between_true 128 191 c) by lia.
    assert (Y : between (if (byte a =? 224)%N then 160 else 128)%N (if (byte a =? 237)%N then 159 else 191)%N b = true).
    { unfold scalar in X. destruct (N.eqb_spec (byte a) 224); destruct (N.eqb_spec (byte a) 237); apply between_true; lia. }
    rewrite Y. cbn [andb]. f_equal. f_equal. lia.
  - cbn [rune_at String.length]. assert ((byte a <? 128)%N = false) as -> by (apply N.ltb_ge; lia).
    rewrite (between_false 194 223 a) by lia. rewrite (between_false 224 239 a) by lia. rewrite (between_true 240 244 a) by lia. unfold cont. rewrite (between_true 128 191 c), (between_true 128 191 d) by lia.
    assert (Y : between (if (byte a =? 240)%N then 144 else 128)%N (if (byte a =? 244)%N then 143 else 191)%N b = true).
    { destruct (N.eqb_spec (byte a) 240); destruct (N.eqb_spec (byte a) 244); apply between_true; lia. }
    rewrite Y. cbn [andb]. f_equal. f_equal. lia.
Qed.
Lemma rune_is_scalar : forall s r n, rune_at s = Some (r, n) -> scalar r.
Proof.
  intros [|a s1] r n H; [discriminate H|]. cbn [rune_at] in H. unfold scalar. destruct (byte a <? 128)%N eqn:E1.
  { injection H as <- <-. apply N.ltb_lt in E1. lia. }
  apply N.ltb_ge in E1. destruct s1 as [|b s2]; [discriminate H|]. destruct (between 194 223 a) eqn:B1.
  { destruct (cont b) eqn:C; [|discriminate H]. injection H as <- <-. apply between_inv in B1. unfold cont in C. apply between_inv in C. lia. }
  destruct s2 as [|c s3]; [discriminate H|]. destruct (between 224 239 a) eqn:B2.
  { destruct (between (if (byte a =? 224)%N then 160 else 128)%N (if (byte a =? 237)%N then 159 else 191)%N b) eqn:D; [|discriminate H].
    destruct (cont c) eqn:C; [|discriminate H]. cbn [andb] in H. injection H as <- <-. apply between_inv in B2, D. unfold cont in C. apply between_inv in C.
    destruct (N.eqb_spec (byte a) 224), (N.eqb_spec (byte a) 237); lia. }
  destruct s3 as [|d s4]; [discriminate H|]. destruct (between 240 244 a) eqn:B3; [|discriminate H].
  destruct (between (if (byte a =? 240)%N then 144 else 128)%N (if (byte a =? 244)%N then 143 else 191)%N b) eqn:D; [|discriminate H].
  destruct (cont c) eqn:C; [|discriminate H]. destruct (cont d) eqn:C2; [|discriminate H]. cbn [andb] in H. injection H as <- <-.
  apply between_inv in B3, D. unfold cont in C, C2. apply between_inv in C, C2. destruct (N.eqb_spec (byte a) 240), (N.eqb_spec (byte a) 244); lia.
Qed.
Lemma char_scalar : forall r, xml_char r -> scalar r. Proof. unfold xml_char, scalar. intros. lia. Qed.

(** ** cleaning as a function *)
Lemma escape_bad_char : forall r s, scalar r -> ~ xml_char r -> escape (encode r ++ s) = REPLACEMENT ++ escape s.
Proof.
  intros r s S N. pose proof (rune_scalar r s S) as R. assert (CR : in_char_range r = false) by (destruct (in_char_range r) eqn:E; [exfalso; apply N; now apply range_char|reflexivity]).
  unfold escape at 1. destruct (encode r) as [|b t] eqn:Q; [pose proof (encode_len r) as K; rewrite Q in K; cbn in K; lia|]. cbn [append escape_go] in *.
  unfold esc_rune. rewrite R. repeat match goal with |- context [(r =? ?m)%N] => destruct (N.eqb_spec r m) as [->|?]; [discriminate CR|] end.
  rewrite CR. change (String "239" (String "191" (String "189" ""))) with REPLACEMENT. f_equal. cbn [String.length pred]. now apply escape_del.
Qed.
Lemma escape_bad_byte : forall a s, rune_at (String a s) = None -> escape (String a s) = REPLACEMENT ++ escape s.
Proof. intros a s R. unfold escape at 1. cbn [escape_go]. unfold esc_rune. rewrite R. change (String "239" (String "191" (String "189" ""))) with REPLACEMENT. f_equal. cbn [pred]. apply escape_go_0. Qed.
Lemma replacement_char : xml_char 65533. Proof. unfold xml_char. lia. Qed.
Lemma escape_replacement : forall s, escape (REPLACEMENT ++ s) = REPLACEMENT ++ escape s.
Proof. intros s. unfold REPLACEMENT at 1. rewrite (escape_encode 65533) by apply replacement_char. reflexivity. Qed.

Lemma cleans_escape : forall s s', cleans s s' -> escape s' = escape s.
Proof.
  induction 1 as [|r s s' X C IH|r s s' S N C IH|a s s' B C IH]; [reflexivity| | |].
  - now rewrite !escape_encode, IH by assumption.
  - rewrite escape_replacement, IH. symmetry. now apply escape_bad_char.
  - rewrite escape_replacement, IH. symmetry. apply escape_bad_byte. destruct (rune_at (String a s)) as [[r n]|] eqn:R; [|reflexivity].
    exfalso. destruct (rune_inv _ _ _ R) as (t & E & _). exact (B r t (rune_is_scalar _ _ _ R) E).
Qed.
Lemma cleans_xml : forall s s', cleans s s' -> xml_string s'.
Proof.
  induction 1 as [|r s s' X C IH|r s s' S N C IH|a s s' B C IH]; [exists []; auto| | |]; try (now apply xml_string_cons); apply (xml_string_cons 65533); auto using replacement_char.
Qed.
Lemma encode_cons2 : forall r, exists a t, encode r = String a t.
Proof. intros r. pose proof (encode_len r). destruct (encode r); [cbn in *; lia|eauto]. Qed.
Lemma cleans_empty : forall s s', cleans s s' -> (s = "" <-> s' = "").
Proof.
  intros s s' C. destruct C as [|r s s' X C|r s s' S N C|a s s' B C]; [tauto| | |].
  - destruct (encode_cons2 r) as (a & t & ->). split; discriminate.
  - destruct (encode_cons2 r) as (a & t & ->). split; discriminate.
  - split; discriminate.
Qed.
Lemma cleans_total : forall n s, (String.length s <= n)%nat -> { s' | cleans s s' }.
Proof.
  induction n as [|n IH]; intros s L; destruct s as [|a s]; try (exists ""; constructor); [cbn in L; lia|].
  destruct (rune_at (String a s)) as [[r k]|] eqn:R.
  - pose proof (rune_is_scalar _ _ _ R) as S. destruct (drop k (String a s)) as [t|] eqn:D.
    + assert (E : String a s = encode r ++ t /\ (String.length t <= n)%nat).
      { destruct (rune_inv _ _ _ R) as (t' & E & K & P). rewrite E, K in D. assert (DD : forall u v, drop (String.length u) (u ++ v) = Some v) by (induction u; intros v; [now destruct v|cbn; auto]).
        rewrite DD in D. injection D as <-. split; [exact E|]. assert (LL : String.length (String a s) = String.length (encode r ++ t')) by now rewrite E. rewrite slen_app in LL. lia. }
      destruct E as (E & LT). destruct (IH t LT) as (t' & C). destruct (in_char_range r) eqn:CR.
      * exists (encode r ++ t'). rewrite E. constructor; [now apply range_char|exact C].
      * exists (REPLACEMENT ++ t'). rewrite E. constructor; [exact S| |exact C]. intros X. apply char_in_range in X. congruence.
    + exfalso. destruct (rune_inv _ _ _ R) as (t' & E & K & P). rewrite E, K in D. assert (DD : forall u v, drop (String.length u) (u ++ v) = Some v) by (induction u; intros v; [now destruct v|cbn; auto]).
      rewrite DD in D. discriminate.
  - destruct (IH s) as (t & C); [cbn in L; lia|]. exists (REPLACEMENT ++ t). constructor; [|exact C]. intros r u S E. rewrite E in R. rewrite (rune_scalar r u S) in R. discriminate.
Qed.
Definition clean (s : string) : string := proj1_sig (cleans_total _ s (le_n _)).
Lemma clean_cleans : forall s, cleans s (clean s). Proof. intros s. exact (proj2_sig (cleans_total _ s (le_n _))). Qed.
Lemma encode_prefix : forall r r' s s', scalar r -> scalar r' -> encode r ++ s = encode r' ++ s' -> r = r' /\ s = s'.
Proof.
  intros r r' s s' S S' E. pose proof (rune_scalar r s S) as R. rewrite E, (rune_scalar r' s' S') in R. injection R as <- L. split; [reflexivity|]. apply app_len_inv in E; tauto.
Qed.
Lemma cleans_unique : forall s a b, cleans s a -> cleans s b -> a = b.
Proof.
  intros s a b C. revert b. induction C as [|r s s' X C IH|r s s' S N C IH|a s s' B C IH]; intros b D.
  - symmetry. now apply (cleans_empty _ _ D).
  - remember (encode r ++ s) as u. destruct D as [|r2 s2 s2' X2 D|r2 s2 s2' S2 N2 D|a2 s2 s2' B2 D].
    + destruct (encode_cons2 r) as (x & t & E). rewrite E in Hequ. discriminate.
    + destruct (encode_prefix r2 r s2 s) as (-> & ->); auto using char_scalar. f_equal. auto.
    + destruct (encode_prefix r2 r s2 s) as (-> & ->); auto using char_scalar. contradiction.
    + exfalso. apply (B2 r s (char_scalar r X) Hequ).
  - remember (encode r ++ s) as u. destruct D as [|r2 s2 s2' X2 D|r2 s2 s2' S2 N2 D|a2 s2 s2' B2 D].
    + destruct (encode_cons2 r) as (x & t & E). rewrite E in Hequ. discriminate.
    + destruct (encode_prefix r2 r s2 s) as (-> & ->); auto using char_scalar. contradiction.
    + destruct (encode_prefix r2 r s2 s) as (-> & ->); auto using char_scalar. f_equal. auto.
    + exfalso. apply (B2 r s S Hequ).
  - remember (String a s) as u. destruct D as [|r2 s2 s2' X2 D|r2 s2 s2' S2 N2 D|a2 s2 s2' B2 D].
    + discriminate.
    + exfalso. exact (B r2 s2 (char_scalar _ X2) eq_refl).
    + exfalso. exact (B r2 s2 S2 eq_refl).
    + injection Hequ as -> ->. f_equal. auto.
Qed.
Lemma cleans_legal : forall s, xml_string s -> cleans s s.
Proof. intros s (l & F & ->). induction F; cbn [map sconcat]; constructor; auto. Qed.

Lemma clean_same : forall s, xml_string s -> clean s = s.
Proof. intros s X. apply (cleans_unique s); [apply clean_cleans|now apply cleans_legal]. Qed.

(** ** documents *)
Lemma xml_decimal : forall s n, decimal s n -> xml_string s.
Proof.
  induction 1 as [|s n a d D IH G]; [exists []; auto|]. apply xml_app; [exact IH|]. destruct G as (G1 & ->). apply xml_byte; [lia|exists []; auto].
Qed.
Section Any.
Variable c : string -> string.
Hypothesis c_cleans : forall s, cleans s (c s).
Lemma c_same : forall s, xml_string s -> c s = s.
Proof. intros s X. apply (cleans_unique s); [apply c_cleans|now apply cleans_legal]. Qed.
Lemma c_empty : c "" = "". Proof. now apply (cleans_empty _ _ (c_cleans "")). Qed.
Lemma c_full : forall s, c s = "" -> s = "". Proof. intros s. apply (cleans_empty _ _ (c_cleans s)). Qed.
Lemma c_num : forall z, c (itoa z) = itoa z. Proof. intros z. apply c_same, xml_itoa. Qed.

Lemma show_attrs_tm : forall a, show_attrs (am c a) = show_attrs a.
Proof. induction a as [|[q v] a IH]; [reflexivity|]. cbn [am map fst snd show_attrs]. fold (am c a). now rewrite IH, (cleans_escape v (c v) (c_cleans v)). Qed.
Lemma show_tm : forall t, show (tm c t) = show t.
Proof.
  induction t as [q a k P|s|] using tree_ind'; [|apply cleans_escape, c_cleans|reflexivity].
  rewrite tm_elem, !show_elem, show_attrs_tm. do 4 f_equal. unfold shows. rewrite map_map. f_equal. f_equal. apply map_ext_Forall. exact P.
Qed.
Lemma write_tm : forall t, write_xml (tm c t) = write_xml t.
Proof. intros t. unfold write_xml. now rewrite show_tm. Qed.
Lemma values_tm : forall t, Forall xml_string (values (tm c t)).
Proof.
  induction t as [q a k P|s|] using tree_ind'; [|constructor; [apply (cleans_xml _ _ (c_cleans s))|constructor]|constructor].
  rewrite tm_elem, values_elem. apply Forall_app. split.
  - unfold am. rewrite map_map. cbn [snd]. apply Forall_map. apply Forall_forall. intros x _. apply (cleans_xml _ _ (c_cleans _)).
  - clear -P. induction P as [|t k H P IH]; cbn [map flat_map]; [constructor|]. apply Forall_app. auto.
Qed.
Lemma doc_attrs_same : forall b : bool, am c (if b then doc_attrs else no_attrs) = if b then doc_attrs else no_attrs.
Proof.
  assert (K : Forall (fun x : attr => xml_string (snd x)) (doc_attrs ++ no_attrs)) by (repeat constructor; apply xml_by; reflexivity).
  intros b. unfold am. rewrite <- map_id. apply map_ext_in. intros [q v] I. cbn [fst snd]. f_equal. apply c_same.
  apply (proj1 (Forall_forall _ _) K (q, v)). apply in_or_app. destruct b; auto.
Qed.
Lemma clean_doc_tree : forall d, m_docx (clean_docx c d) = tm c (m_docx d).
Proof. intros d. unfold m_docx, clean_docx. cbn [d_ns d_items]. apply (cm_document_of c c_empty c_full c_num). apply doc_attrs_same. Qed.
Lemma clean_files : forall d, pack_files (clean_docx c d) = pack_files d.
Proof.
  intros d. unfold pack_files. rewrite clean_doc_tree, write_tm. cbn [clean_docx d_tmpl d_reg]. rewrite (cm_rels c c_empty c_full), write_tm. reflexivity.
Qed.
Lemma clean_writes : forall d r, writes (clean_docx c d) r <-> writes d r.
Proof. intros d r. unfold writes. now rewrite clean_files. Qed.
Lemma clean_xml : forall d, xml_docx (clean_docx c d).
Proof.
  intros d. split.
  - cbn [clean_docx d_items]. unfold m_document. rewrite (cm_document_of c c_empty c_full c_num _ _ (doc_attrs_same true)). apply values_tm.
  - cbn [clean_docx d_reg]. split; [apply (cleans_xml _ _ (c_cleans _))|]. intros r I. cbn [clean_reg rels] in I. apply in_map_iff in I. destruct I as (r0 & <- & _).
    unfold rel_strings, clean_rel. cbn [rel_id rel_type rel_target rel_mode]. repeat constructor; apply (cleans_xml _ _ (c_cleans _)).
Qed.
Lemma clean_has_num : forall l, Forall has_num l -> Forall has_num (map (clean_rel c) l).
Proof.
  intros l F. apply Forall_map. eapply Forall_impl; [|exact F]. intros r (n & s & E & NE & D & B). exists n, s. split; [|auto]. cbn [clean_rel rel_id]. rewrite c_same; [exact E|].
  rewrite E. apply xml_app; [now apply xml_by|]. now apply xml_decimal with n.
Qed.
End Any.
