(** Relationships survive saving and reloading. *)
From Coq Require Import String Ascii List Bool Arith NArith ZArith Lia.
From Verif Require Import GoStr Num Lib Types XmlTok Docx DecLemmas RoundTrip2 Lex SpecLex LexFacts LexFacts3 LexFacts2 Rels SpecNum NumFacts SpecPack.
Import ListNotations.
Local Open Scope list_scope.
Local Open Scope string_scope.

(** ** numbers *)
Lemma decimal_more : forall s p acc n, decimal p acc -> digits_val s acc = Some n -> decimal (p ++ s) n.
Proof.
  induction s as [|a s IH]; intros p acc n D E; cbn [digits_val] in E.
  - injection E as <-. now rewrite sapp_nil_r.
  - destruct (Num.is_digit a) eqn:DG; [|discriminate E].
    replace (p ++ String a s) with ((p ++ String a "") ++ s) by (now rewrite <- sapp_assoc).
    eapply IH; [|exact E]. replace (acc * 10 + (N_of_ascii a - 48))%N with (10 * acc + (N_of_ascii a - 48))%N by lia.
    constructor; [assumption|]. unfold Num.is_digit in DG. apply andb_prop in DG as [A B]. apply N.leb_le in A, B.
    split; [lia|]. replace (48 + (N_of_ascii a - 48))%N with (N_of_ascii a) by lia. symmetry. apply ascii_N_embedding.
Qed.
Lemma parse_uint_spec : forall s n, parse_uint s = Some n <-> s <> "" /\ decimal s n /\ (n < 18446744073709551616)%N.
Proof.
  intros s n. unfold parse_uint. split.
  - destruct (parse_nat s) as [m|] eqn:E; [|discriminate]. destruct (N.ltb_spec m 18446744073709551616); [|discriminate]. intros K. injection K as ->.
    unfold parse_nat in E. destruct s; [discriminate E|]. split; [discriminate|]. split; [|assumption]. exact (decimal_more _ "" 0%N n dec_nil E).
  - intros (N & D & L). rewrite (decimal_nat _ _ D N). apply N.ltb_lt in L. now rewrite L.
Qed.
Lemma id_number_spec : forall id n, id_number id = Some n <-> id_num id n.
Proof.
  intros id n. unfold id_number. split.
  - destruct (has_prefix "rId" id) eqn:P; [|discriminate]. apply has_prefix_spec in P as (t & ->). cbn [append drop]. intros E.
    exists t. split; [reflexivity|]. now apply parse_uint_spec.
  - intros (s & -> & K). rewrite has_prefix_app. cbn [append drop]. now apply parse_uint_spec.
Qed.
Lemma id_num_fun : forall id n m, id_num id n -> id_num id m -> n = m.
Proof. intros id n m A B. apply id_number_spec in A, B. congruence. Qed.

Lemma max_id_some : forall l m, Forall has_num l -> exists k, max_id l m = Some k /\ (m <= k)%N /\
  (forall r n, In r l -> id_num (rel_id r) n -> (n <= k)%N) /\ (k = m \/ exists r, In r l /\ id_num (rel_id r) k).
Proof.
  induction l as [|r l IH]; intros m F; cbn [max_id].
  - exists m. split; [reflexivity|]. split; [lia|]. split; [intros ? ? []|auto].
  - inversion F as [|? ? (n & N) F']; subst. pose proof (proj2 (id_number_spec _ _) N) as E. rewrite E.
    destruct (IH (if (m <? n)%N then n else m) F') as (k & K1 & K2 & K3 & K4). exists k. split; [assumption|].
    assert (B : (m <= k /\ n <= k)%N) by (destruct (N.ltb_spec m n); lia). split; [lia|]. split.
    + intros r' n' [<-|I] N'; [|eauto]. rewrite (id_num_fun _ _ _ N' N). lia.
    + destruct K4 as [->|(r' & I & N')]; [|right; exists r'; split; [now right|assumption]].
      destruct (m <? n)%N; [right; exists r; split; [now left|assumption]|now left].
Qed.
Lemma max_id_inv : forall l m k, max_id l m = Some k -> Forall has_num l.
Proof.
  induction l as [|r l IH]; intros m k E; [constructor|]. cbn [max_id] in E. destruct (id_number (rel_id r)) as [n|] eqn:Q; [|discriminate E].
  constructor; [|eauto]. exists n. now apply id_number_spec.
Qed.

(** ** the tokens *)
Lemma u_rel_written : forall r, u_rel (at_ (nn "Id") (rel_id r) ++ at_ (nn "Type") (rel_type r) ++ at_ (nn "Target") (rel_target r) ++ ato (nn "TargetMode") (rel_mode r))%list = r.
Proof.
  intros [i t g m]. unfold u_rel, ato. cbn [rel_id rel_type rel_target rel_mode]. destruct (String.eqb_spec m "") as [->|N]; reflexivity.
Qed.
Lemma rels_written : forall l acc n q k, (length l < n)%nat -> rels_n n acc (ftoks (map m_rel l) ++ TEnd q :: k) = ((acc ++ l)%list, SOk).
Proof.
  induction l as [|r l IH]; intros acc n q k L; (destruct n as [|n]; [lia|]).
  - cbn. now rewrite app_nil_r.
  - unfold ftoks. cbn [map flat_map]. fold (ftoks (map m_rel l)). unfold m_rel at 1. cbn [toks flat_map app].
    cbn [rels_n]. unfold skip. cbn [skip_from]. change (String.eqb (snd (nn "Relationship")) "Relationship") with true. cbv iota.
    rewrite u_rel_written, IH by (cbn in L; lia). now rewrite <- app_assoc.
Qed.
Lemma rels_root_written : forall g ns k, rels_root ns [] (toks (m_rels g) ++ k) = (relns g, rels g, SOk).
Proof.
  intros g ns k. unfold m_rels. cbn [toks app rels_root]. fold (ftoks (map m_rel (rels g))). rewrite <- app_assoc. cbn [app].
  rewrite (rels_written (rels g) []); [reflexivity|]. rewrite app_length. cbn [length].
  assert (LL : (length (rels g) <= length (ftoks (map m_rel (rels g))))%nat).
  { induction (rels g) as [|r l IH]; [cbn; lia|]. unfold ftoks in *. cbn [map flat_map]. unfold m_rel at 1. cbn [toks flat_map app length]. lia. }
  lia.
Qed.

(** ** the bytes *)
Lemma ok_rels : forall g, good_shape (m_rels g) = true.
Proof.
  intros g. assert (K : okt (m_rels g) = true).
  { unfold m_rels. apply ok_elem; [reflexivity|now apply oka_at|]. apply okl_okk. apply okl_map'. intros r. unfold m_rel.
    apply ok_elem; [reflexivity| |reflexivity]. repeat apply oka_app; try (now apply oka_at). now apply oka_ato. }
  unfold okt in K. now apply andb_prop in K as [_ K].
Qed.
Lemma rels_values : forall g, xml_rels g -> Forall xml_string (values (m_rels g)).
Proof.
  intros g (X & R). unfold m_rels. rewrite values_elem. apply Forall_app. split; [constructor; [exact X|constructor]|].
  induction (rels g) as [|r l IH]; [constructor|]. cbn [map flat_map]. apply Forall_app. split; [|apply IH; intros; apply R; now right].
  specialize (R r (or_introl eq_refl)). unfold rel_strings in R. inversion R as [|? ? R1 Q1]; subst. inversion Q1 as [|? ? R2 Q2]; subst. inversion Q2 as [|? ? R3 Q3]; subst. inversion Q3 as [|? ? R4 Q4]; subst.
  unfold m_rel. rewrite values_elem. unfold ato. destruct (String.eqb (rel_mode r) ""); cbn; auto 8.
Qed.

Lemma save_load_rels : forall g g0, rels g0 = [] -> rid g0 = 0%N -> xml_rels g -> Forall has_num (rels g) ->
  exists m, parse_doc_relation (write_xml (m_rels g)) g0 = Ok (mk_reg (rels g) (relns g) (media g0) (midx g0) m (imgid g0) (docid g0) (slow g0)) /\
  largest_id (rels g) m.
Proof.
  intros g g0 E0 R0 X F. unfold parse_doc_relation.
  rewrite lex_write; [|unfold m_rels; eauto|apply ok_rels|now apply rels_values].
  cbn [check]. rewrite <- (app_nil_r (toks (m_rels g))), check_tree. cbn [rels_root]. rewrite E0.
  rewrite rels_root_written. destruct (max_id_some (rels g) (rid g0) F) as (m & M1 & M2 & M3 & M4). rewrite M1.
  exists m. split; [reflexivity|]. split; [assumption|]. now rewrite R0 in M4.
Qed.
