(** Documents built by histories of legal calls can be saved and opened again. *)
From Coq Require Import String Ascii List Bool Arith NArith ZArith Lia Permutation.
From Verif Require Import GoStr Num Lib Types XmlTok Docx Api Keep Copy Marshal Unmarshal Lex Rels Reload Pack History SpecLex SpecPack SpecReopen
  LexFacts LexFacts2 LexFacts3 RegFacts HistFacts HistFacts2 RelsFacts PackFacts PackFacts2 PackFacts3 PackFacts4 PackFacts5 IdFacts StableFacts2 ValFacts ValFacts2 ValHist OpcFacts OpcFacts2.
Import ListNotations.
Local Open Scope list_scope.
Local Open Scope string_scope.

(** ** XML strings cut at an ASCII character *)
Lemma encode_high : forall r, xml_char r -> (128 <= r)%N -> all_chars (fun a => (128 <=? N_of_ascii a)%N) (encode r) = true.
Proof.
  intros r X G. assert (B : (r <= 1114111)%N) by (unfold xml_char in X; lia). unfold encode.
  assert (M : forall x, (128 + x mod 64 < 256)%N) by (intros x; pose proof (N.mod_lt x 64); lia).
  destruct (N.ltb_spec r 128); [lia|]. destruct (N.ltb_spec r 2048); [|destruct (N.ltb_spec r 65536)]; cbn [all_chars]; rewrite ?(N_ascii_embedding _ (M _)).
  - assert (D : (r / 64 < 32)%N) by (apply N.div_lt_upper_bound; lia). rewrite N_ascii_embedding by lia. rewrite !andb_true_iff, !N.leb_le. repeat split; lia.
  - assert (D : (r / 4096 < 16)%N) by (apply N.div_lt_upper_bound; lia). rewrite N_ascii_embedding by lia. rewrite !andb_true_iff, !N.leb_le. repeat split; lia.
  - assert (D : (r / 262144 < 5)%N) by (apply N.div_lt_upper_bound; lia). rewrite N_ascii_embedding by lia. rewrite !andb_true_iff, !N.leb_le. repeat split; lia.
Qed.
Lemma NoDup_app2 : forall A (a b : list A), NoDup a -> NoDup b -> (forall x, In x a -> In x b -> False) -> NoDup (a ++ b)%list.
Proof.
  induction a as [|x a IH]; intros b A1 B D; [exact B|]. inversion A1; subst. cbn. constructor; [|apply IH; auto; intros y I J; apply (D y); [now right|exact J]].
  intros I. apply in_app_iff in I as [I|I]; [contradiction|]. apply (D x); [now left|exact I].
Qed.
Lemma split_skip : forall c a s, count c a = 0 -> exists h t, split c s = h :: t /\ split c (a ++ s) = (a ++ h) :: t.
Proof.
  induction a as [|x a IH]; intros s N.
  - pose proof (split_length c s) as L. cbn [append]. destruct (split c s) as [|h t]; [discriminate|]. exists h, t. auto.
  - cbn [count] in N. destruct (Ascii.eqb x c) eqn:E; [lia|]. destruct (IH s) as (h & t & A & B); [lia|]. exists h, t. split; [exact A|].
    cbn [append split]. now rewrite E, B.
Qed.
Lemma high_count : forall c a, (N_of_ascii c < 128)%N -> all_chars (fun a => (128 <=? N_of_ascii a)%N) a = true -> count c a = 0.
Proof.
  intros c a L. induction a as [|x a IH]; intros A; [reflexivity|]. cbn [all_chars] in A. apply andb_prop in A as [A1 A2]. apply N.leb_le in A1. cbn [count]. rewrite (IH A2).
  destruct (Ascii.eqb_spec x c); [subst; lia|reflexivity].
Qed.
Lemma xml_sep : forall c r, (N_of_ascii c < 128)%N -> xml_char r -> encode r = String c "" \/ count c (encode r) = 0.
Proof.
  intros c r L X. destruct (N.lt_ge_cases r 128) as [B|B]; [|right; apply high_count; [exact L|now apply encode_high]].
  unfold encode. destruct (N.ltb_spec r 128); [|lia]. cbn [count]. destruct (Ascii.eqb_spec (ascii_of_N r) c); [left; congruence|right; reflexivity].
Qed.
Lemma xml_split : forall c s, (N_of_ascii c < 128)%N -> xml_string s -> Forall xml_string (split c s).
Proof.
  intros c s L (l & F & ->). induction F as [|r l X F IH]; [repeat constructor; apply xml_nil|]. cbn [map sconcat].
  destruct (xml_sep c r L X) as [E|E].
  - rewrite E. cbn [append split]. rewrite Ascii.eqb_refl. constructor; [apply xml_nil|exact IH].
  - destruct (split_skip c (encode r) (sconcat (map encode l)) E) as (h & t & A & B). rewrite B. rewrite A in IH. inversion IH; subst. constructor; [now apply xml_string_cons|assumption].
Qed.
Lemma after_skip : forall c a s, count c s <> 0 -> after_last c (a ++ s) = after_last c s.
Proof.
  induction a as [|x a IH]; intros s N; [reflexivity|]. cbn [append after_last]. rewrite count_app.
  replace (Nat.ltb 0 (count c a + count c s)) with true by (symmetry; apply Nat.ltb_lt; lia). now apply IH.
Qed.
Lemma after_none : forall c s, count c s = 0 -> after_last c s = s.
Proof. intros c [|x s] N; [reflexivity|]. cbn [after_last count] in *. destruct (Ascii.eqb x c); [lia|]. cbn in N. now rewrite N. Qed.
Lemma xml_after : forall c s, (N_of_ascii c < 128)%N -> xml_string s -> xml_string (after_last c s).
Proof.
  intros c s L (l & F & ->). induction F as [|r l X F IH]; [apply xml_nil|]. cbn [map sconcat].
  destruct (Nat.eq_dec (count c (sconcat (map encode l))) 0) as [Z|Z]; [|now rewrite after_skip].
  destruct (xml_sep c r L X) as [E|E].
  - rewrite E. cbn [append after_last]. rewrite Z, Ascii.eqb_refl. exists l. auto.
  - rewrite after_none by (rewrite count_app; lia). exists (r :: l). auto.
Qed.

Lemma xml_itoau : forall n, xml_string (itoa_u n). Proof. intros. apply xml_itoa. Qed.
Lemma xml_by : forall s, legal s = true -> xml_string s. Proof. intros s. now apply (legal_xml _ s (le_n _)). Qed.
Lemma xml_api : Forall xml_string api_strings.
Proof. apply Forall_forall. intros s I. apply xml_by. revert s I. apply forallb_forall. vm_compute. reflexivity. Qed.

Section R.
Context `{GoLib}.
Notation xs := xml_string.
Definition ok_world_x := ok_world xs xs.
Lemma strings_opt : forall A (f : A -> list string) (Q : A -> Prop) o, (forall x, Forall xs (f x) -> Q x) -> Forall xs (opt_strings f o) -> oko Q o.
Proof. intros A f Q [x|] K F; cbn in *; auto. Qed.
Lemma strings_one : forall s, Forall xs [s] -> xs s.
Proof. intros s F. now inversion F. Qed.
Lemma strings_end : forall x, Forall xs (end_strings x) -> ok_lend xs x.
Proof. intros x F. unfold end_strings in F. inversion F as [|? ? A F1]; subst. inversion F1 as [|? ? B F2]; subst. inversion F2; subst. repeat split; assumption. Qed.
Lemma strings_line : forall x, Forall xs (line_strings x) -> ok_aline xs x.
Proof.
  intros x F. unfold line_strings in F. rewrite !Forall_app in F. destruct F as (F0 & F1 & F2 & F3 & F4 & F5).
  inversion F0 as [|? ? A G1]; subst. inversion G1 as [|? ? B G2]; subst. inversion G2; subst. unfold ok_aline. repeat (split; [assumption|]).
  split; [eapply strings_opt; [|exact F1]; intros y; apply strings_opt; exact strings_one|].
  split; [eapply strings_opt; [|exact F2]; exact strings_one|]. split; [eapply strings_opt; [|exact F3]; exact strings_one|].
  split; [eapply strings_opt; [|exact F4]; exact strings_end|eapply strings_opt; [|exact F5]; exact strings_end].
Qed.
Lemma unpack_ok : forall f a d, NoDup (map fst a) -> unpack f a = Ok d -> ok_docx xs xs d.
Proof.
  intros f a d N U. destruct (unpack_loaded f a d N U) as ((s & E) & (XR & _)). split.
  - rewrite E. apply (v_parse xs xml_nil xml_itoa xs xs xml_cat xml_itoa). apply lex_xml.
  - destruct XR as (X1 & X2). split; [exact X1|]. apply Forall_forall. intros r I. specialize (X2 r I). unfold rel_strings in X2.
    repeat match goal with F : Forall _ (_ :: _) |- _ => inversion F; clear F; subst end. repeat split; assumption.
Qed.
Ltac brk := repeat match goal with F : Forall _ (_ :: _) |- _ => inversion F; clear F; subst | F : Forall _ [] |- _ => clear F | F : Forall _ (_ ++ _) |- _ => apply Forall_app in F; destruct F end.
Lemma legal_rop : forall o, Forall xs (rop_strings o) -> given_rop xs o.
Proof. intros [] F; cbn in *; brk; auto. Qed.
Lemma legal_pop : forall o, Forall xs (pop_strings o) -> match o with ODrawing _ data => forall a b f, lib_imgsize data = Some (a, b, f) -> xs f | _ => True end -> given_pop xs xs o.
Proof.
  intros [] F G; cbn [pop_strings given_pop] in *; brk; auto; try tauto; [|now apply legal_rop].
  repeat split; auto. destruct ln; cbn in *; auto. now apply strings_line.
Qed.
Lemma legal_colors : forall c, Forall xs (opt_strings color_strings c) -> given_colors xs c.
Proof. intros [c|] F; unfold given_colors; cbn in *; unfold color_strings in *; brk; repeat split; auto. Qed.
Lemma legal_given : forall o, legal_call o -> given xs xs o.
Proof.
  intros o (F & G). destruct o; cbn [call_strings given] in *; brk; auto; try tauto.
  - apply legal_pop; auto; destruct o; auto.
  - apply legal_pop; auto; destruct o; auto.
  - now apply legal_colors.
  - now apply legal_colors.
  - intros f d U. eapply unpack_ok; [exact (proj1 G)|exact U].
Qed.
Lemma legal_history : forall l w, run_ops l [] = Some w -> Forall legal_call l -> ok_world xs xs w.
Proof.
  intros l w R F. apply (history_ok xs xs) with (l := l) (w := []); auto.
  - apply xml_nil.
  - apply xml_itoa.
  - apply xml_api.
  - intros n. apply xml_app; [now apply xml_by|apply xml_itoau].
  - intros s z X. apply xml_app; [exact X|]. apply xml_app; [now apply xml_by|apply xml_itoa].
  - intros n f X. repeat (apply xml_app; [first [now apply xml_by|apply xml_itoau]|]). exact X.
  - intros s X. now apply xml_after.
  - apply xml_nil.
  - intros c s [->| ->] X; now apply xml_split.
  - eapply Forall_impl; [|exact F]. apply legal_given.
  - constructor.
Qed.
Lemma ok_xml : forall d, ok_docx xs xs d -> xml_docx d.
Proof.
  intros d (I & (R1 & R2)). split.
  - apply okt_values. unfold m_document, m_document_of. apply okt_elem. split; [pose proof xml_header as A; unfold va; now rewrite Forall_map in A|].
    apply okts_cons. split; [|constructor]. apply okt_elem. split; [constructor|]. apply okts_map. eapply Forall_impl; [|exact I]. intros x. exact (k_item xs xml_nil xml_itoa xs xs xml_cat xml_itoa x).
  - split; [exact R1|]. intros r K. rewrite Forall_forall in R2. destruct (R2 r K) as (A & B & C & D). repeat constructor; assumption.
Qed.

(** ** numbers *)
Definition origin (g : reg) : Prop :=
  exists g0, reg_steps g0 g /\ numbered g0 /\ Forall has_num (rels g0) /\ NoDup (map fst (media g0)) /\ img_fresh g0 /\ (rid g0 < 2 ^ 62)%N /\ (imgid g0 <= 100000)%N.
Lemma steps_snoc : forall g g1 g2, reg_steps g g1 -> reg_step g1 g2 -> reg_steps g g2.
Proof. intros g g1 g2 S. induction S; intros T; [econstructor; [exact T|constructor]|econstructor; [eassumption|auto]]. Qed.
Lemma origin_step : forall g g', reg_step g g' -> origin g -> origin g'.
Proof. intros g g' S (g0 & A & B). exists g0. split; [now apply (steps_snoc _ g)|exact B]. Qed.
Lemma origin_new : origin empty_reg.
Proof.
  exists empty_reg. split; [constructor|]. split; [apply empty_numbered|]. split; [|split; [constructor|split; [apply empty_img_fresh|split; [vm_compute; reflexivity|vm_compute; discriminate]]]].
  cbn. repeat constructor; eexists; (apply id_number_spec; vm_compute; reflexivity).
Qed.
Lemma origin_parse : forall f a d, NoDup (map fst a) -> unpack f a = Ok d -> roomy (d_reg d) -> origin (d_reg d).
Proof.
  intros f a d N U (LI & RN). destruct (unpack_inv f a d U) as (_ & M & _ & NB & IM & _). exists (d_reg d). split; [constructor|]. split; [exact NB|].
  split; [exact (proj2 (proj2 (unpack_loaded f a d N U)))|]. split; [rewrite M; now apply media_entries_nodup|]. split; [now apply (parsed_fresh f a)|]. split; [|rewrite IM; reflexivity].
  destruct (unpack_largest f a d U) as (_ & [->|(r & I & J)]); [reflexivity|]. now apply (RN r).
Qed.
Lemma origin_legal : forall o, legal_call o -> admits origin o.
Proof. intros o (_ & G). destruct o; cbn in *; auto; [destruct G|]. intros f d U. eapply origin_parse; [exact (proj1 G)|exact U|exact (proj2 G f d U)]. Qed.
Lemma origin_history : forall l w i d, run_ops l [] = Some w -> Forall legal_call l -> nth_error w i = Some d -> origin (d_reg d).
Proof.
  intros l w i d R F N. apply (run_regs origin origin_step origin_new) with (l := l) (w := []) (w' := w) (i := i); auto.
  - eapply Forall_impl; [|exact F]. apply origin_legal.
  - intros k x K. destruct k; discriminate.
Qed.
Lemma origin_nums : forall g, origin g -> (N.of_nat (length (rels g)) < 2 ^ 62)%N -> Forall has_num (rels g) /\ NoDup (map fst (media g)).
Proof.
  intros g (g0 & S & NB & HN & ND & IF & RB & IB) L. split.
  - destruct (steps_rels _ _ S) as (l & E & B). rewrite E in L. rewrite app_length in L. change B63 with (2 * 2 ^ 62)%N in B. destruct B as (_ & B); [lia|].
    rewrite E. apply Forall_app. split; [exact HN|]. apply Forall_forall. intros r I. apply (in_map rel_id) in I. rewrite B in I. apply ids_from_in in I.
    destruct I as (m & E1 & K). exists m. apply id_number_spec. rewrite E1. unfold id_number, rid_name. cbn [append]. apply parse_uint_utoa. change B64 with (4 * 2 ^ 62)%N. lia.
  - destruct (steps_media _ _ S) as (l & E & LE & B). change B63 with (2 * 2 ^ 62)%N in B. destruct B as (_ & B); [lia|].
    rewrite E, map_app. apply NoDup_app2; [exact ND|eapply names_from_nodup; eauto|]. intros x I J. apply in_map_iff in I. destruct I as (m & <- & I).
    apply in_map_iff in J. destruct J as (m' & E2 & J). destruct (names_from_in _ _ _ B J) as (k & f & A & C). rewrite E2 in A. specialize (IF m k f I A). lia.
Qed.

(** ** saving and opening again *)
Lemma reopen : forall l w i d ar f, Forall legal_call l -> run_ops l [] = Some w -> nth_error w i = Some d -> (N.of_nat (length (rels (d_reg d))) < 2 ^ 62)%N ->
  no_media_tmpl d -> writes d (Ok ar) ->
  exists d', unpack f ar = Ok d' /\ d_items d' = map (reload_item (Some f)) (d_items d) /\
    rels (d_reg d') = rels (d_reg d) /\ relns (d_reg d') = relns (d_reg d) /\
    Permutation (media (d_reg d')) (media (d_reg d)) /\
    (forall m, In m (media (d_reg d)) <-> media_of (d_reg d') (fst m) = Ok (Some m)).
Proof.
  intros l w i d ar f F R N L NM W. pose proof (legal_history l w R F) as OK. pose proof (origin_history l w i d R F N) as O. destruct (origin_nums _ O L) as (HN & ND).
  assert (X : xml_docx d) by (apply ok_xml; apply (proj1 (Forall_forall _ _) OK); eapply nth_error_In; eauto).
  destruct (write_read f d ar W X HN ND NM) as (d' & A1 & A2 & A3 & A4 & _ & A6 & A7 & _). exists d'. auto 10.
Qed.
End R.
