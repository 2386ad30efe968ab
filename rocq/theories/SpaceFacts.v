(** Proofs about white space at the ends of text. *)
From Coq Require Import String Ascii List Bool Arith NArith ZArith Lia.
From Verif Require Import GoStr Num Lib Types XmlTok Unmarshal Marshal Docx Api Merge SpecApi SpecXml XmlFacts ApiFacts SpecMerge MergeFacts MergeFacts2 MergeFacts4 SpecSpace.
Import ListNotations.
Local Open Scope list_scope.
Local Open Scope string_scope.

Lemma front_len : forall s, String.length (no_front s) <= String.length s.
Proof. induction s as [|a s IH]; [reflexivity|]. cbn [no_front String.length]. destruct (white_char a); cbn [String.length]; lia. Qed.
Lemma back_len : forall s, String.length (no_back s) <= String.length s.
Proof.
  induction s as [|a s IH]; [reflexivity|]. cbn [no_back String.length]. destruct (no_back s) as [|b t]; [destruct (white_char a)|]; cbn [String.length] in *; lia.
Qed.
Lemma trim_len : forall s, String.length (trim s) <= String.length s.
Proof. intros s. unfold trim. pose proof (back_len (no_front s)). pose proof (front_len s). lia. Qed.
Lemma front_same : forall s, no_front s = s <-> forall a s', s = String a s' -> white_char a = false.
Proof.
  intros [|a s]; [split; [intros _ b s' E; discriminate E|reflexivity]|]. cbn [no_front]. split.
  - intros E b s' [= <- <-]. destruct (white_char a); [|reflexivity]. exfalso. pose proof (front_len s). rewrite E in H. cbn in H. lia.
  - intros H. now rewrite (H a s eq_refl).
Qed.
Lemma back_snoc : forall s a, no_back (s ++ String a "") = if white_char a then no_back s else s ++ String a "".
Proof.
  induction s as [|b s IH]; intros a; cbn [append no_back]; [reflexivity|]. rewrite IH. destruct (white_char a); [reflexivity|].
  destruct (s ++ String a "") eqn:E; [destruct s; discriminate E|reflexivity].
Qed.
Lemma snoc_case : forall s, s = "" \/ exists s' a, s = s' ++ String a "".
Proof.
  induction s as [|a s [->|(s' & b & ->)]]; [now left| |]; right; [now exists "", a|now exists (String a s'), b].
Qed.
Lemma snoc_inj : forall s t a b, s ++ String a "" = t ++ String b "" -> s = t /\ a = b.
Proof.
  induction s as [|x s IH]; intros [|y t] a b E; cbn [append] in E.
  - injection E as ->. auto.
  - injection E as -> E. destruct t; discriminate E.
  - injection E as -> E. destruct s; discriminate E.
  - injection E as -> E. apply IH in E as [-> ->]. auto.
Qed.
Lemma back_same : forall s, no_back s = s <-> forall a s', s = s' ++ String a "" -> white_char a = false.
Proof.
  intros s. destruct (snoc_case s) as [->|(s' & a & ->)].
  - split; [|reflexivity]. intros _ a [|b s'] E; discriminate E.
  - rewrite back_snoc. split.
    + intros E b t F. apply snoc_inj in F as [<- <-]. destruct (white_char a); [|reflexivity]. exfalso. pose proof (back_len s') as H. rewrite E in H.
      assert (L : forall x y, String.length (x ++ y) = String.length x + String.length y) by (induction x; intros; cbn; auto).
      rewrite L in H. cbn in H. lia.
    + intros H. now rewrite (H a s' eq_refl).
Qed.
Lemma trim_same : forall s, trim s = s <-> tight s.
Proof.
  intros s. unfold trim, tight. rewrite <- front_same, <- back_same. split; [|intros [-> ->]; reflexivity].
  intros E. assert (F : no_front s = s).
  { assert (G : String.length (no_front s) = String.length s).
    { pose proof (front_len s). pose proof (back_len (no_front s)) as B. rewrite E in B. lia. }
    clear E. induction s as [|a s IH]; [reflexivity|]. cbn [no_front] in *. destruct (white_char a); [|reflexivity].
    pose proof (front_len s). cbn in G. lia. }
  rewrite F in E. auto.
Qed.

(** ** the saved run *)
Lemma shown_text : forall all k x, shown all k (m_text x) =
  if all || keeps k (ato (xml_ "space") (text_space x)) then text_text x else trim (text_text x).
Proof.
  intros all k [sp t]. unfold m_text. cbn [text_space text_text shown]. change (is_w "t" (w "t")) with true. cbv iota.
  assert (E : sconcat (map char_data (chr t)) = t).
  { unfold chr. destruct (String.eqb_spec t "") as [->|_]; [reflexivity|]. cbn. apply sapp_nil_r. }
  now rewrite E.
Qed.
Lemma shown_rpr : forall all k x, sconcat (map (shown all k) (el m_rpr x)) = "".
Proof. intros all k [x|]; reflexivity. Qed.
Lemma shown_run : forall all k r, shown all k (m_runR m_rchild r) =
  sconcat (map (fun c => shown all (keeps k (ato (xml_ "space") (runR_space r))) (m_rchild c)) (runR_children r)).
Proof.
  intros all k r. unfold m_runR. cbn [shown]. change (is_w "t" (w "r")) with false. change (is_w "tab" (w "r")) with false. change (is_w "br" (w "r")) with false.
  change (is_w "pPr" (w "r") || is_w "rPr" (w "r")) with false. cbv iota zeta. rewrite !map_app, !sconcat_app, shown_rpr, map_map. cbn [append].
  destruct (String.eqb (runR_instr r) ""); reflexivity.
Qed.
Lemma shown_para : forall all k p, shown all k (m_para p) = sconcat (map (fun c => shown all k (m_pchild c)) (para_children p)).
Proof.
  intros all k [r]. cbn [m_para]. unfold m_paraR, para_children. cbn [shown]. change (is_w "t" (w "p")) with false. change (is_w "tab" (w "p")) with false. change (is_w "br" (w "p")) with false.
  change (is_w "pPr" (w "p") || is_w "rPr" (w "p")) with false. change (keeps k []) with k. cbv iota zeta. rewrite map_app, sconcat_app, map_map.
  destruct (paraR_ppr r); reflexivity.
Qed.
Lemma shown_line : forall all l b,
  sconcat (map (fun c => shown all false (m_rchild c)) (line_children b l)) =
  sconcat (map child_text (line_children b (map (fun k => if all then k else trim k) l))).
Proof.
  intros all l. induction l as [|k l IH]; intros b; [reflexivity|]. cbn [line_children map].
  rewrite !map_app, !sconcat_app, IH. f_equal; [destruct b; reflexivity|]. f_equal.
  destruct (String.eqb_spec k "") as [->|N]; [destruct all; reflexivity|].
  cbn [map m_rchild]. rewrite shown_text. change (keeps false (ato (xml_ "space") (text_space (mk_text "" k)))) with false. cbn [text_text].
  rewrite orb_false_r. set (x := if all then k else trim k). cbn [sconcat]. rewrite sapp_nil_r.
  destruct (String.eqb_spec x "") as [->|_]; [reflexivity|]. cbn. now rewrite sapp_nil_r.
Qed.
Lemma shown_lines : forall all l b,
  sconcat (map (fun c => shown all false (m_rchild c)) (text_children b l)) =
  textj b (map (fun s => join TABs (map (fun k => if all then k else trim k) (split TAB s))) l).
Proof.
  intros all l. induction l as [|s l IH]; intros b; [reflexivity|]. cbn [text_children map textj].
  rewrite !map_app, !sconcat_app, IH, shown_line, line_children_text, linej_true. f_equal. destruct b; reflexivity.
Qed.
Lemma added_shown : forall all t p, shown all false (m_para (add_text t p)) =
  shown all false (m_para p) ++ join NLs (map (fun l => join TABs (map (fun k => if all then k else trim k) (split TAB l))) (split NL t)).
Proof.
  intros all t p. rewrite add_text_run. unfold Api.add_child. rewrite !shown_para.
  replace (para_children (set_para_children (para_children p ++ [PRun (text_run t)])%list p)) with (para_children p ++ [PRun (text_run t)])%list by (now destruct p as [[? ? ?]]).
  rewrite map_app, sconcat_app. f_equal. cbn [map sconcat m_pchild]. rewrite sapp_nil_r, shown_run.
  unfold text_run. destruct (String.eqb_spec t (String TAB "")) as [->|_].
  - destruct all; reflexivity.
  - cbn [api_run runR_space runR_children]. change (keeps false (ato (xml_ "space") "")) with false. now rewrite shown_lines, textj_true.
Qed.
Lemma added_seen : forall t p, seen (m_para (add_text t p)) = seen (m_para p) ++ trimmed t.
Proof. intros t p. apply (added_shown false). Qed.
Lemma added_stored : forall t p, stored (m_para (add_text t p)) = stored (m_para p) ++ t.
Proof.
  intros t p. unfold stored. rewrite (added_shown true). f_equal. cbv beta iota. rewrite (map_ext _ (fun l => l)).
  - rewrite map_id. apply join_split.
  - intros l. rewrite map_id. apply join_split.
Qed.

(** ** when nothing is taken away *)
Lemma slen_app : forall a b, String.length (a ++ b) = String.length a + String.length b.
Proof. induction a; intros; cbn; auto. Qed.
Lemma trim_full : forall s, String.length (trim s) = String.length s -> trim s = s.
Proof.
  intros s E. unfold trim in *. assert (F : no_front s = s).
  { pose proof (back_len (no_front s)) as B. destruct s as [|a s]; [reflexivity|]. cbn [no_front] in *. destruct (white_char a); [|reflexivity].
    pose proof (front_len s). cbn [String.length] in *. lia. }
  rewrite F in *. clear F. destruct (snoc_case s) as [->|(s' & a & ->)]; [reflexivity|]. rewrite back_snoc in *. destruct (white_char a); [|reflexivity].
  pose proof (back_len s'). rewrite slen_app in E. cbn in E. lia.
Qed.
Section Join.
Variables (sep : string) (f : string -> string).
Hypothesis short : forall x, String.length (f x) <= String.length x.
Hypothesis full : forall x, String.length (f x) = String.length x -> f x = x.
Lemma join_short : forall l, String.length (join sep (map f l)) <= String.length (join sep l).
Proof.
  induction l as [|x [|y l] IH]; [reflexivity|apply short|].
  assert (J : join sep (map f (x :: y :: l)) = f x ++ sep ++ join sep (map f (y :: l))) by reflexivity.
  assert (K : join sep (x :: y :: l) = x ++ sep ++ join sep (y :: l)) by reflexivity. rewrite J, K, !slen_app. pose proof (short x). lia.
Qed.
Lemma join_full : forall l, String.length (join sep (map f l)) = String.length (join sep l) -> forall x, In x l -> f x = x.
Proof.
  induction l as [|x [|y l] IH]; intros E z I; [destruct I| |].
  - destruct I as [<-|[]]. now apply full.
  - assert (J : join sep (map f (x :: y :: l)) = f x ++ sep ++ join sep (map f (y :: l))) by reflexivity.
    assert (K : join sep (x :: y :: l) = x ++ sep ++ join sep (y :: l)) by reflexivity. rewrite J, K, !slen_app in E.
    pose proof (short x). pose proof (join_short (y :: l)). destruct I as [<-|I]; [apply full; lia|]. apply IH; [lia|exact I].
Qed.
End Join.
Lemma line_short : forall s, String.length (join TABs (map trim (split "009" s))) <= String.length s.
Proof. intros s. pose proof (join_short TABs trim trim_len (split "009" s)) as H. unfold TABs in H at 2. now rewrite join_split in H. Qed.
Lemma line_full : forall s, String.length (join TABs (map trim (split "009" s))) = String.length s -> forall k, In k (split "009" s) -> trim k = k.
Proof. intros s E. apply (join_full TABs trim trim_len trim_full). unfold TABs at 2. now rewrite join_split. Qed.
Lemma line_same : forall s, (forall k, In k (split "009" s) -> trim k = k) -> join TABs (map trim (split "009" s)) = s.
Proof. intros s H. rewrite (map_ext_in _ (fun x => x)) by exact H. rewrite map_id. apply join_split. Qed.
Lemma trimmed_same : forall t, trimmed t = t <-> all_tight t.
Proof.
  intros t. unfold trimmed, all_tight. split.
  - intros E l k I J. apply trim_same. revert J. apply line_full.
    assert (F : join TABs (map trim (split "009" l)) = l); [|now rewrite F].
    apply (join_full NLs (fun l => join TABs (map trim (split "009" l))) line_short) with (l := split "010" t); [| |exact I].
    + intros x X. apply line_same. now apply line_full.
    + rewrite E. unfold NLs. now rewrite join_split.
  - intros H. rewrite (map_ext_in _ (fun x => x)).
    + rewrite map_id. apply join_split.
    + intros l I. apply line_same. intros k J. apply trim_same. eauto.
Qed.
Lemma added_iff : forall t p, (seen (m_para (add_text t p)) = seen (m_para p) ++ t <-> all_tight t).
Proof.
  intros t p. rewrite added_seen, <- trimmed_same. split; [|intros ->; reflexivity]. generalize (seen (m_para p)). intros s. induction s as [|a s IH]; cbn [append]; [auto|].
  intros [= E]. auto.
Qed.

(** ** loaded text *)
Lemma space_of : forall a s, (forall x, In x a -> snd (fst x) = "space" -> fst (fst x) = "xml") -> length (filter (fun x : attr => String.eqb (snd (fst x)) "space") a) <= 1 ->
  text_space (fst (attrs (aswitch [("space", av set_text_space)]) s a)) = match space_attr a with Some v => v | None => text_space s end.
Proof.
  induction a as [|[[p n] v] a IH]; intros s X U; [reflexivity|]. cbn [attrs space_attr]. cbn [fst snd]. unfold aswitch at 1, switch at 1. cbn [filter fst snd] in U.
  destruct (String.eqb n "space") eqn:N.
  - unfold av at 1. cbn [fst]. apply String.eqb_eq in N. pose proof (X _ (or_introl eq_refl) N) as P. cbn in P. subst p. cbn [length] in U.
    change (String.eqb "xml" "xml" && true) with true. cbv iota.
    assert (Z : filter (fun x : attr => String.eqb (snd (fst x)) "space") a = []) by (destruct (filter (fun x : attr => String.eqb (snd (fst x)) "space") a); [reflexivity|cbn in U; lia]).
    rewrite IH; [|intros; apply X; [now right|assumption]|lia].
    assert (space_attr a = None) as ->; [|reflexivity]. clear - Z. induction a as [|[[p m] u] a IH]; [reflexivity|]. cbn [filter space_attr fst snd] in *.
    destruct (String.eqb m "space") eqn:M; [discriminate Z|]. rewrite andb_false_r. auto.
  - rewrite andb_false_r. cbn [fst]. rewrite IH; [reflexivity|intros; apply X; [now right|assumption]|exact U].
Qed.
Lemma saved_space : forall k v, keeps k (ato (xml_ "space") v) = keeps k [(xml_ "space", v)].
Proof. intros k v. unfold ato. destruct (String.eqb_spec v "") as [->|_]; reflexivity. Qed.
Lemma loaded_space : forall `{GoLib} f a s, (forall x, In x a -> snd (fst x) = "space" -> fst (fst x) = "xml") ->
  length (filter (fun x : attr => String.eqb (snd (fst x)) "space") a) <= 1 ->
  exists x, parse_document f (toks (run_doc [Elem (w "t") a [Chr s]])) = (run_items f None [RText x], SOk) /\
  forall all k, shown all k (m_text x) = shown all k (Elem (w "t") a [Chr s]).
Proof.
  intros L f a s X U. rewrite load_text by (constructor; [right; eauto|constructor]). eexists. split; [reflexivity|].
  intros all k. rewrite shown_text. cbn [text_space text_text last_chardata]. rewrite space_of by assumption.
  assert (E : shown all k (Elem (w "t") a [Chr s]) = if all || keeps k a then s else trim s).
  { cbn [shown]. change (is_w "t" (w "t")) with true. cbv iota zeta. cbn [map char_data sconcat]. now rewrite sapp_nil_r. }
  rewrite E. rewrite saved_space. assert (F : keeps k [(xml_ "space", match space_attr a with Some v => v | None => text_space text0 end)] = keeps k a); [|now rewrite F].
  unfold keeps. destruct (space_attr a); reflexivity.
Qed.

(** ** merging *)
Definition untexted (c : mchild) : Prop := match c with MCell _ => True | MRest c => is_text c = false end.
Definition clean_item (i : mitem) : Prop := match i with MRun r => Forall untexted (runR_children r) | MPass c => is_run c = false end.
Lemma collect_untexted : forall l h t acc h' t' ch, collect l h t acc = (h', t', ch) -> Forall untexted acc -> Forall untexted ch.
Proof.
  induction l as [|c l IH]; intros h t acc h' t' ch C F.
  - cbn in C. destruct (empty (hget h t)); injection C as <- <- <-; [assumption|]. apply Forall_app. split; [assumption|]. repeat constructor.
  - destruct (is_text c) eqn:T.
    + destruct c; try discriminate T. rewrite collect_text in C. eauto.
    + rewrite collect_rest in C by assumption. destruct (empty (hget h t)); apply IH in C; auto; repeat (apply Forall_app; split); repeat constructor; assumption.
Qed.
Lemma merge_into_untexted : forall l h pt na t acc h' ch, merge_into l h pt na t acc = (h', ch) -> Forall untexted l -> Forall untexted acc -> Forall untexted ch.
Proof.
  assert (S1 : forall acc t, Forall untexted acc -> Forall untexted (acc ++ [MCell t])%list) by (intros; apply Forall_app; split; [assumption|repeat constructor]).
  assert (S2 : forall acc c, Forall untexted acc -> is_text c = false -> Forall untexted (acc ++ [MRest c])%list) by (intros; apply Forall_app; split; [assumption|constructor; [assumption|constructor]]).
  induction l as [|c l IH]; intros h pt na t acc h' ch M F A.
  - cbn in M. destruct (empty (hget h pt)); [|destruct na]; injection M as <- <-; auto.
  - inversion F as [|? ? Fc Fl]; subst. destruct c as [a|c]; cbn [merge_into] in M.
    + destruct (empty (hget h a)); eauto.
    + cbn in Fc. destruct (empty (hget h pt)); [eauto|]. unfold halloc in M. eapply IH; [exact M|assumption|]. apply S2; [|assumption]. destruct na; auto.
Qed.
Definition clean_state (s : mstate) : Prop := Forall clean_item (ms_items s).
Lemma clean_split : forall s, clean_state s <-> Forall clean_item (ms_before s) /\ Forall clean_item (ms_after s) /\ forall r, ms_prev s = Some r -> Forall untexted (runR_children r).
Proof.
  intros s. unfold clean_state, ms_items. destruct (ms_prev s) as [r|].
  - rewrite Forall_app. split.
    + intros [A B]. inversion B; subst. repeat split; auto. intros r' [= <-]. assumption.
    + intros (A & B & C). split; [assumption|]. constructor; [cbn; auto|assumption].
  - rewrite Forall_app. split; [intros [A B]; repeat split; auto; discriminate|tauto].
Qed.
Lemma merge_run_clean : forall f o s s', merge_run f o s = Ok s' -> clean_state s -> clean_state s'.
Proof.
  intros f o s s' M C. unfold merge_run, halloc in M. destruct (collect _ _ _ _) as [[h t] ch] eqn:E. pose proof (collect_untexted _ _ _ _ _ _ _ E (Forall_nil _)) as U.
  assert (P : clean_state (mk_mstate (ms_items s) (Some (mk_runR (runR_space o) (runR_rpr o) (runR_instr o) ch)) [] h)).
  { apply clean_split. cbn. repeat split; [exact C|constructor|]. intros r [= <-]. exact U. }
  destruct (ms_prev s) as [pr|] eqn:Pr; [|injection M as <-; exact P].
  destruct (f _ _) as [[]|e|]; [|injection M as <-; exact P|discriminate M|discriminate M].
  destruct (last_cell _ _) as [[h1 pt] na]. destruct (merge_into _ _ _ _ _ _) as [h2 ch'] eqn:I. injection M as <-.
  apply clean_split in C as (A & B & D). apply clean_split. cbn [ms_before ms_after ms_prev]. repeat split; auto. intros r [= <-].
  change (Forall untexted ch'). eapply merge_into_untexted; [exact I|exact U|]. exact (D _ Pr).
Qed.
Lemma merge_loop_clean : forall f l s s', merge_loop f l s = Ok s' -> clean_state s -> clean_state s'.
Proof.
  intros f. induction l as [|c l IH]; intros s s' M C; cbn [merge_loop] in M; [injection M as <-; exact C|].
  assert (Q : is_run c = false -> clean_state (mk_mstate (ms_before s) (ms_prev s) (ms_after s ++ [MPass c])%list (ms_heap s))).
  { intros R. apply clean_split in C as (A & B & D). apply clean_split. cbn. repeat split; auto. apply Forall_app. split; [assumption|]. constructor; [exact R|constructor]. }
  destruct c; [|eapply IH; [exact M|now apply Q]..].
  destruct (merge_run f r s) as [s1| |] eqn:R; try discriminate M. cbn in M. eapply IH; [exact M|]. eapply merge_run_clean; eauto.
Qed.
Lemma merge_unmarked : forall f p p', merge_text f p = Ok p' -> forall r x, In (PRun r) (para_children p') -> In (RText x) (runR_children r) -> text_space x = "".
Proof.
  intros f p p' M r x I J. unfold merge_text in M. destruct (merge_loop _ _ _) as [s| |] eqn:E; try discriminate M. cbn in M. injection M as <-.
  apply merge_loop_clean in E; [|apply Forall_nil]. change (In (PRun r) (map (look_item (ms_heap s)) (ms_items s))) in I. apply in_map_iff in I as (i & Hi & Ii).
  apply (proj1 (Forall_forall _ _) E) in Ii. destruct i as [q|c]; cbn in Hi; [|subst c; discriminate Ii]. injection Hi as <-. change (In (RText x) (map (look_child (ms_heap s)) (runR_children q))) in J.
  apply in_map_iff in J as (m & Hm & Im). cbn in Ii. apply (proj1 (Forall_forall _ _) Ii) in Im. destruct m as [a|c]; cbn in Hm; [injection Hm as <-; reflexivity|].
  subst c. discriminate Im.
Qed.

(** text without white space at its ends *)
Lemma tight_nil : tight "".
Proof. split; intros a s' E; [discriminate E|destruct s'; discriminate E]. Qed.
Lemma tight_app : forall a b, tight a -> tight b -> tight (a ++ b).
Proof.
  intros a b [A1 A2] [B1 B2]. split.
  - intros c s' E. destruct a as [|x a]; [now apply (B1 c s')|]. injection E as -> _. now apply (A1 c a).
  - intros c s' E. destruct (snoc_case b) as [->|(b' & d & ->)]; [rewrite sapp_nil_r in E; now apply (A2 c s')|].
    rewrite sapp_assoc in E. apply snoc_inj in E as [_ <-]. now apply (B2 d b').
Qed.
Lemma happ_tight : forall h a s, Forall tight h -> tight s -> Forall tight (happ h a s).
Proof.
  induction h as [|x h IH]; intros a s F T; [constructor|]. inversion F; subst. destruct a; cbn [happ]; constructor; auto. now apply tight_app.
Qed.
Lemma hget_tight : forall h a, Forall tight h -> tight (hget h a).
Proof. intros h a F. unfold hget. destruct (nth_in_or_default a h "") as [I| ->]; [exact (proj1 (Forall_forall _ _) F _ I)|apply tight_nil]. Qed.
Lemma alloc_tight : forall h, Forall tight h -> Forall tight (h ++ [""])%list.
Proof. intros h F. apply Forall_app. split; [assumption|]. constructor; [apply tight_nil|constructor]. Qed.
Lemma collect_tight : forall l h t acc h' t' ch, collect l h t acc = (h', t', ch) -> tight_texts l -> Forall tight h -> Forall tight h'.
Proof.
  induction l as [|c l IH]; intros h t acc h' t' ch C T F.
  - cbn in C. destruct (empty (hget h t)); injection C as <- <- <-; assumption.
  - assert (T' : tight_texts l) by (intros x I; apply T; now right). destruct (is_text c) eqn:E.
    + destruct c; try discriminate E. rewrite collect_text in C. apply IH in C; auto. apply happ_tight; [assumption|]. apply T. now left.
    + rewrite collect_rest in C by assumption. destruct (empty (hget h t)); apply IH in C; auto. now apply alloc_tight.
Qed.
Lemma merge_into_tight : forall l h pt na t acc h' ch, merge_into l h pt na t acc = (h', ch) -> Forall tight h -> Forall tight h'.
Proof.
  induction l as [|c l IH]; intros h pt na t acc h' ch M F.
  - cbn in M. destruct (empty (hget h pt)); [|destruct na]; injection M as <- <-; auto.
  - destruct c as [a|c]; cbn [merge_into] in M.
    + destruct (empty (hget h a)); [eauto|]. eapply IH; [exact M|]. apply happ_tight; [assumption|]. now apply hget_tight.
    + destruct (empty (hget h pt)); [eauto|]. unfold halloc in M. eapply IH; [exact M|]. now apply alloc_tight.
Qed.
Definition plain_item (i : mitem) : Prop := match i with MRun r => runR_space r = "" | MPass _ => True end.
Definition plain_state (s : mstate) : Prop := Forall plain_item (ms_items s) /\ Forall tight (ms_heap s).
Lemma plain_split : forall s, Forall plain_item (ms_items s) <-> Forall plain_item (ms_before s) /\ Forall plain_item (ms_after s) /\ forall r, ms_prev s = Some r -> runR_space r = "".
Proof.
  intros s. unfold ms_items. destruct (ms_prev s) as [r|].
  - rewrite Forall_app. split.
    + intros [A B]. inversion B; subst. repeat split; auto. intros r' [= <-]. assumption.
    + intros (A & B & C). split; [assumption|]. constructor; [cbn; auto|assumption].
  - rewrite Forall_app. split; [intros [A B]; repeat split; auto; discriminate|tauto].
Qed.
Lemma merge_run_plain : forall f o s s', merge_run f o s = Ok s' -> runR_space o = "" -> tight_texts (runR_children o) -> plain_state s -> plain_state s'.
Proof.
  intros f o s s' M O1 O2 [C H]. unfold merge_run, halloc in M. destruct (collect _ _ _ _) as [[h t] ch] eqn:E.
  pose proof (collect_tight _ _ _ _ _ _ _ E O2 (alloc_tight _ H)) as T.
  assert (P : plain_state (mk_mstate (ms_items s) (Some (mk_runR (runR_space o) (runR_rpr o) (runR_instr o) ch)) [] h)).
  { split; [|exact T]. apply plain_split. cbn. repeat split; [exact C|constructor|]. intros r [= <-]. exact O1. }
  destruct (ms_prev s) as [pr|] eqn:Pr; [|injection M as <-; exact P].
  destruct (f _ _) as [[]|e|]; [|injection M as <-; exact P|discriminate M|discriminate M].
  destruct (last_cell _ _) as [[h1 pt] na] eqn:LC. destruct (merge_into _ _ _ _ _ _) as [h2 ch'] eqn:I. injection M as <-.
  apply plain_split in C as (A & B & D). split.
  - apply plain_split. cbn [ms_before ms_after ms_prev]. repeat split; auto. intros r [= <-]. exact (D _ Pr).
  - cbn [ms_heap]. eapply merge_into_tight; [exact I|]. unfold last_cell, halloc in LC. destruct (last _ _) as [[?|?]|]; injection LC as <- <- <-; auto using alloc_tight.
Qed.
Lemma merge_loop_plain : forall f l s s', merge_loop f l s = Ok s' -> plain_runs l -> plain_state s -> plain_state s'.
Proof.
  intros f. induction l as [|c l IH]; intros s s' M R C; cbn [merge_loop] in M; [injection M as <-; exact C|].
  assert (R' : plain_runs l) by (intros r I; apply R; now right).
  assert (Q : plain_state (mk_mstate (ms_before s) (ms_prev s) (ms_after s ++ [MPass c])%list (ms_heap s))).
  { destruct C as [C H]. split; [|exact H]. apply plain_split in C as (A & B & D). apply plain_split. cbn. repeat split; auto. apply Forall_app. split; [assumption|]. constructor; [exact I|constructor]. }
  destruct c; [|eapply IH; [exact M|assumption|exact Q]..].
  destruct (merge_run f r s) as [s1| |] eqn:E; try discriminate M. cbn in M. eapply IH; [exact M|assumption|].
  destruct (R r (or_introl eq_refl)). eapply merge_run_plain; eauto.
Qed.
Lemma merge_plain : forall f p p', merge_text f p = Ok p' -> plain_runs (para_children p) -> plain_runs (para_children p').
Proof.
  intros f p p' M R. unfold merge_text in M. destruct (merge_loop _ _ _) as [s| |] eqn:E; try discriminate M. cbn in M. injection M as <-.
  pose proof (merge_loop_clean _ _ _ _ E (Forall_nil _)) as C. apply merge_loop_plain in E as [P T]; [|assumption|split; constructor].
  intros r I. change (In (PRun r) (map (look_item (ms_heap s)) (ms_items s))) in I. apply in_map_iff in I as (i & Hi & Ii).
  apply (proj1 (Forall_forall _ _) P) in Ii as Pi. apply (proj1 (Forall_forall _ _) C) in Ii as Ci. destruct i as [q|c]; cbn in Hi; [|subst c; discriminate Ci]. injection Hi as <-.
  split; [exact Pi|]. intros x J. change (In (RText x) (map (look_child (ms_heap s)) (runR_children q))) in J. apply in_map_iff in J as (m & Hm & Im).
  apply (proj1 (Forall_forall _ _) Ci) in Im. destruct m as [a|c]; cbn in Hm; [injection Hm as <-; now apply hget_tight|]. subst c. discriminate Im.
Qed.
Definition piece_seen (x : piece) : string :=
  match x with Ch a => String a "" | Obj c => shown false false (m_rchild c) | Lnk id r => shown false false (m_pchild (PLink id r)) end.
Lemma chars_seen : forall s, sconcat (map piece_seen (chars s)) = s.
Proof. induction s as [|a s IH]; [reflexivity|]. cbn [chars map piece_seen sconcat append]. now rewrite IH. Qed.
Lemma run_seen : forall r, runR_space r = "" -> tight_texts (runR_children r) -> shown false false (m_runR m_rchild r) = sconcat (map piece_seen (run_pieces r)).
Proof.
  intros r S T. rewrite shown_run, S. change (keeps false (ato (xml_ "space") "")) with false. unfold run_pieces. induction (runR_children r) as [|c l IH]; [reflexivity|].
  cbn [map flat_map sconcat]. rewrite map_app, sconcat_app, IH by (intros x I; apply T; now right). f_equal.
  destruct c as [t| | |]; try (cbn [child_pieces map sconcat piece_seen]; now rewrite sapp_nil_r). cbn [child_pieces m_rchild]. rewrite chars_seen, shown_text.
  destruct (false || _); [reflexivity|]. apply trim_same. apply T. now left.
Qed.
Lemma para_seen : forall p, plain_runs (para_children p) -> seen (m_para p) = sconcat (map piece_seen (pieces p)).
Proof.
  intros p R. unfold seen. rewrite shown_para. unfold pieces. induction (para_children p) as [|c l IH]; [reflexivity|].
  cbn [map flat_map sconcat]. rewrite map_app, sconcat_app, IH by (intros r I; apply R; now right). f_equal.
  destruct c as [r|id r|q].
  - destruct (R r (or_introl eq_refl)). now apply run_seen.
  - cbn [pchild_pieces map sconcat]. now rewrite sapp_nil_r.
  - reflexivity.
Qed.
Lemma merge_seen : forall f p p', mergeable None (para_children p) = true -> plain_runs (para_children p) -> merge_text f p = Ok p' ->
  seen (m_para p') = seen (m_para p).
Proof.
  intros f p p' G R M. rewrite (para_seen p R), (para_seen p' (merge_plain _ _ _ M R)).
  now rewrite (merge_pieces _ _ _ G M).
Qed.
