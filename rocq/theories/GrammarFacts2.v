(** The grammar of the saved file. *)
From Coq Require Import String Ascii List Bool Arith NArith ZArith Lia Permutation.
From Verif Require Import GoStr Num Lib Types XmlTok Marshal Docx Lex Rels Pack SpecLex SpecPack SpecGrammar LexFacts LexFacts2 LexFacts3 DecLemmas RelsFacts PackFacts StableFacts2 PackFacts2 PackFacts3 GrammarOrder GrammarFacts.
Import ListNotations.
Local Open Scope string_scope.
Local Open Scope list_scope.

Lemma cleaned_fits : forall k n v v', fits k n v -> cleaned v v' -> fits k n v'.
Proof.
  intros [] [] v v' F (X & S & N); cbn [fits] in *; auto.
  - destruct F as (z & ->). rewrite S by apply xml_itoa. eauto.
  - destruct F as (z & -> & Z). rewrite S by apply xml_itoa. eauto.
Qed.
Lemma cleaned_attrs : forall l a a', attrs_fit l a -> Forall2 (fun x y : attr => fst x = fst y /\ cleaned (snd x) (snd y)) a a' -> attrs_fit l a'.
Proof.
  intros l a a' F. revert a'. induction F as [|q k n v l a Fv F IH|q k l a F IH]; intros a' C.
  - inversion C; subst. constructor.
  - inversion C as [|? [q' v'] ? a2 [E1 E2] C2]; subst. cbn [fst snd] in *. subst q'. apply af_here; [now apply (cleaned_fits k n v)|now apply IH].
  - apply af_skip. now apply IH.
Qed.
Lemma cleaned_slots : forall l c c', slots_fit l c -> Forall2 cleaned_tree c c' -> slots_fit l c'.
Proof.
  intros l c c' F. revert c'. induction F as [|ns n q a c l k I N F IH|ns q a c l k I F IH|ns n l k N F IH]; intros c' C.
  - inversion C; subst. constructor.
  - inversion C as [|? t' ? k' E2 C2]; subst. inversion E2; subst. apply sf_here; auto.
  - inversion C as [|? t' ? k' E2 C2]; subst. inversion E2; subst. apply sf_more; auto.
  - apply sf_skip; auto.
Qed.
Lemma cleaned_content : forall b x c c', content_fit b x c -> Forall2 cleaned_tree c c' -> content_fit b x c'.
Proof.
  assert (P : forall l c c', (exists d, Permutation c d /\ slots_fit l d) -> Forall2 cleaned_tree c c' -> exists d, Permutation c' d /\ slots_fit l d).
  { intros l c c' (d & P & S) F. destruct (Permutation_Forall2 P F) as (d' & P' & F'). exists d'. split; [exact P'|]. now apply (cleaned_slots l d). }
  intros b [l|l|[]] c c' F C; cbn [content_fit] in *.
  - destruct b; [now apply (P l c)|now apply (cleaned_slots l c)].
  - now apply (P l c).
  - destruct F as [->|(s & -> & N)]; inversion C as [|? t' ? k' E2 C2]; subst; [now left|]. inversion C2; subst. inversion E2; subst. right. eauto.
  - destruct F as (z & ->). inversion C as [|? t' ? k' E2 C2]; subst. inversion C2; subst. inversion E2 as [|s s' N (X & S & _)]; subst. exists z. now rewrite S by apply xml_itoa.
Qed.
Lemma cleaned_conforms : forall g lo t t', cleaned_tree t t' -> conforms g lo t -> conforms g lo t'.
Proof.
  intros g lo. induction t as [q a c F|s|] using tree_ind'; intros t' C K; inversion C as [? ? a' ? c' A B|]; subst; [|apply conf_chr].
  inversion K as [? ? ? r R Fa Fc Fk|]; subst. eapply conf_elem; [exact R|now apply (cleaned_attrs _ a)|now apply (cleaned_content _ _ c)|].
  clear -F B Fk. revert F Fk. induction B as [|t t' c c' C B IH]; intros F Fk; [constructor|]. inversion F; subst. inversion Fk; subst. constructor; auto.
Qed.
Theorem written_grammar : forall (b : bool) l, follows own_grammar [] (q_ "w" "document") (lex (write_xml (m_document_of (if b then doc_attrs else no_attrs) l))).
Proof.
  intros b l. destruct (lex_write_any (m_document_of (if b then doc_attrs else no_attrs) l)) as (t' & C & E); [unfold m_document_of; eauto|apply ok_document_of|].
  pose proof (cleaned_conforms _ _ _ _ C (g_document b l)) as K. unfold m_document_of in C. inversion C; subst. red. do 2 eexists. split; [exact E|exact K].
Qed.
Theorem part_grammar : forall d s, part_of d DOC_NAME s -> follows own_grammar [] (q_ "w" "document") (lex s).
Proof.
  intros d s P. assert (E : s = write_xml (m_docx d)).
  { inversion P as [A B|A B|n' y LM A B|n' c' LM F X1 X2 X3 A B]; subst; try reflexivity; try discriminate. now destruct X1. }
  rewrite E. apply written_grammar.
Qed.
Lemma part_standard : forall d s, part_of d DOC_NAME s -> follows grammar own_order (q_ "w" "document") (lex s).
Proof. intros d s P. destruct (part_grammar d s P) as (a & c & E & K). exists a, c. split; [assumption|]. now apply own_standard. Qed.
Lemma g_rels : forall g, conforms grammar [] (m_rels g).
Proof. intros g. unfold m_rels, m_rel. gram. apply Forall_map, Forall_forall. intros x _. gram. Qed.
Theorem rels_grammar : forall d s, part_of d RELS_NAME s -> follows grammar [] (q_ "" "Relationships") (lex s).
Proof.
  intros d s P. assert (E : s = write_xml (m_rels (d_reg d))).
  { inversion P as [A B|A B|n' y LM A B|n' c' LM F X1 X2 X3 A B]; subst; try reflexivity; try discriminate. now destruct X1. }
  rewrite E. destruct (lex_write_any (m_rels (d_reg d))) as (t' & C & K); [unfold m_rels; eauto|apply ok_rels|].
  pose proof (cleaned_conforms _ _ _ _ C (g_rels (d_reg d))) as G. unfold m_rels in C. inversion C; subst. red. do 2 eexists. split; [exact K|exact G].
Qed.

(** ** the order of the standard is not kept *)
Lemma toks_inj : forall t t' k k', toks t ++ k = toks t' ++ k' -> t = t' /\ k = k'.
Proof.
  induction t as [q a c F|s|] using tree_ind'; intros [q' a' c'|s'|] k k' E; try (cbn in E; discriminate).
  - rewrite !toks_elem in E. injection E as -> -> E.
    assert (G : forall c c' k k', Forall (fun t => forall t' k k', toks t ++ k = toks t' ++ k' -> t = t' /\ k = k') c ->
      ftoks c ++ TEnd q' :: k = ftoks c' ++ TEnd q' :: k' -> c = c' /\ k = k').
    { clear. induction c as [|t c IH]; intros c' k k' F E.
      - destruct c' as [|t' c']; [injection E as ->; auto|]. destruct t'; discriminate.
      - inversion F as [|? ? F1 F2]; subst. destruct c' as [|t' c']; [destruct t; discriminate|].
        change (ftoks (t :: c)) with (toks t ++ ftoks c) in E. change (ftoks (t' :: c')) with (toks t' ++ ftoks c') in E. rewrite <- !app_assoc in E. apply F1 in E as [-> E].
        destruct (IH c' k k' F2 E) as [-> ->]. auto. }
    destruct (G _ _ _ _ F E) as [-> ->]. auto.
  - cbn in E. injection E as -> ->. auto.
  - cbn in E. injection E as ->. auto.
Qed.
Lemma follows_tree : forall g lo q ts t, ts = TMisc :: TChar (String "010" "") :: toks t -> follows g lo q ts -> conforms g lo t.
Proof.
  intros g lo q ts t E (a & c & E' & K). rewrite E in E'. assert (E2 : toks t = toks (Elem q a c)) by congruence. clear E E'. rename E2 into E'.
  rewrite <- (app_nil_r (toks t)), <- (app_nil_r (toks (Elem q a c))) in E'. now apply toks_inj in E' as [-> _].
Qed.
(** a path to a node *)
Fixpoint sub_at (p : list nat) (t : tree) : option tree :=
  match p, t with
  | [], _ => Some t
  | i :: p', Elem _ _ c => match nth_error c i with Some x => sub_at p' x | None => None end
  | _, _ => None
  end.
Lemma conforms_at : forall g lo p t x, conforms g lo t -> sub_at p t = Some x -> conforms g lo x.
Proof.
  intros g lo. induction p as [|i p IH]; intros t x K E; cbn in E; [now injection E as <-|]. destruct t as [q a c| |]; try discriminate.
  destruct (nth_error c i) as [y|] eqn:N; [|discriminate]. inversion K as [? ? ? r R Fa Fc Fk|]; subst. rewrite Forall_forall in Fk. apply (IH y); auto. apply Fk. eapply nth_error_In; eauto.
Qed.
Lemma slots_of : forall g lo q a c r l, conforms g lo (Elem q a c) -> rule_of g q = Some r -> r_content r = Seq l ->
  existsb (fun k => String.eqb (fst k) (fst q) && String.eqb (snd k) (snd q)) lo = false -> slots_fit l c.
Proof. intros g lo q a c r l K R S N. inversion K as [? ? ? r' R' Fa Fc Fk|]; subst. rewrite R in R'. injection R' as <-. rewrite S, N in Fc. exact Fc. Qed.
Theorem package_grammar : forall d ar, writes d (Ok ar) ->
  (forall s, In (DOC_NAME, Some s) ar -> follows grammar own_order (q_ "w" "document") (lex s)) /\ (forall s, In (RELS_NAME, Some s) ar -> follows grammar [] (q_ "" "Relationships") (lex s)).
Proof.
  intros d ar W. destruct (written_parts d ar W) as (_ & G). split; intros s I; apply G in I as (x & E & P); injection E as <-; [now apply part_standard in P|now apply rels_grammar in P].
Qed.
(** ** exactly *)
Theorem package_order : forall d ar, writes d (Ok ar) -> forall s, In (DOC_NAME, Some s) ar -> follows own_grammar [] (q_ "w" "document") (lex s).
Proof. intros d ar W s I. destruct (written_parts d ar W) as (_ & G). apply G in I as (x & E & P). injection E as <-. now apply part_grammar in P. Qed.
Theorem package_exactly : forall d ar, writes d (Ok ar) -> forall s, In (DOC_NAME, Some s) ar ->
  exists t, lex s = TMisc :: TChar (String "010" "") :: toks t /\ (follows grammar [] (q_ "w" "document") (lex s) <-> no_exchange t).
Proof.
  intros d ar W s I. destruct (package_order d ar W s I) as (a & c & E & K). exists (Elem (q_ "w" "document") a c). split; [assumption|].
  rewrite <- (standard_exactly _ K). split.
  - intros F. eapply follows_tree; eauto.
  - intros F. exists a, c. auto.
Qed.
