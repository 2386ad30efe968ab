(** The text of a loaded document. *)
From Coq Require Import String Ascii List Bool Arith NArith ZArith Lia.
From Verif Require Import GoStr Num Lib Types XmlTok Unmarshal Docx Text DecLemmas SpecXml XmlFacts SpecStrict StrictFacts StrictFacts2 SpecRead.
Import ListNotations.
Local Open Scope string_scope.
Local Open Scope list_scope.

(** ** small decoders *)

Lemma first_get : forall n a, first_value n a = get_att a n.
Proof.
  intros n a. unfold first_value. induction a as [|[q v] a IH]; [reflexivity|]. cbn [find get_att fst snd].
  destruct (String.eqb (snd q) n); [reflexivity|exact IH].
Qed.
Lemma supported_get : forall q a, supported q a =
  (String.eqb (snd q) "Choice" && (String.eqb (get_att a "Requires") "wps" || String.eqb (get_att a "Requires") "wpc" || String.eqb (get_att a "Requires") "wpg"))%bool.
Proof. intros. unfold supported. rewrite first_get. cbn [existsb]. now rewrite orb_false_r, orb_assoc. Qed.

Lemma text_tree : forall t s k, text_loop s (toks t ++ k) = text_loop (set_text_text (last_in (text_text s) t) s) k.
Proof.
  induction t as [q a c F|x|] using tree_ind'; intros s k.
  - rewrite toks_elem. cbn [text_loop].
    assert (G : forall s k, text_loop s (ftoks c ++ k) = text_loop (set_text_text (fold_left last_in c (text_text s)) s) k).
    { clear -F. induction F as [|t c Ht F IH]; intros s k.
      - cbn. now destruct s.
      - rewrite ftoks_cons, <- app_assoc, Ht, IH. cbn. now destruct s. }
    rewrite G. reflexivity.
  - cbn. now destruct s.
  - cbn. now destruct s.
Qed.
Lemma text_forest : forall c s k, text_loop s (ftoks c ++ k) = text_loop (set_text_text (fold_left last_in c (text_text s)) s) k.
Proof.
  induction c as [|t c IH]; intros s k; [cbn; now destruct s|]. rewrite ftoks_cons, <- app_assoc, text_tree, IH. cbn. now destruct s.
Qed.

Lemma str_forest : forall c n acc q k x ts', str_n n acc (ftoks c ++ TEnd q :: k) = (x, SOk, ts') -> x = (acc ++ chardata c)%string /\ ts' = k.
Proof.
  induction c as [|t c IH]; intros n acc q k x ts' E; (destruct n as [|n]; [discriminate|]).
  - cbn in E. injection E as <- <-. cbn. now rewrite sapp_nil_r.
  - rewrite ftoks_cons, <- app_assoc in E. destruct t as [q1 a1 c1|s|].
    + rewrite toks_elem in E. cbn [str_n] in E. rewrite skip_forest in E. cbn [chardata]. eauto.
    + cbn [toks app str_n] in E. apply IH in E. destruct E as [-> ->]. cbn [chardata]. split; [|reflexivity]. now rewrite sapp_assoc.
    + cbn [toks app str_n] in E. cbn [chardata]. eauto.
Qed.

(** ** streams of the run loop: forests with the end elements that follow them *)
Lemma wfm_closes : forall ls qs K k, length ls = length qs -> wfm K k -> wfm (map (fun _ => false) qs ++ K) (closes ls qs ++ k).
Proof.
  induction ls as [|l ls IH]; intros [|q qs] K k L W; try discriminate; [exact W|]. cbn [closes map app]. rewrite <- app_assoc. cbn [app].
  apply wfm_forest. constructor. apply IH; [now injection L|exact W].
Qed.
(** the same with the mark behind the last end element *)
Fixpoint stack (ls : list (list tree)) (qs : list qname) (k : list token) : list token :=
  match ls, qs with
  | l :: ls', q :: qs' => ftoks l ++ TEnd q :: stack ls' qs' k
  | _, _ => TEof :: k
  end.
Lemma wfm_stack : forall ls qs K k, length ls = length qs -> ls <> [] -> wfm K k ->
  exists K', wfm K' (stack ls qs k).
Proof.
  induction ls as [|l ls IH]; intros [|q qs] K k L N W; try discriminate; [now elim N|]. cbn [stack]. injection L as L.
  destruct ls as [|l' ls].
  - destruct qs; [|discriminate]. cbn [stack]. exists (true :: K). apply wfm_forest. now constructor.
  - destruct (IH qs K k L) as [K' W']; [discriminate|exact W|]. exists (false :: K'). apply wfm_forest. now constructor.
Qed.

Section Run.
Context `{GoLib}.

Definition add_one (b : bit) (l : list rchild) : Prop :=
  match b, l with
  | BText s, [RText t] => text_text t = s
  | BTab, [RTab _] => True
  | BBreak, [RBr _] => True
  | BDrawing, [RDraw _ _] => True
  | BInstr _, [] => True
  | _, _ => False
  end.
Inductive adds_to : list bit -> list rchild -> Prop :=
| at_end : adds_to [] []
| at_one : forall b bs l l', add_one b l -> adds_to bs l' -> adds_to (b :: bs) (l ++ l').
Lemma adds_app : forall a l b l', adds_to a l -> adds_to b l' -> adds_to (a ++ b) (l ++ l').
Proof. intros a l b l' A B. induction A as [|x bs m m' O A IH]; [exact B|]. cbn [app]. rewrite <- app_assoc. now constructor. Qed.

(** the state of a run after some bits *)
Definition adds (s : run) (bs : list bit) (s' : run) : Prop :=
  runR_instr s' = last_instr (runR_instr s) bs /\ exists l, runR_children s' = runR_children s ++ l /\ adds_to bs l.
Lemma adds_none : forall s s', runR_instr s' = runR_instr s -> runR_children s' = runR_children s -> adds s [] s'.
Proof. intros s s' E1 E2. split; [exact E1|]. exists []. rewrite app_nil_r. split; [exact E2|constructor]. Qed.
Lemma adds_trans : forall s a s1 b s2, adds s a s1 -> adds s1 b s2 -> adds s (a ++ b) s2.
Proof.
  intros s a s1 b s2 [E1 [l [E2 A]]] [E3 [l' [E4 B]]]. split.
  - rewrite E3, E1. unfold last_instr. now rewrite fold_left_app.
  - exists (l ++ l'). rewrite E4, E2, app_assoc. split; [reflexivity|]. now apply adds_app.
Qed.
Lemma adds_child : forall s b c, (forall x, b <> BInstr x) -> add_one b [c] -> adds s [b] (add_child c s).
Proof.
  intros s b c N O. split.
  - destruct b; try reflexivity. now elim (N s0).
  - exists [c]. split; [reflexivity|]. change [c] with ([c] ++ [])%list. constructor; [exact O|constructor].
Qed.

Lemma pchildh_exact : forall {A} (u : list attr -> list token -> out A) (cn : A -> rchild) s q a c k K s' ts',
  uS (snd q) u -> attrs_numeric (snd q) a -> numeric (ftoks c ++ TEnd q :: k) -> wfm K k ->
  pchildh u cn s a (ftoks c ++ TEnd q :: k) = (s', SOk, ts') ->
  ts' = k /\ exists x, s' = add_child (cn x) s /\ exists r, u a (ftoks c ++ TEnd q :: TEof :: k) = (x, SOk, r).
Proof.
  intros A u cn s q a c k K s' ts' Hu An N W E.
  assert (E' : decode (u a) (fun x => add_child (cn x)) s (ftoks c ++ TEnd q :: k) = (s', SOk, ts')).
  { unfold pchildh in E. unfold decode. destruct (sub (u a) (ftoks c ++ TEnd q :: k)) as [[x st] t1]. destruct st; try discriminate. exact E. }
  eapply decode_exact in E'; eauto.
Qed.

Section Knot.
Variable D : decs.
Hypothesis DP : forall l f, uS l (d_para D f).
Hypothesis DC : forall l f, uS l (d_canvas D f).
Hypothesis DG : forall l f, uS l (d_group D f).
Variable f : option nat.

Definition all_bits (ls : list (list tree)) : list bit := flat_map (flat_map bits) ls.
Definition all_tidy (ls : list (list tree)) : Prop := Forall (Forall tidy) ls.

Lemma tidy_kids : forall q a c, tidy (Elem q a c) -> Forall tidy c.
Proof. intros q a c [_ T]. revert T. induction c as [|t c IH]; intros T; [constructor|]. destruct T as [T1 T2]. constructor; auto. Qed.

(** one step of the loop *)
Definition stepped (k : list token) (s : run) (t : tree) ls (s' : run) ts' : Prop :=
  exists b ls' qs', length ls' = length qs' /\ ls' <> [] /\ ts' = stack ls' qs' k /\ all_tidy ls' /\ adds s b s' /\
    b ++ all_bits ls' = bits t ++ all_bits ls.

Lemma numeric_cut : forall c q k, numeric (ftoks c ++ TEnd q :: k) -> numeric k.
Proof. intros c q k N. apply numeric_app in N. exact (numeric_tl _ _ N). Qed.

Lemma run_step : forall n s q a c ls qs k K s' ts', length ls = length qs -> ls <> [] -> tidy (Elem q a c) -> all_tidy ls ->
  attrs_numeric (snd q) a -> numeric (ftoks c ++ TEnd q :: stack ls qs k) -> wfm K k ->
  run_parse D f n s (snd q) a (ftoks c ++ TEnd q :: stack ls qs k) = (s', SOk, ts') ->
  stepped k s (Elem q a c) ls s' ts'.
Proof.
  induction n as [|n IHn]; intros s q a c ls qs k K s' ts' Hl Hn T TL An N W E; [discriminate|].
  destruct (wfm_stack ls qs K k Hl Hn W) as [K' W']. cbn [run_parse] in E. unfold eswitch in E. cbn [switch] in E.
  assert (SAME : forall s1, adds s (bits (Elem q a c)) s1 -> stepped k s (Elem q a c) ls s1 (stack ls qs k)).
  { intros s1 A. exists (bits (Elem q a c)), ls, qs. auto 8. }
  destruct (String.eqb (snd q) "rPr") eqn:E1.
  { unfold childo, child in E. eapply decode_exact in E; [|apply String.eqb_eq in E1; rewrite E1; apply s_rpr|exact An|exact N|exact W'].
    destruct E as [-> [x [-> _]]]. apply SAME. apply String.eqb_eq in E1. cbn [bits]. rewrite E1. cbn [String.eqb Ascii.eqb Bool.eqb]. now apply adds_none. }
  destruct (String.eqb (snd q) "instrText") eqn:E2.
  { destruct (str (ftoks c ++ TEnd q :: stack ls qs k)) as [[x st] t1] eqn:Es. destruct st; try discriminate.
    - injection E as <- <-. apply str_forest in Es. destruct Es as [-> ->]. apply SAME. apply String.eqb_eq in E2. cbn [bits]. rewrite E2. cbn [String.eqb Ascii.eqb Bool.eqb].
      split; [reflexivity|]. exists []. rewrite app_nil_r. split; [reflexivity|]. change (@nil rchild) with (@nil rchild ++ [])%list. constructor; [exact I|constructor].
    - pose proof (str_S (ftoks c ++ TEnd q :: stack ls qs k)) as S. rewrite Es in S. destruct S. }
  destruct (String.eqb (snd q) "t") eqn:E3.
  { eapply pchildh_exact in E; [|apply s_text|exact An|exact N|exact W']. destruct E as [-> [x [-> [r E]]]]. apply SAME. cbn [bits]. rewrite E3.
    apply adds_child; [discriminate|]. cbn [add_one]. unfold u_text in E. rewrite text_forest in E. cbn [text_loop] in E. injection E as <- _.
    cbn. f_equal. clear. unfold attrs. enough (G : forall s, text_text (fst (attrs (aswitch [("space", av set_text_space)]) s a)) = text_text s) by (rewrite G; reflexivity).
    induction a as [|[q v] a IH]; intros s; [reflexivity|]. cbn [attrs]. unfold aswitch at 1. cbn [switch]. destruct (String.eqb (snd q) "space").
    + unfold av. rewrite IH. reflexivity.
    + rewrite IH. reflexivity. }
  destruct (String.eqb (snd q) "drawing") eqn:E4.
  { eapply pchildh_exact in E; [|apply s_drawing; assumption|exact An|exact N|exact W']. destruct E as [-> [x [-> _]]]. apply SAME.
    apply String.eqb_eq in E4. cbn [bits]. rewrite E4. cbn [String.eqb Ascii.eqb Bool.eqb]. apply adds_child; [discriminate|exact I]. }
  destruct (String.eqb (snd q) "tab") eqn:E5.
  { unfold flat in E. injection E as <- <-. exists [BTab], (c :: ls), (q :: qs). split; [cbn; congruence|]. split; [discriminate|]. split; [reflexivity|].
    split; [constructor; [now apply tidy_kids in T|exact TL]|]. split; [apply adds_child; [discriminate|exact I]|].
    apply String.eqb_eq in E5. cbn [bits]. rewrite E5. cbn [String.eqb Ascii.eqb Bool.eqb]. reflexivity. }
  destruct (String.eqb (snd q) "br") eqn:E6.
  { eapply pchildh_exact in E; [|apply s_br|exact An|exact N|exact W']. destruct E as [-> [x [-> _]]]. apply SAME.
    apply String.eqb_eq in E6. cbn [bits]. rewrite E6. cbn [String.eqb Ascii.eqb Bool.eqb]. apply adds_child; [discriminate|exact I]. }
  destruct (String.eqb (snd q) "AlternateContent") eqn:E7.
  { cbn [bits] in *. 
    assert (B : bits (Elem q a c) = (fix alt l := match l with
                      | [] => []
                      | Elem q' a' c' :: l' => if supported q' a' then flat_map bits c' ++ flat_map bits l' else alt l'
                      | _ :: l' => alt l'
                      end) c).
    { apply String.eqb_eq in E7. cbn [bits]. rewrite E7. reflexivity. }
    unfold stepped. rewrite B. clear B SAME.
    assert (LD : led c) by (destruct T as [T _]; apply T; now apply String.eqb_eq).
    apply tidy_kids in T. revert LD T N E. generalize (S (size (ftoks c ++ TEnd q :: stack ls qs k))) as m.
    induction c as [|t c IHc]; intros m LD T N E; (destruct m as [|m]; [discriminate|]).
    - cbn [ftoks flat_map app alt_loop] in E. rewrite E7 in E. injection E as <- <-. exists [], ls, qs. repeat (split; auto). now apply adds_none.
    - destruct t as [q1 a1 c1|x|]; [|destruct LD|destruct LD]. inversion T as [|? ? T1 T2]; subst.
      rewrite ftoks_cons, <- app_assoc in E, N. rewrite toks_elem in E, N. cbn [alt_loop] in E. rewrite <- supported_get in E. cbn [led] in LD.
      destruct (supported q1 a1) eqn:S1.
      + apply tidy_kids in T1. clear IHc. destruct c1 as [|t1 c1].
        { cbn [ftoks flat_map app] in E. injection E as <- <-. exists [], (c :: ls), (q :: qs). cbn [flat_map app].
          split; [cbn; congruence|]. split; [discriminate|]. split; [reflexivity|]. split; [now constructor|]. split; [now apply adds_none|reflexivity]. }
        inversion T1 as [|? ? T3 T4]; subst. rewrite ftoks_cons in E, N. rewrite <- app_assoc in E, N. destruct t1 as [q2 a2 c2|x|].
        * rewrite toks_elem in E, N.
          apply (IHn s q2 a2 c2 (c1 :: c :: ls) (q1 :: q :: qs) k K s' ts') in E.
          -- destruct E as [b [ls' [qs' [L1 [L2 [L3 [L4 [L5 L6]]]]]]]]. exists b, ls', qs'. split; [exact L1|]. split; [exact L2|]. split; [exact L3|]. split; [exact L4|]. split; [exact L5|].
             rewrite L6. cbn [flat_map]. unfold all_bits. cbn [flat_map]. now rewrite !app_assoc.
          -- cbn. congruence.
          -- discriminate.
          -- exact T3.
          -- constructor; [exact T4|]. now constructor.
          -- apply numeric_tl in N. exact (numeric_hd _ _ _ N).
          -- apply numeric_tl in N. apply numeric_tl in N. exact N.
          -- exact W.
        * cbn [toks app] in E. injection E as <- <-. exists [], (c1 :: c :: ls), (q1 :: q :: qs).
          split; [cbn; congruence|]. split; [discriminate|]. split; [reflexivity|]. split; [constructor; [exact T4|now constructor]|]. split; [now apply adds_none|].
          unfold all_bits. cbn [flat_map bits app]. now rewrite !app_assoc.
        * cbn [toks app] in E. injection E as <- <-. exists [], (c1 :: c :: ls), (q1 :: q :: qs).
          split; [cbn; congruence|]. split; [discriminate|]. split; [reflexivity|]. split; [constructor; [exact T4|now constructor]|]. split; [now apply adds_none|].
          unfold all_bits. cbn [flat_map bits app]. now rewrite !app_assoc.
      + rewrite skip_forest in E. destruct LD as [LD|LD]; [discriminate|]. apply (IHc m LD T2); [|exact E].
        apply numeric_tl in N. apply numeric_cut in N. exact N. }
  unfold skipping in E. rewrite skip_forest in E. injection E as <- <-. apply SAME. cbn [bits].
  rewrite E3, E5, E6, E4, E2, E7. now apply adds_none.
Qed.

Lemma run_loop : forall m s ls qs k K s' r, length ls = length qs -> all_tidy ls -> numeric (stack ls qs k) -> wfm K k ->
  loop_n m (fun s l a ts => run_parse D f (S (size ts)) s l a ts) s (stack ls qs k) = (s', SOk, r) -> adds s (all_bits ls) s'.
Proof.
  induction m as [|m IH]; intros s ls qs k K s' r Hl T N W E; [discriminate|].
  destruct ls as [|l ls]; destruct qs as [|q qs]; try discriminate Hl.
  - cbn in E. injection E as <- _. now apply adds_none.
  - injection Hl as Hl. inversion T as [|? ? Tl TL]; subst. cbn [stack] in E, N. destruct l as [|t l].
    + cbn [ftoks flat_map app loop_n] in E. cbn [ftoks flat_map app] in N. change (all_bits ([] :: ls)) with (all_bits ls).
      eapply IH; [exact Hl|exact TL|exact (numeric_tl _ _ N)|exact W|exact E].
    + inversion Tl as [|? ? T1 T2]; subst. rewrite ftoks_cons, <- app_assoc in E, N. destruct t as [q1 a1 c1|x|].
      * rewrite toks_elem in E, N. cbn [loop_n] in E.
        destruct (run_parse D f (S (size (ftoks c1 ++ TEnd q1 :: ftoks l ++ TEnd q :: stack ls qs k))) s (snd q1) a1 (ftoks c1 ++ TEnd q1 :: ftoks l ++ TEnd q :: stack ls qs k)) as [[s1 st] t1] eqn:Eh.
        destruct st; try discriminate.
        assert (G := run_parse_S D DP DC DG f (S (size (ftoks c1 ++ TEnd q1 :: ftoks l ++ TEnd q :: stack ls qs k))) s (snd q1) a1 (ftoks c1 ++ TEnd q1 :: ftoks l ++ TEnd q :: stack ls qs k)).
        rewrite Eh in G.
        assert (N1 := numeric_tl _ _ N). assert (A1 := numeric_hd _ _ _ N).
        apply (run_step _ s q1 a1 c1 (l :: ls) (q :: qs) k K s1 t1) in Eh; [|cbn; congruence|discriminate|exact T1|constructor; assumption|exact A1|exact N1|exact W].
        destruct Eh as [b [ls' [qs' [L1 [L2 [-> [L4 [L5 L6]]]]]]]].
        assert (N2 : numeric (stack ls' qs' k)).
        { destruct (wfm_stack (l :: ls) (q :: qs) K k) as [K' W']; [cbn; congruence|discriminate|exact W|].
          destruct (G K') as [pre [Ep _]]; [exact A1|exact N1|apply wfm_forest; now constructor|]. cbn [stack] in *. rewrite Ep in N1. now apply numeric_app in N1. }
        apply (IH _ _ _ _ K) in E; auto. replace (all_bits ((Elem q1 a1 c1 :: l) :: ls)) with (b ++ all_bits ls').
        -- eapply adds_trans; eauto.
        -- rewrite L6. unfold all_bits. cbn [flat_map]. now rewrite <- app_assoc.
      * cbn [toks app loop_n] in E, N. change (all_bits ((Chr x :: l) :: ls)) with (all_bits (l :: ls)).
        apply (IH s (l :: ls) (q :: qs) k K s' r); [cbn; congruence|constructor; assumption|exact (numeric_tl _ _ N)|exact W|exact E].
      * cbn [toks app loop_n] in E, N. change (all_bits ((Cmt :: l) :: ls)) with (all_bits (l :: ls)).
        apply (IH s (l :: ls) (q :: qs) k K s' r); [cbn; congruence|constructor; assumption|exact (numeric_tl _ _ N)|exact W|exact E].
Qed.

Lemma run_decoded : forall s q a c k K s' r, Forall tidy c -> numeric (ftoks c ++ TEnd q :: TEof :: k) -> wfm K k ->
  u_run D f s a (ftoks c ++ TEnd q :: TEof :: k) = (s', SOk, r) -> adds s (flat_map bits c) s'.
Proof.
  intros s q a c k K s' r T N W E. unfold u_run, attrs_loop in E.
  assert (G : forall a s, snd (attrs (aswitch [("space", av set_runR_space)]) s a) = SOk /\ adds s [] (fst (attrs (aswitch [("space", av set_runR_space)]) s a))).
  { clear. induction a as [|[q v] a IH]; intros s; [split; [reflexivity|now apply adds_none]|]. cbn [attrs]. unfold aswitch at 1 3. cbn [switch].
    destruct (String.eqb (snd q) "space"); unfold av; [|apply IH].
    destruct (IH (set_runR_space v s)) as [A B]. split; [exact A|]. apply (adds_trans s [] (set_runR_space v s) []); [now apply adds_none|exact B]. }
  destruct (G a s) as [G1 G2]. destruct (attrs (aswitch [("space", av set_runR_space)]) s a) as [s1 st]. cbn [fst snd] in *. subst st.
  apply (run_loop _ s1 [c] [q] k K s' r) in E; auto; [|constructor; [exact T|constructor]].
  unfold all_bits in E. cbn [flat_map] in E. rewrite app_nil_r in E. exact (adds_trans _ _ _ _ _ G2 E).
Qed.
End Knot.
End Run.
