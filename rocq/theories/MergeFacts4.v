(** MergeText as a whole. *)
From Coq Require Import String Ascii List Bool Arith NArith ZArith Lia.
From Verif Require Import GoStr Num Lib Types Docx Text Merge SpecApi SpecMerge MergeFacts MergeFacts2 MergeFacts3.
Import ListNotations.
Local Open Scope list_scope.
Local Open Scope string_scope.

Definition pass (c : pchild) (s : mstate) : mstate :=
  mk_mstate (ms_before s) (ms_prev s) (ms_after s ++ [MPass c])%list (ms_heap s).
Lemma items_pass : forall c s, ms_items (pass c s) = (ms_items s ++ [MPass c])%list.
Proof. intros c [b [r|] a h]; unfold ms_items, pass; cbn; rewrite <- ?app_assoc; reflexivity. Qed.
Lemma good_pass : forall c s, good (ms_items s) (ms_heap s) -> good (ms_items (pass c s)) (ms_heap (pass c s)).
Proof.
  intros c s [N G]. unfold good. rewrite items_pass, icells_app. cbn [icells flat_map icell app]. rewrite app_nil_r. auto.
Qed.
Lemma ipieces_pass : forall c s, ipieces (ms_heap (pass c s)) (ms_items (pass c s)) = (ipieces (ms_heap s) (ms_items s) ++ pchild_pieces c)%list.
Proof. intros. rewrite items_pass, ipieces_app. unfold ipieces at 2. cbn. now rewrite app_nil_r. Qed.
Lemma loop_pass : forall f c l s, is_run c = false -> merge_loop f (c :: l) s = merge_loop f l (pass c s).
Proof. intros f [] l s E; try discriminate E; reflexivity. Qed.

Lemma loop_no_runs : forall f l s s', forallb (fun c => negb (is_run c)) l = true -> merge_loop f l s = Ok s' ->
  ipieces (ms_heap s') (ms_items s') = (ipieces (ms_heap s) (ms_items s) ++ flat_map pchild_pieces l)%list.
Proof.
  induction l as [|c l IH]; intros s s' F M.
  - injection M as <-. cbn. now rewrite app_nil_r.
  - cbn [forallb] in F. apply andb_prop in F as [R F]. apply negb_true_iff in R.
    rewrite loop_pass in M by exact R. rewrite (IH _ _ F M), ipieces_pass, <- app_assoc. reflexivity.
Qed.

Definition linked (e : option bool) (s : mstate) : Prop :=
  match e, ms_prev s with
  | None, None => True
  | Some e, Some pr => ipieces (ms_heap s) (ms_after s) = [] /\ (e = true -> ends_cell (runR_children pr))
  | _, _ => False
  end.

Lemma loop_pieces : forall f l e s s', mergeable e l = true -> good (ms_items s) (ms_heap s) -> linked e s -> merge_loop f l s = Ok s' ->
  ipieces (ms_heap s') (ms_items s') = (ipieces (ms_heap s) (ms_items s) ++ flat_map pchild_pieces l)%list.
Proof.
  induction l as [|c l IH]; intros e s s' F G LK M.
  - injection M as <-. cbn. now rewrite app_nil_r.
  - destruct (is_run c) eqn:R.
    + destruct c as [o| |]; try discriminate R. cbn [mergeable] in F. apply andb_prop in F as [HL F].
      cbn [merge_loop] in M. destruct (merge_run f o s) as [s1| |] eqn:M1; cbn [bind] in M; try discriminate M.
      assert (H : good (ms_items s1) (ms_heap s1) /\ linked (Some (ends_text false (runR_children o))) s1 /\
                  ipieces (ms_heap s1) (ms_items s1) = (ipieces (ms_heap s) (ms_items s) ++ run_pieces o)%list).
      { unfold merge_run in M1. cbn [halloc] in M1.
        destruct (collect (runR_children o) (ms_heap s ++ [""])%list (length (ms_heap s)) []) as [[h t] ch] eqn:C.
        set (r := mk_runR (runR_space o) (runR_rpr o) (runR_instr o) ch) in *.
        assert (PUSH : forall s2, Ok (mk_mstate (ms_items s) (Some r) [] h) = Ok s2 ->
            good (ms_items s2) (ms_heap s2) /\ linked (Some (ends_text false (runR_children o))) s2 /\
            ipieces (ms_heap s2) (ms_items s2) = (ipieces (ms_heap s) (ms_items s) ++ run_pieces o)%list).
        { intros s2 K. injection K as <-.
          destruct (push_good o s h t ch r G C eq_refl) as (G' & _ & _ & P).
          split; [exact G'|]. split; [|exact P]. cbn. split; [reflexivity|]. intros E.
          destruct (collect_ends (runR_children o) (ms_heap s ++ [""])%list (length (ms_heap s)) [] h t ch) as [c0 ->].
          - rewrite app_length. cbn. lia.
          - rewrite halloc_get, hget_over by lia. exact E.
          - exact C.
          - now exists c0, t. }
        destruct (ms_prev s) as [pr|] eqn:Ep; [|now apply PUSH].
        destruct (f (look_run h pr) (look_run h r)) as [[|]| |]; try discriminate M1; [|now apply PUSH].
        destruct (last_cell (runR_children pr) h) as [[h1 pt] na] eqn:LC.
        destruct (merge_into ch h1 pt na t (runR_children pr)) as [h2 ch'] eqn:MI.
        injection M1 as <-.
        unfold linked in LK. rewrite Ep in LK. destruct e as [e|]; [|contradiction]. destruct LK as [PA EC].
        unfold ms_items in G |- *. rewrite Ep in G |- *. cbn [ms_prev ms_before ms_after ms_heap].
        destruct (merge_good e o (ms_before s) pr (ms_after s) (ms_heap s) h t ch h1 pt na h2 ch' G PA EC HL C LC MI) as (G' & PA' & P & EC').
        split; [exact G'|]. split; [|exact P]. cbn. auto. }
      destruct H as (G1 & L1 & P1). rewrite (IH _ _ _ F G1 L1 M), P1, <- app_assoc. reflexivity.
    + rewrite loop_pass in M by exact R. destruct c as [o|id r|q]; try discriminate R.
      * cbn [mergeable] in F. destruct e as [e|].
        -- rewrite (loop_no_runs _ _ _ _ F M), ipieces_pass, <- app_assoc. reflexivity.
        -- rewrite (IH None (pass (PLink id r) s) s' F); [|now apply good_pass|exact LK|exact M].
           rewrite ipieces_pass, <- app_assoc. reflexivity.
      * cbn [mergeable] in F.
        rewrite (IH e (pass (PRPr q) s) s' F); [| |  |exact M].
        -- rewrite ipieces_pass, <- app_assoc. reflexivity.
        -- now apply good_pass.
        -- unfold linked in *. cbn [pass ms_prev ms_heap ms_after]. destruct e, (ms_prev s); try contradiction; auto.
           destruct LK as [PA EC]. split; [|exact EC]. rewrite ipieces_app, PA. reflexivity.
Qed.

Lemma pieces_look : forall h l, flat_map pchild_pieces (map (look_item h) l) = ipieces h l.
Proof. intros. unfold ipieces. rewrite flat_map_concat_map, map_map, <- flat_map_concat_map. reflexivity. Qed.

Lemma merge_pieces : forall f p p', mergeable None (para_children p) = true -> merge_text f p = Ok p' -> pieces p' = pieces p.
Proof.
  intros f p p' F M. unfold merge_text in M.
  destruct (merge_loop f (para_children p) _) as [s| |] eqn:E; cbn [bind] in M; try discriminate M.
  injection M as <-. transitivity (flat_map pchild_pieces (map (look_item (ms_heap s)) (ms_items s))); [reflexivity|]. rewrite pieces_look.
  assert (G0 : good (ms_items (mk_mstate [] None [] [])) (ms_heap (mk_mstate [] None [] []))) by (split; [constructor|intros a []]).
  rewrite (loop_pieces _ _ _ _ _ F G0 I E). reflexivity.
Qed.

(** ** the text is a function of the pieces *)
Section Strings.
Context (L : GoLib).
Definition piece_string (w : world) (f : option nat) (x : piece) : res string :=
  match x with
  | Ch a => Ok (String a "")
  | Obj c => rchild_string w c
  | Lnk id r => pchild_string w f (PLink id r)
  end.
Lemma rconcat_app : forall A (g : A -> res string) a b, rconcat g (a ++ b)%list =
  bind (rconcat g a) (fun x => bind (rconcat g b) (fun y => Ok (x ++ y))).
Proof.
  intros A g. induction a as [|x a IH]; intros b; cbn [rconcat app].
  - cbn [bind]. destruct (rconcat g b); reflexivity.
  - destruct (g x) as [s| |]; cbn [bind]; try reflexivity. rewrite IH.
    destruct (rconcat g a) as [t| |]; cbn [bind]; try reflexivity.
    destruct (rconcat g b) as [u| |]; cbn [bind]; try reflexivity.
    f_equal. clear. induction s; cbn; congruence.
Qed.
Lemma rconcat_flat : forall A B (g : A -> res string) (h : B -> res string) (k : A -> list B),
  (forall x, g x = rconcat h (k x)) -> forall l, rconcat g l = rconcat h (flat_map k l).
Proof.
  intros A B g h k E. induction l as [|x l IH]; [reflexivity|]. cbn [rconcat flat_map].
  rewrite rconcat_app, <- IH, <- E. reflexivity.
Qed.
Lemma rconcat_chars : forall w f s, rconcat (piece_string w f) (chars s) = Ok s.
Proof. induction s as [|a s IH]; [reflexivity|]. cbn [chars rconcat piece_string bind]. rewrite IH. reflexivity. Qed.
Lemma child_pieces_string : forall w f c, rchild_string w c = rconcat (piece_string w f) (child_pieces c).
Proof.
  intros w f c. destruct c as [x|x|x|i a].
  - cbn [child_pieces]. rewrite rconcat_chars. reflexivity.
  - reflexivity.
  - reflexivity.
  - cbn [child_pieces rconcat piece_string]. destruct (rchild_string w (RDraw i a)) as [s| |]; cbn [bind]; try reflexivity.
    f_equal. clear. induction s; cbn; congruence.
Qed.
Lemma para_string_pieces : forall w p, para_string w p = rconcat (piece_string w (para_file p)) (pieces p).
Proof.
  intros w p. unfold para_string, pieces. apply rconcat_flat. intros c. destruct c as [r|id r|q].
  - cbn [pchild_string pchild_pieces]. apply rconcat_flat. intros c. apply child_pieces_string.
  - cbn [pchild_pieces rconcat piece_string]. destruct (pchild_string w (para_file p) (PLink id r)) as [s| |]; cbn [bind]; try reflexivity.
    f_equal. clear. induction s; cbn; congruence.
  - reflexivity.
Qed.
Lemma merge_file : forall f p p', merge_text f p = Ok p' -> para_file p' = para_file p /\ para_ppr p' = para_ppr p.
Proof.
  intros f p p' M. unfold merge_text in M.
  destruct (merge_loop f (para_children p) _) as [s| |]; cbn [bind] in M; try discriminate M. injection M as <-. auto.
Qed.
Lemma merge_string : forall w f p p', mergeable None (para_children p) = true -> merge_text f p = Ok p' ->
  pieces p' = pieces p /\ para_string w p' = para_string w p.
Proof.
  intros w f p p' F M. pose proof (merge_pieces _ _ _ F M) as E. split; [exact E|].
  rewrite !para_string_pieces, E. destruct (merge_file _ _ _ M) as [-> _]. reflexivity.
Qed.
End Strings.

(** ** a rule that refuses *)
Definition kept (c c' : pchild) : Prop :=
  match c with
  | PRun r => exists r', c' = PRun r' /\ runR_rpr r' = runR_rpr r /\ runR_instr r' = runR_instr r /\ runR_space r' = runR_space r /\ run_pieces r' = run_pieces r
  | c => c' = c
  end.
Lemma loop_refuse : forall f l s s' done, (forall a b, f a b = Ok false) -> good (ms_items s) (ms_heap s) ->
  Forall2 kept done (map (look_item (ms_heap s)) (ms_items s)) -> merge_loop f l s = Ok s' ->
  Forall2 kept (done ++ l)%list (map (look_item (ms_heap s')) (ms_items s')).
Proof.
  induction l as [|c l IH]; intros s s' dn RF G K M.
  - injection M as <-. now rewrite app_nil_r.
  - destruct (is_run c) eqn:R.
    + destruct c as [o| |]; try discriminate R.
      cbn [merge_loop] in M. destruct (merge_run f o s) as [s1| |] eqn:M1; cbn [bind] in M; try discriminate M.
      unfold merge_run in M1. cbn [halloc] in M1.
      destruct (collect (runR_children o) (ms_heap s ++ [""])%list (length (ms_heap s)) []) as [[h t] ch] eqn:C.
      set (r := mk_runR (runR_space o) (runR_rpr o) (runR_instr o) ch) in *.
      assert (E1 : s1 = mk_mstate (ms_items s) (Some r) [] h).
      { destruct (ms_prev s); [rewrite RF in M1|]; injection M1 as <-; reflexivity. }
      destruct (push_good o s h t ch r G C eq_refl) as (G' & LK & P & _).
      subst s1. replace (dn ++ PRun o :: l)%list with ((dn ++ [PRun o]) ++ l)%list by (now rewrite <- app_assoc).
      eapply IH; [exact RF| | |exact M].
      * exact G'.
      * cbn [ms_items ms_prev ms_before ms_after ms_heap]. rewrite map_app, LK. apply Forall2_app; [exact K|].
        constructor; [|constructor]. exists (look_run h r). auto.
    + rewrite loop_pass in M by exact R.
      replace (dn ++ c :: l)%list with ((dn ++ [c]) ++ l)%list by (now rewrite <- app_assoc).
      eapply IH; [exact RF| | |exact M].
      * now apply good_pass.
      * rewrite items_pass, map_app. apply Forall2_app; [exact K|]. constructor; [|constructor].
        destruct c; try discriminate R; reflexivity.
Qed.
Lemma loop_total : forall f, (forall a b, exists x, f a b = Ok x) -> forall l s, exists s', merge_loop f l s = Ok s'.
Proof.
  intros f T. induction l as [|c l IH]; intros s; [eexists; reflexivity|].
  destruct c as [o| |]; cbn [merge_loop]; try apply IH.
  unfold merge_run. cbn [halloc].
  destruct (collect (runR_children o) (ms_heap s ++ [""])%list (length (ms_heap s)) []) as [[h t] ch].
  destruct (ms_prev s) as [pr|]; [|cbn [bind]; apply IH].
  destruct (T (look_run h pr) (look_run h (mk_runR (runR_space o) (runR_rpr o) (runR_instr o) ch))) as [x ->].
  destruct x; [|cbn [bind]; apply IH].
  destruct (last_cell (runR_children pr) h) as [[h1 pt] na].
  destruct (merge_into ch h1 pt na t (runR_children pr)) as [h2 ch']. cbn [bind]. apply IH.
Qed.
Lemma merge_total : forall f p, (forall a b, exists x, f a b = Ok x) -> exists p', merge_text f p = Ok p'.
Proof.
  intros f p T. unfold merge_text. destruct (loop_total f T (para_children p) (mk_mstate [] None [] [])) as [s ->].
  eexists. reflexivity.
Qed.
Lemma merge_refuse : forall f p, (forall a b, f a b = Ok false) ->
  exists p', merge_text f p = Ok p' /\ Forall2 kept (para_children p) (para_children p').
Proof.
  intros f p RF. destruct (loop_total f) with (l := para_children p) (s := mk_mstate [] None [] []) as [s E].
  { intros a b. exists false. apply RF. }
  unfold merge_text. rewrite E. eexists. split; [reflexivity|].
  apply (loop_refuse f (para_children p) _ s [] RF) in E; [exact E| |].
  - split; [constructor|intros a []].
  - constructor.
Qed.
Lemma kept_pieces : forall l l', Forall2 kept l l' -> flat_map pchild_pieces l' = flat_map pchild_pieces l.
Proof.
  induction 1 as [|c c' l l' K _ IH]; [reflexivity|]. cbn [flat_map]. rewrite IH. f_equal.
  destruct c as [r| |]; cbn in K; [|now subst|now subst]. destruct K as (r' & -> & _ & _ & _ & P). exact P.
Qed.
Lemma merge_refuse_string : forall (L : GoLib) w f p, (forall a b, f a b = Ok false) ->
  exists p', merge_text f p = Ok p' /\ para_string w p' = para_string w p.
Proof.
  intros L w f p RF. destruct (merge_refuse f p RF) as (p' & M & K). exists p'. split; [exact M|].
  rewrite !para_string_pieces. unfold pieces. rewrite (kept_pieces _ _ K).
  destruct (merge_file _ _ _ M) as [-> _]. reflexivity.
Qed.

(** ** groups of merged runs *)
Definition irun (i : mitem) : list (runR mchild) := match i with MRun r => [r] | MPass _ => [] end.
Definition iruns (l : list mitem) : list (runR mchild) := flat_map irun l.
Definition ipass (i : mitem) : list pchild := match i with MRun _ => [] | MPass c => [c] end.
Definition ipasses (l : list mitem) : list pchild := flat_map ipass l.
Lemma iruns_app : forall a b, iruns (a ++ b)%list = (iruns a ++ iruns b)%list.
Proof. intros. apply flat_map_app. Qed.
Lemma ipasses_app : forall a b, ipasses (a ++ b)%list = (ipasses a ++ ipasses b)%list.
Proof. intros. apply flat_map_app. Qed.

Definition grouped (g : list run) (r : runR mchild) : Prop := exists o os, g = o :: os /\ runR_rpr r = runR_rpr o /\
  forall x, In x os -> runR_rpr x = runR_rpr o.
Definition apart (l : list (runR mchild)) : Prop := forall a x y b, l = (a ++ x :: y :: b)%list -> runR_rpr x <> runR_rpr y.

(** the state before a run: [gs] are the groups of the finished runs *)
Definition ginv (s : mstate) (dn : list run) : Prop :=
  iruns (ms_after s) = [] /\ (ms_prev s = None -> iruns (ms_before s) = []) /\
  exists gs, concat gs = dn /\ Forall2 grouped gs (iruns (ms_items s)) /\ apart (iruns (ms_items s)).

Lemma apart_snoc : forall l x y, apart (l ++ [x]) -> runR_rpr x <> runR_rpr y -> apart (l ++ [x; y]).
Proof.
  intros l x y A N a u v b E.
  destruct b as [|z b _] using rev_ind.
  - replace (l ++ [x; y])%list with ((l ++ [x]) ++ [y])%list in E by (now rewrite <- app_assoc).
    replace (a ++ [u; v])%list with ((a ++ [u]) ++ [v])%list in E by (now rewrite <- app_assoc).
    apply app_inj_tail in E as [E <-]. apply app_inj_tail in E as [_ <-]. exact N.
  - replace (l ++ [x; y])%list with ((l ++ [x]) ++ [y])%list in E by (now rewrite <- app_assoc).
    replace (a ++ u :: v :: b ++ [z])%list with ((a ++ u :: v :: b) ++ [z])%list in E by (now rewrite <- app_assoc).
    apply app_inj_tail in E as [E _]. exact (A a u v b E).
Qed.
Lemma apart_same : forall l x y, apart (l ++ [x]) -> runR_rpr x = runR_rpr y -> apart (l ++ [y]).
Proof.
  intros l x y A N a u v b E.
  destruct b as [|z b _] using rev_ind.
  - replace (a ++ [u; v])%list with ((a ++ [u]) ++ [v])%list in E by (now rewrite <- app_assoc).
    apply app_inj_tail in E as [E <-]. rewrite <- N. subst l. apply (A a u x []). now rewrite <- app_assoc.
  - replace (a ++ u :: v :: b ++ [z])%list with ((a ++ u :: v :: b) ++ [z])%list in E by (now rewrite <- app_assoc).
    apply app_inj_tail in E as [E _]. subst l. apply (A a u v (b ++ [x])%list). now rewrite <- app_assoc.
Qed.

Lemma same_rule : forall a b, merge_same_prop_runs a b = Ok true /\ runR_rpr a = runR_rpr b \/ merge_same_prop_runs a b = Ok false /\ runR_rpr a <> runR_rpr b.
Proof.
  intros a b. unfold merge_same_prop_runs. destruct (same_prop false (Some a) (Some b)) eqn:E.
  - left. split; [reflexivity|]. apply (same_prop_spec false a b); [discriminate|exact E].
  - right. split; [reflexivity|]. intros K. assert (H : false = true -> runR_rpr a = runR_rpr b) by discriminate.
    apply (proj2 (same_prop_spec false a b H)) in K. unfold run in *. rewrite K in E. discriminate E.
Qed.

Lemma group_run : forall o s s1 dn, merge_run merge_same_prop_runs o s = Ok s1 -> ginv s dn -> ginv s1 (dn ++ [o])%list /\
  ipasses (ms_items s1) = ipasses (ms_items s).
Proof.
  intros o s s1 dn M1 (NA & NB & gs & CG & F2 & AP).
  unfold merge_run in M1. cbn [halloc] in M1.
  destruct (collect (runR_children o) (ms_heap s ++ [""])%list (length (ms_heap s)) []) as [[h t] ch].
  set (r := mk_runR (runR_space o) (runR_rpr o) (runR_instr o) ch) in *.
  assert (GR : grouped [o] r) by (exists o, []; split; [reflexivity|]; split; [reflexivity|intros x []]).
  destruct (ms_prev s) as [pr|] eqn:Ep.
  - assert (IR : iruns (ms_items s) = (iruns (ms_before s) ++ [pr])%list).
    { unfold ms_items. rewrite Ep, iruns_app. cbn [iruns flat_map irun app]. fold (iruns (ms_after s)). now rewrite NA. }
    destruct (same_rule (look_run h pr) (look_run h r)) as [[E Q]|[E Q]]; rewrite E in M1; cbn [look_run runR_rpr] in Q.
    + destruct (last_cell (runR_children pr) h) as [[h1 pt] na].
      destruct (merge_into ch h1 pt na t (runR_children pr)) as [h2 ch']. injection M1 as <-.
      assert (IR' : iruns (ms_items (mk_mstate (ms_before s) (Some (set_runR_children ch' pr)) (ms_after s) h2)) = (iruns (ms_before s) ++ [set_runR_children ch' pr])%list).
      { unfold ms_items. cbn [ms_prev ms_before ms_after]. rewrite iruns_app. cbn [iruns flat_map irun app]. fold (iruns (ms_after s)). now rewrite NA. }
      split.
      * split; [exact NA|]. split; [discriminate|].
        rewrite IR in F2, AP. rewrite IR'.
        apply Forall2_app_inv_r in F2 as (g1 & g2 & F1 & F2 & ->). inversion F2 as [|g ? g3 ? Gg F3]; subst. inversion F3; subst.
        exists (g1 ++ [g ++ [o]])%list. split; [|split].
        -- rewrite !concat_app. cbn. rewrite !app_nil_r, app_assoc. reflexivity.
        -- apply Forall2_app; [exact F1|]. constructor; [|constructor].
           destruct Gg as (o1 & os & -> & R1 & RS). exists o1, (os ++ [o])%list. split; [reflexivity|]. split; [exact R1|].
           intros x I. apply in_app_or in I as [I|[<-|[]]]; [now apply RS|]. rewrite <- R1. symmetry. exact Q.
        -- now apply apart_same with (x := pr).
      * unfold ms_items. rewrite Ep. cbn [ms_prev ms_before ms_after]. rewrite !ipasses_app. reflexivity.
    + injection M1 as <-. split.
      * split; [reflexivity|]. split; [discriminate|]. exists (gs ++ [[o]])%list.
        assert (IR' : iruns (ms_items (mk_mstate (ms_items s) (Some r) [] h)) = (iruns (ms_items s) ++ [r])%list).
        { unfold ms_items at 1. cbn [ms_prev ms_before ms_after]. now rewrite iruns_app. }
        split; [rewrite concat_app, CG; cbn; reflexivity|]. rewrite IR'. split.
        -- apply Forall2_app; [exact F2|]. constructor; [exact GR|constructor].
        -- rewrite IR in AP |- *. rewrite <- app_assoc. apply apart_snoc; [exact AP|exact Q].
      * unfold ms_items at 1. cbn [ms_prev ms_before ms_after]. rewrite ipasses_app. cbn. now rewrite app_nil_r.
  - assert (IR : iruns (ms_items s) = []).
    { unfold ms_items. rewrite Ep, iruns_app, NA, (NB eq_refl). reflexivity. }
    injection M1 as <-. split.
    + split; [reflexivity|]. split; [discriminate|]. exists (gs ++ [[o]])%list.
      assert (IR' : iruns (ms_items (mk_mstate (ms_items s) (Some r) [] h)) = [r]).
      { unfold ms_items at 1. cbn [ms_prev ms_before ms_after]. now rewrite iruns_app, IR. }
      rewrite IR in F2. inversion F2; subst gs. cbn in CG. subst dn.
      split; [reflexivity|]. rewrite IR'. split; [constructor; [exact GR|constructor]|].
      intros a x y b E. destruct a as [|? [|]]; discriminate E.
    + unfold ms_items at 1. cbn [ms_prev ms_before ms_after]. rewrite ipasses_app. cbn. now rewrite app_nil_r.
Qed.
Lemma ginv_pass : forall c s dn, ginv s dn -> ginv (pass c s) dn.
Proof.
  intros c s dn (NA & NB & gs & CG & F2 & AP). split; [|split].
  - cbn [pass ms_after]. now rewrite iruns_app, NA.
  - exact NB.
  - exists gs. rewrite items_pass, iruns_app. cbn [iruns flat_map irun]. rewrite !app_nil_r. auto.
Qed.
Lemma loop_groups : forall l s s' dn, merge_loop merge_same_prop_runs l s = Ok s' -> ginv s dn ->
  ginv s' (dn ++ flat_map run_of l)%list /\
  ipasses (ms_items s') = (ipasses (ms_items s) ++ filter (fun c => negb (is_run c)) l)%list.
Proof.
  induction l as [|c l IH]; intros s s' dn M G.
  - injection M as <-. cbn. rewrite !app_nil_r. auto.
  - destruct (is_run c) eqn:R.
    + destruct c as [o| |]; try discriminate R.
      cbn [merge_loop] in M. destruct (merge_run merge_same_prop_runs o s) as [s1| |] eqn:M1; cbn [bind] in M; try discriminate M.
      destruct (group_run _ _ _ _ M1 G) as [G1 P1]. destruct (IH _ _ _ M G1) as [G2 P2].
      cbn [flat_map run_of filter is_run negb app]. rewrite P2, P1. rewrite <- app_assoc in G2. auto.
    + rewrite loop_pass in M by exact R. destruct (IH _ _ _ M (ginv_pass c _ _ G)) as [G2 P2].
      cbn [flat_map filter]. rewrite R. cbn [negb]. replace (run_of c) with (@nil run) by (destruct c; [discriminate R|reflexivity|reflexivity]).
      split; [exact G2|]. rewrite P2, items_pass, ipasses_app, <- app_assoc. reflexivity.
Qed.

Lemma runs_look : forall h l, (forall c, In c (ipasses l) -> is_run c = false) -> flat_map run_of (map (look_item h) l) = map (look_run h) (iruns l).
Proof.
  intros h. induction l as [|i l IH]; intros P; [reflexivity|]. cbn [map flat_map]. rewrite IH.
  - destruct i as [r|c]; [reflexivity|]. cbn [look_item iruns flat_map irun app]. 
    assert (R : is_run c = false) by (apply P; now left). destruct c; [discriminate R|reflexivity|reflexivity].
  - intros c I. apply P. unfold ipasses. cbn [flat_map]. apply in_or_app. now right.
Qed.
Lemma filter_look : forall h l, (forall c, In c (ipasses l) -> is_run c = false) ->
  filter (fun c => negb (is_run c)) (map (look_item h) l) = ipasses l.
Proof.
  intros h. induction l as [|i l IH]; intros P; [reflexivity|]. cbn [map filter].
  assert (P' : forall c, In c (ipasses l) -> is_run c = false).
  { intros c I. apply P. unfold ipasses. cbn [flat_map]. apply in_or_app. now right. }
  destruct i as [r|c]; cbn [look_item is_run negb]; [rewrite IH; auto|].
  rewrite (P c) by (now left). cbn [negb]. rewrite IH; auto.
Qed.

Lemma merge_same_groups : forall p, exists p', merge_text merge_same_prop_runs p = Ok p' /\
  non_runs p' = non_runs p /\
  (exists gs, concat gs = runs p /\ Forall2 (fun g r => g <> [] /\ forall x, In x g -> runR_rpr x = runR_rpr r) gs (runs p')) /\
  (forall a x y b, runs p' = (a ++ x :: y :: b)%list -> runR_rpr x <> runR_rpr y).
Proof.
  intros p. destruct (loop_total merge_same_prop_runs (fun a b => ex_intro _ _ eq_refl) (para_children p) (mk_mstate [] None [] [])) as [s E].
  unfold merge_text. rewrite E. eexists. split; [reflexivity|].
  destruct (loop_groups _ _ _ [] E) as [(_ & _ & gs & CG & F2 & AP) P].
  { split; [reflexivity|]. split; [reflexivity|]. exists []. split; [reflexivity|]. split; [constructor|].
    intros [|? ?] x y b K; discriminate K. }
  cbn [app ms_items ms_prev ms_before ms_after ipasses flat_map] in P, CG.
  assert (NR : forall c, In c (ipasses (ms_items s)) -> is_run c = false).
  { intros c I. rewrite P in I. apply filter_In in I as [_ I]. now apply negb_true_iff. }
  assert (RS : runs (mk_para (para_ppr p) (map (look_item (ms_heap s)) (ms_items s)) (para_file p)) = map (look_run (ms_heap s)) (iruns (ms_items s))).
  { etransitivity; [|now apply runs_look]. reflexivity. }
  rewrite RS. split; [|split].
  - etransitivity; [|exact P]. etransitivity; [|apply filter_look; exact NR]. reflexivity.
  - exists gs. split; [exact CG|]. clear - F2. induction F2 as [|g r gs rs G _ IH]; cbn [map]; constructor; [|exact IH].
    destruct G as (o & os & -> & R & RS). split; [discriminate|]. cbn [look_run runR_rpr]. rewrite R.
    intros x [<-|I]; auto.
  - intros a x y b K. 
    destruct (map_eq_app _ _ _ _ K) as (l1 & l2 & E1 & <- & K2).
    destruct l2 as [|x0 [|y0 l2]]; try discriminate K2. injection K2 as <- <- <-.
    cbn [look_run runR_rpr]. exact (AP l1 x0 y0 l2 E1).
Qed.
