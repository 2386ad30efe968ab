(** When the program comes to its end, for all flags. *)
From Coq Require Import String Ascii List Bool Arith NArith ZArith Lia Permutation.
From Verif Require Import GoStr Num Lib Types Docx Api Keep Copy Text Pack Theme History SpecApi SpecEdit SpecCopy SpecPack SpecReopen SpecCmd Cmd
  PackFacts CopyFacts CopyFacts2 HistInv ReopenFacts HomeFacts Reload IdFacts ReopenFacts2 BreakFacts CmdFacts CmdFacts2 CmdFacts3.
Import ListNotations.
Local Open Scope list_scope.
Local Open Scope string_scope.

Section Tool.
Context `{GoLib}.
Variable x : assets.
Variable sys : system.
Variable fl : flags.

Lemma save_iff : forall n d, snd (save sys n d) = Some tt <-> can_save sys n d.
Proof.
  intros n d. unfold can_save. rewrite <- packs_writes. split.
  - intros E. destruct (save sys n d) as (es, r) eqn:S. cbn in E. subst r. apply save_done in S. tauto.
  - intros (A & B & C). now rewrite (save_ok sys n d A B C).
Qed.
Lemma seqp_iff : forall A B (p : prog A) (k : A -> prog B) y, snd (seqp p k) = Some y <-> exists z, snd p = Some z /\ snd (k z) = Some y.
Proof.
  intros A B [e [z|]] k y; unfold seqp; cbn.
  - split; [eauto|]. intros (z' & E & F). injection E as <-. exact F.
  - split; [discriminate|]. intros (z & E & _). discriminate.
Qed.
Lemma each_iff : forall A (f : A -> prog unit) l, snd (each f l) = Some tt <-> forall y, In y l -> snd (f y) = Some tt.
Proof.
  intros A f. induction l as [|y l IH]; cbn [each In].
  - split; [tauto|reflexivity].
  - rewrite seqp_iff. split.
    + intros ([] & E & F) z [<-|I]; auto. now apply IH.
    + intros E. exists tt. split; auto. apply IH. auto.
Qed.
Lemma lift_iff : forall A (r : res A) y, snd (lift r) = Some y <-> r = Ok y.
Proof. intros A [z|e|] y; cbn; split; congruence. Qed.

Lemma combine_nth : forall (ds : list docx) j k d, In (k, d) (combine (seq j (length ds)) ds) <-> j <= k /\ nth_error ds (k - j) = Some d.
Proof.
  induction ds as [|e ds IH]; intros j k d; cbn [length seq combine In].
  - split; [tauto|]. intros (_ & E). now destruct (k - j).
  - rewrite IH. split.
    + intros [E|(L & E)]; [injection E as <- <-; now rewrite Nat.sub_diag|]. split; [lia|]. now replace (k - j) with (S (k - S j)) by lia.
    + intros (L & E). destruct (Nat.eq_dec k j) as [->|NE]; [left; rewrite Nat.sub_diag in E; cbn in E; congruence|right].
      split; [lia|]. now replace (k - j) with (S (k - S j)) in E by lia.
Qed.
Lemma dotted_unique : forall base s1 e1 s2 e2, dotted base s1 e1 -> dotted base s2 e2 -> s1 = s2 /\ e1 = e2.
Proof.
  intros base s1 e1 s2 e2 (E1 & C1) (E2 & C2). rewrite E1 in E2. clear E1 base. revert s2 E2. induction s1 as [|a s1 IH]; intros [|b s2] E; cbn in E.
  - injection E as E. auto.
  - injection E as <- ->. rewrite !count_app in C1. cbn in C1. lia.
  - injection E as -> <-. rewrite !count_app in C2. cbn in C2. lia.
  - injection E as <- E. destruct (IH s2 E) as (-> & ->). auto.
Qed.
Lemma parts_iff : forall dir base ds, stands (fl_loc fl) dir base ->
  (snd (each (part_step sys fl) (combine (seq 0 (length ds)) ds)) = Some tt <->
   (ds <> [] -> exists stem ext, dotted base stem ext /\ forall k d, nth_error ds k = Some d -> can_save sys (part_name dir stem ext k) d)).
Proof.
  intros dir base ds S. rewrite each_iff.
  assert (P : forall stem ext k d, dotted base stem ext -> (snd (part_step sys fl (k, d)) = Some tt <-> can_save sys (part_name dir stem ext k) d)).
  { intros stem ext k d D. unfold part_step. rewrite seqp_iff. cbn [fst snd]. rewrite (split_named _ _ _ _ _ k S D). rewrite <- save_iff. cbn [lift ret snd]. unfold part_name.
    split; [intros (z & E & F); injection E as <-; exact F|eauto]. }
  split.
  - intros E NE. destruct (dot_or_not base) as [U|(stem & ext & D)].
    + exfalso. destruct ds as [|d ds]; [now apply NE|]. specialize (E (0, d) (or_introl eq_refl)). unfold part_step in E. cbn [fst snd] in E. rewrite (split_unnamed _ _ _ 0 S U) in E. discriminate.
    + exists stem, ext. split; [exact D|]. intros k d N. apply (P stem ext k d D). apply E. apply combine_nth. rewrite Nat.sub_0_r. split; [lia|assumption].
  - intros E (k, d) I. apply combine_nth in I. rewrite Nat.sub_0_r in I. destruct I as (_ & N). destruct E as (stem & ext & D & K); [intros ->; now destruct k|]. apply (P stem ext k d D). auto.
Qed.

Lemma append_never : forall to from w, never_err (append_file to from w).
Proof.
  intros to from w. unfold append_file. destruct (nth_error w from) as [d|]; [|apply panic_never]. generalize (d_items d). intros l. revert w. induction l as [|y l IH]; intros w; cbn [append_items]; [apply ok_never|].
  apply bind_never; auto. intros e. apply copy_push_never.
Qed.
Lemma times_iff : forall n k w d w', nth_error w k = Some d -> (append_times n k w = Ok w' <-> run_ops (repeat (OAppend k 0) n) w = Some w').
Proof.
  intros n k w d w' N. split; [now apply (times_run n k w d)|]. revert w d N. induction n as [|n IH]; intros w d N; cbn [append_times repeat run_ops exec]; [congruence|]. rewrite N.
  destruct (append_file k 0 w) as [w1|e|] eqn:A; cbn [bind]; [|intros _; exfalso; eapply append_never; eauto|discriminate].
  destruct (nth_error w 0) as [s|] eqn:N0; [|unfold append_file in A; rewrite N0 in A; discriminate].
  destruct (append_keeps _ _ _ _ _ _ N N0 A) as (_ & _ & d' & new & Nd & _). eapply IH; eauto.
Qed.
Lemma dup_iff : forall w dir base, stands (fl_loc fl) dir base ->
  (snd (dup_step x sys fl w) = Some tt <->
   ((1 < fl_dup fl)%N -> exists w' c, run_ops (copying x fl (length w)) w = Some w' /\ nth_error w' (length w) = Some c /\ can_save sys (dup_at (fl_loc fl) dir base) c)).
Proof.
  intros w dir base S. unfold dup_step. destruct (1 <? fl_dup fl)%N eqn:Q; [apply N.ltb_lt in Q|apply N.ltb_ge in Q; split; [lia|reflexivity]].
  assert (R : forall n, run_ops (ONew :: OTemplate (length w) (default_theme x) :: OPage (length w) false :: repeat (OAppend (length w) 0) n) w =
    run_ops (repeat (OAppend (length w) 0) n) (w ++ [with_a4 (with_default_theme x new_docx)])%list).
  { intros n. assert (NN : forall y, nth_error (w ++ [y]) (length w) = Some y) by (intros y; rewrite nth_error_app2, Nat.sub_diag by lia; reflexivity).
    assert (SS : forall y z, set_nth (w ++ [y]) (length w) z = (w ++ [z])%list) by (intros y z; clear; induction w as [|a l IH]; cbn; [reflexivity|now rewrite IH]).
    cbn [run_ops exec]. unfold on_doc. rewrite NN. cbn [bind]. rewrite SS, NN. cbn [bind]. now rewrite SS. }
  assert (NK : nth_error (w ++ [with_a4 (with_default_theme x new_docx)]) (length w) = Some (with_a4 (with_default_theme x new_docx))) by (rewrite nth_error_app2, Nat.sub_diag by lia; reflexivity).
  rewrite (dup_named _ _ _ S). fold (dup_at (fl_loc fl) dir base). unfold copying. change (2 ^ 63)%N with two63N. fold (turns (fl_dup fl)). rewrite R. unfold can_save.
  assert (F : forall n d, snd (fill sys n d) = Some tt <-> sys_write sys n = true /\ exists ar, writes d (Ok ar)).
  { intros n d. unfold fill. rewrite <- packs_writes. destruct (packs d), (sys_write sys n); cbn; intuition congruence. }
  assert (C : forall n, snd (create sys n) = Some tt <-> sys_create sys n = true) by (intros n; unfold create; destruct (sys_create sys n); cbn; split; congruence).
  split.
  - intros E _. apply seqp_iff in E as (n & E1 & E). cbn in E1. injection E1 as <-. apply seqp_iff in E as ([] & E2 & E). apply C in E2. apply seqp_iff in E as (w' & E3 & E). apply lift_iff in E3.
    apply (times_iff _ _ _ _ _ NK) in E3. destruct (nth_error w' (length w)) as [c|] eqn:Nc; [|discriminate]. apply F in E. exists w', c. tauto.
  - intros E. destruct (E Q) as (w' & c & E1 & E2 & E3 & E4). apply (times_iff _ _ _ _ _ NK) in E1. apply seqp_iff. eexists. split; [reflexivity|]. apply seqp_iff. exists tt. split; [now apply C|].
    apply seqp_iff. exists w'. split; [now apply lift_iff|]. rewrite E2. now apply F.
Qed.
Lemma split_iff : forall d w3 dir base, stands (fl_loc fl) dir base ->
  (snd (split_step sys fl [d]) = Some w3 <->
   exists parts, w3 = (d :: parts)%list /\
     match fl_split fl with
     | None => parts = []
     | Some None => False
     | Some (Some re) => exec (OSplit 0 (fun p => bind (para_string [d] p) (fun s => Ok (re s)))) [d] = Ok (d :: parts)
     end /\
     (parts <> [] -> exists stem ext, dotted base stem ext /\ forall k e, nth_error parts k = Some e -> can_save sys (part_name dir stem ext k) e)).
Proof.
  intros d w3 dir base S. unfold split_step. destruct (fl_split fl) as [[re|]|].
  - cbn [exec]. fold (by_text [d] re). rewrite seqp_iff. split.
    + intros (w' & A & B). apply lift_iff in A. apply seqp_iff in B as ([] & B & E). cbn in E. injection E as <-.
      destruct (split_spec 0 _ [d] w' d eq_refl A) as (ps & ds & _ & -> & _). cbn [app length skipn] in *. exists ds. split; [reflexivity|]. split; [exact A|]. now apply (parts_iff dir base).
    + intros (parts & -> & A & B). exists (d :: parts)%list. split; [now apply lift_iff|]. apply seqp_iff. exists tt. split; [|reflexivity]. cbn [length skipn]. now apply (parts_iff dir base).
  - cbn. split; [discriminate|]. intros (p & _ & [] & _).
  - cbn. split.
    + intros E. injection E as <-. exists []. repeat split. intros NE. now destruct NE.
    + intros (p & -> & -> & _). reflexivity.
Qed.

Lemma any_run : forall a dir base, stands (fl_loc fl) dir base ->
  (snd (tool x sys fl a) = Some tt <->
   exists d l' ls parts, unpack 0 a = Ok d /\ left_of fl (drop_drawing_of "NilPicture") (d_items d) l' /\ shown [d] (kept fl d) ls /\
     (fl_unm fl = true -> can_save sys (dir ++ "unmarshal_" ++ base) (set_d_items l' d)) /\
     match fl_split fl with
     | None => parts = []
     | Some None => False
     | Some (Some re) => exec (OSplit 0 (fun p => bind (para_string [set_d_items l' d] p) (fun s => Ok (re s)))) [set_d_items l' d] = Ok (set_d_items l' d :: parts)
     end /\
     (parts <> [] -> exists stem ext, dotted base stem ext /\ forall k e, nth_error parts k = Some e -> can_save sys (part_name dir stem ext k) e) /\
     ((1 < fl_dup fl)%N -> exists w' c, run_ops (copying x fl (S (length parts))) (set_d_items l' d :: parts) = Some w' /\ nth_error w' (S (length parts)) = Some c /\
        can_save sys (dup_at (fl_loc fl) dir base) c)).
Proof.
  intros a dir base S. 
  assert (US : forall d, snd (unm_step sys fl [d]) = Some tt <-> (fl_unm fl = true -> can_save sys (dir ++ "unmarshal_" ++ base) d)).
  { intros d. unfold unm_step. destruct (fl_unm fl); [|split; [discriminate|reflexivity]]. rewrite (unm_named _ _ _ S). rewrite <- save_iff. cbn [lift seqp ret fst snd app doc_of nth_error]. tauto. }
  split.
  - intros E. destruct (tool x sys fl a) as (es, r) eqn:T. cbn in E. subst r. destruct (finished _ _ _ _ _ _ T) as (d & l' & ls & eu & esp & w3 & ed & U & Lf & Eu & Sh & Es & Ed & _).
    pose proof (f_equal snd Es) as E1. cbn [snd] in E1. apply (split_iff _ _ dir base S) in E1 as (parts & -> & E1 & E2). exists d, l', ls, parts. split; [assumption|]. split; [assumption|]. split; [now apply (shown_left fl d l')|].
    split; [apply US; now rewrite Eu|]. split; [assumption|]. split; [assumption|]. apply (dup_iff (set_d_items l' d :: parts) dir base S). now rewrite Ed.
  - intros (d & l' & ls & parts & U & Lf & Sh & V & E1 & E2 & E3). rewrite <- (shown_left fl d l') in Sh by assumption. unfold tool.
    apply seqp_iff. exists [d]. split; [unfold parse; cbn [length]; rewrite U; reflexivity|].
    apply seqp_iff. exists [set_d_items (kept fl d) d]. split; [unfold clean_step, kept; destruct (fl_clean fl); [reflexivity|destruct d; reflexivity]|].
    apply seqp_iff. exists [set_d_items l' d]. split.
    { destruct Lf as (m & -> & Lf). fold (kept fl d) in Lf. unfold bare_step. destruct (fl_droppp fl).
      - replace l' with (map bare_item (kept fl d)); [destruct d; reflexivity|]. symmetry. revert Lf. generalize (kept fl d). clear. intros l F. induction F as [|y z l k E F IH]; cbn; [reflexivity|]. now rewrite <- IH, (bared_unique _ _ E).
      - rewrite Lf. reflexivity. }
    apply seqp_iff. exists tt. split; [now apply US|]. apply seqp_iff. exists tt. split.
    { unfold print_step. cbn [emit seqp fst snd doc_of nth_error ret app]. replace (d_items (set_d_items l' d)) with l' by now destruct d. now rewrite (printable _ _ _ Sh). }
    apply seqp_iff. exists (set_d_items l' d :: parts)%list. split; [apply (split_iff _ _ dir base S); exists parts; auto|].
    apply seqp_iff. exists tt. split; [|reflexivity]. now apply (dup_iff (set_d_items l' d :: parts) dir base S).
Qed.
End Tool.
