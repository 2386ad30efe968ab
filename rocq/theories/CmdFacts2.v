(** The runs of the program. *)
From Coq Require Import String Ascii List Bool Arith NArith ZArith Lia Permutation.
From Verif Require Import GoStr Num Lib Types Docx Api Keep Copy Text Pack Theme History SpecApi SpecEdit SpecCopy SpecPack SpecReopen SpecCmd Cmd
  PackFacts CopyFacts CopyFacts2 HistInv ReopenFacts ReopenFacts2 CopyTwice CmdFacts.
Import ListNotations.
Local Open Scope list_scope.
Local Open Scope string_scope.

Lemma packs_writes : forall d, packs d = true <-> exists ar, writes d (Ok ar).
Proof.
  intros d. unfold packs, writes. destruct (pack_files d) as [m|e|]; cbn [bind].
  - split.
    + intros E. destruct (write_entries m) as [ar| |] eqn:W; try discriminate. exists ar, m. split; [apply Permutation_refl|now rewrite W].
    + intros (ar & o & P & E). symmetry in E. apply write_entries_ok in E as (-> & F). rewrite write_entries_all; [reflexivity|]. eapply Permutation_Forall; [apply Permutation_sym, P|exact F].
  - split; [discriminate|]. intros (ar & E). discriminate.
  - split; [discriminate|]. intros (ar & E). discriminate.
Qed.

Section Tool.
Context `{GoLib}.
Variable x : assets.
Variable sys : system.
Variable fl : flags.

Definition unm_files (dir base : string) (d : docx) : list (string * docx) := if fl_unm fl then [(dir ++ "unmarshal_" ++ base, d)] else [].

Lemma save_done : forall n d es u, save sys n d = (es, Some u) -> es = [ECreate n; EWrite n d] /\ sys_create sys n = true /\ sys_write sys n = true /\ packs d = true.
Proof.
  intros n d es u E. unfold save in E. apply seqp_done in E as (e1 & [] & e2 & A & B & ->). unfold create, fill in *.
  destruct (sys_create sys n); [|discriminate]. destruct (packs d && sys_write sys n)%bool eqn:Q; [|discriminate]. apply andb_prop in Q as (Q1 & Q2).
  apply emit_done in A, B. subst. auto.
Qed.
Lemma save_ok : forall n d, sys_create sys n = true -> sys_write sys n = true -> packs d = true -> save sys n d = ([ECreate n; EWrite n d], Some tt).
Proof. intros n d A B C. unfold save, create, fill. rewrite A, B, C. reflexivity. Qed.

(** the first steps *)
Lemma loaded : forall a w0 w1 w2, parse a [] = Ok w0 -> snd (clean_step fl w0) = Some w1 -> snd (bare_step fl w1) = Some w2 ->
  exists d l', unpack 0 a = Ok d /\ left_of fl (drop_drawing_of "NilPicture") (d_items d) l' /\ w2 = [set_d_items l' d].
Proof.
  intros a w0 w1 w2 A B C. unfold parse in A. cbn [length] in A. destruct (unpack 0 a) as [d| |]; cbn in A; try discriminate. injection A as <-. exists d.
  unfold clean_step, bare_step, left_of in *. destruct (fl_clean fl).
  - cbn in B. injection B as <-. destruct (fl_droppp fl).
    + cbn in C. injection C as <-. eexists. split; [reflexivity|]. split; [eexists; split; [reflexivity|apply bare_all]|]. now destruct d.
    + cbn in C. injection C as <-. eexists. split; [reflexivity|]. split; [eexists; split; reflexivity|]. now destruct d.
  - cbn in B. injection B as <-. destruct (fl_droppp fl).
    + cbn in C. injection C as <-. eexists. split; [reflexivity|]. split; [eexists; split; [reflexivity|apply bare_all]|]. now destruct d.
    + cbn in C. injection C as <-. eexists. split; [reflexivity|]. split; [eexists; split; reflexivity|]. now destruct d.
Qed.
Lemma quiet_clean : forall w, fst (clean_step fl w) = [].
Proof. intros w. unfold clean_step. destruct (fl_clean fl); [|reflexivity]. destruct (exec _ _); reflexivity. Qed.
Lemma quiet_bare : forall w, fst (bare_step fl w) = [].
Proof. intros w. unfold bare_step. destruct (fl_droppp fl); [|reflexivity]. destruct (on_doc _ _ _); reflexivity. Qed.

Lemma printed : forall w l es u, each (print_item w) l = (es, Some u) -> shown w l (lines es) /\ made es = [] /\ written es = [].
Proof.
  induction l as [|i l IH]; cbn [each]; intros es u E.
  - apply ret_done in E as (-> & _). repeat split. constructor.
  - apply seqp_done in E as (e1 & [] & e2 & A & B & ->). destruct (IH _ _ B) as (I1 & I2 & I3). rewrite lines_app, made_app, written_app. destruct i as [p|t|s]; cbn [print_item] in A.
    + apply seqp_done in A as (a1 & s & a2 & A1 & A2 & ->). apply lift_done in A1 as (-> & A1). apply emit_done in A2. subst a2. cbn. repeat split; auto. now constructor.
    + apply seqp_done in A as (a1 & s & a2 & A1 & A2 & ->). apply lift_done in A1 as (-> & A1). apply emit_done in A2. subst a2. cbn. repeat split; auto. now constructor.
    + apply ret_done in A as (-> & _). cbn. repeat split; auto. now constructor.
Qed.
Lemma printable : forall w l ls, shown w l ls -> each (print_item w) l = (map EPrint ls, Some tt).
Proof.
  intros w l ls S. induction S as [|p s l ls E S IH|t s l ls E S IH|y l ls S IH]; cbn [each print_item map]; [reflexivity|rewrite E, IH; reflexivity..|rewrite IH; reflexivity].
Qed.

(** a run that comes to its end *)
Lemma finished : forall a es u, tool x sys fl a = (es, Some u) ->
  exists d l' ls eu esp w3 ed, unpack 0 a = Ok d /\ left_of fl (drop_drawing_of "NilPicture") (d_items d) l' /\
    unm_step sys fl [set_d_items l' d] = (eu, Some tt) /\ shown [set_d_items l' d] l' ls /\
    split_step sys fl [set_d_items l' d] = (esp, Some w3) /\ dup_step x sys fl w3 = (ed, Some tt) /\
    es = (eu ++ (EPrint "Plain text:" :: map EPrint ls) ++ esp ++ ed ++ [EPrint "End of main"])%list.
Proof.
  intros a es u E. unfold tool in E.
  apply seqp_done in E as (e0 & w0 & r0 & A0 & E & ->). apply lift_done in A0 as (-> & A0).
  apply seqp_done in E as (e1 & w1 & r1 & A1 & E & ->). pose proof (quiet_clean w0) as Q1. rewrite A1 in Q1. cbn in Q1. subst e1.
  apply seqp_done in E as (e2 & w2 & r2 & A2 & E & ->). pose proof (quiet_bare w1) as Q2. rewrite A2 in Q2. cbn in Q2. subst e2.
  apply seqp_done in E as (eu & [] & r3 & A3 & E & ->). apply seqp_done in E as (ep & [] & r4 & A4 & E & ->).
  apply seqp_done in E as (esp & w3 & r5 & A5 & E & ->). apply seqp_done in E as (ed & [] & r6 & A6 & E & ->). apply emit_done in E. subst r6.
  destruct (loaded a w0 w1 w2 A0) as (d & l' & D & Lf & ->); [now rewrite A1|now rewrite A2|].
  unfold print_step in A4. apply seqp_done in A4 as (p1 & [] & p2 & B1 & B2 & ->). apply emit_done in B1. subst p1.
  apply seqp_done in B2 as (p3 & d2 & p4 & B3 & B4 & ->). cbn in B3. injection B3 as <- <-.
  replace (d_items (set_d_items l' d)) with l' in B4 by now destruct d. pose proof (printed _ _ _ _ B4) as (S & _ & _). pose proof (printable _ _ _ S) as PP. rewrite PP in B4. injection B4 as B4. 
  exists d, l', (lines p4), eu, esp, w3, ed. repeat (split; [assumption|]). cbn [app]. rewrite B4. reflexivity.
Qed.

Lemma unm_done : forall d eu dir base, stands (fl_loc fl) dir base -> unm_step sys fl [d] = (eu, Some tt) ->
  written eu = unm_files dir base d /\ made eu = map fst (written eu) /\ lines eu = [] /\ (fl_unm fl = true -> packs d = true).
Proof.
  intros d eu dir base S E. unfold unm_step, unm_files in *. destruct (fl_unm fl).
  - rewrite (unm_named _ _ _ S) in E. cbn [lift seqp ret fst snd app doc_of nth_error] in E. rewrite <- surjective_pairing in E. apply save_done in E as (-> & _ & _ & P). cbn. auto.
  - apply ret_done in E as (-> & _). cbn. repeat split; auto. discriminate.
Qed.

Lemma parts_done : forall dir base stem ext, stands (fl_loc fl) dir base -> dotted base stem ext -> forall ds j es u,
  each (part_step sys fl) (combine (seq j (length ds)) ds) = (es, Some u) ->
  written es = combine (map (part_name dir stem ext) (seq j (length ds))) ds /\ made es = map (part_name dir stem ext) (seq j (length ds)) /\ lines es = [] /\
  Forall (fun d => packs d = true) ds.
Proof.
  intros dir base stem ext S D. induction ds as [|d ds IH]; intros j es u E; cbn [length seq combine each map] in *.
  - apply ret_done in E as (-> & _). repeat split; auto.
  - apply seqp_done in E as (e1 & [] & e2 & A & B & ->). destruct (IH _ _ _ B) as (I1 & I2 & I3 & I4). rewrite lines_app, made_app, written_app, I1, I2, I3.
    unfold part_step in A. cbn [fst snd] in A. rewrite (split_named _ _ _ _ _ j S D) in A. cbn [lift seqp ret fst snd app] in A. rewrite <- surjective_pairing in A.
    apply save_done in A as (-> & _ & _ & P). unfold part_name. cbn. auto.
Qed.
Lemma split_done : forall d esp w3 dir base, stands (fl_loc fl) dir base -> split_step sys fl [d] = (esp, Some w3) ->
  (fl_split fl = None /\ esp = [] /\ w3 = [d]) \/
  exists re ps ds stem ext, fl_split fl = Some (Some re) /\ pieces (by_text [d] re) (d_items d) ps /\ w3 = (d :: ds)%list /\ length ds = length ps /\
    (ds <> [] -> dotted base stem ext) /\
    written esp = combine (map (part_name dir stem ext) (seq 0 (length ds))) ds /\ made esp = map (part_name dir stem ext) (seq 0 (length ds)) /\ lines esp = [] /\
    Forall (fun d => packs d = true) ds /\
    forall k s e, nth_error ps k = Some s -> nth_error ds k = Some e ->
      d_tmpl e = d_tmpl d /\ map kind_of (d_items e) = map kind_of s /\
      ((N.of_nat (length (rels (d_reg e))) < two63)%N -> Forall2 (same_item [d] (S k) (d_reg e)) s (d_items e)).
Proof.
  intros d esp w3 dir base St E. unfold split_step in E. destruct (fl_split fl) as [[re|]|] eqn:F; [right|discriminate|left; apply ret_done in E as (-> & <-); auto].
  apply seqp_done in E as (e1 & w' & e2 & A & B & ->). apply lift_done in A as (-> & A). apply seqp_done in B as (e3 & [] & e4 & B1 & B2 & ->). apply ret_done in B2 as (-> & <-).
  destruct (split_spec 0 _ [d] w' d eq_refl A) as (ps & ds & P & -> & Ln & K). cbn [length app skipn] in *. rewrite app_nil_r.
  destruct (dot_or_not base) as [U|(stem & ext & D)].
  - destruct ds as [|e ds].
    + exists re, ps, [], "", "". cbn in B1. injection B1 as <-. repeat (split; auto); try (now cbn); try (intros []; reflexivity).
    + cbn [length seq combine each] in B1. apply seqp_done in B1 as (e1 & [] & e2 & C & _ & _). unfold part_step in C. cbn [fst snd] in C. rewrite (split_unnamed _ _ _ 0 St U) in C. discriminate.
  - destruct (parts_done _ _ _ _ St D ds 0 _ _ B1) as (W & M & Li & Pk). exists re, ps, ds, stem, ext. repeat (split; auto).
Qed.

Lemma item_shrink : forall w w0 to g, (forall i d, nth_error w0 i = Some d -> nth_error w i = Some d) -> forall y z, same_item w to g y z -> same_item w0 to g y z.
Proof.
  intros w w0 to g Sub.
  assert (Gr : forall f og c, same_graphic w to g f og c -> same_graphic w0 to g f og c).
  { intros f og c E. unfold same_graphic in *. destruct (graphic_pic og) as [p|]; [|exact E]. destruct (pic_embed p) as [e|]; [|exact E].
    intros t data (i & d & A & B & C). apply E. exists i, d. auto. }
  assert (Rc : forall c c', same_rchild w to g c c' -> same_rchild w0 to g c c').
  { intros c c' E. destruct c as [t|t|b|[i|] [a|]]; cbn in *; auto; destruct E as (y & A & B & C); exists y; auto. }
  assert (Rn : forall r r', same_run w to g r r' -> same_run w0 to g r r').
  { intros r r' (A & B & C & D). repeat (split; [assumption|]). induction D; constructor; auto. }
  assert (Ch : forall f l l', same_children w to g f l l' -> same_children w0 to g f l l').
  { intros f l l' E. induction E as [|r r' l l' R E IH|q l l' E IH|id r id' r' l l' T R E IH|id r l l' T E IH]; constructor; auto.
    - intros t (i & d & A & B & C). apply T. exists i, d. auto.
    - intros t (i & d & A & B & C). apply (T t). exists i, d. auto. }
  assert (Pa : forall p p', same_para w to g p p' -> same_para w0 to g p p') by (intros p p' (A & B & C); split; [|split]; auto).
  assert (Ce : forall p p', same_cell w to g p p' -> same_cell w0 to g p p') by (intros p p' (A & B & C); split; [|split]; auto; induction C; constructor; auto).
  assert (Ro : forall p p', same_row w to g p p' -> same_row w0 to g p p') by (intros p p' (A & C); split; auto; induction C; constructor; auto).
  intros [p|t|s] [q|u|r] E; cbn in *; auto. destruct E as (A & B & C). repeat (split; auto). induction C; constructor; auto.
Qed.

Lemma times_run : forall n k w d w', nth_error w k = Some d -> append_times n k w = Ok w' -> run_ops (repeat (OAppend k 0) n) w = Some w'.
Proof.
  induction n as [|n IH]; intros k w d w' N E; cbn [append_times repeat run_ops exec] in *; [congruence|]. rewrite N.
  destruct (append_file k 0 w) as [w1| |] eqn:A; cbn [bind] in E; try discriminate.
  destruct (nth_error w 0) as [s|] eqn:N0; [|unfold append_file in A; rewrite N0 in A; discriminate].
  destruct (append_keeps _ _ _ _ _ _ N N0 A) as (_ & _ & d' & new & Nd & _). eapply IH; eauto.
Qed.
Lemma appended : forall n w0 l1 wj dj d w', run_ops l1 (w0 ++ [new_docx])%list = Some wj -> (forall p, p < length w0 -> nth_error wj p = nth_error w0 p) ->
  nth_error w0 0 = Some d -> nth_error wj (length w0) = Some dj -> append_times n (length w0) wj = Ok w' ->
  exists dn new, nth_error w' (length w0) = Some dn /\ d_items dn = (d_items dj ++ new)%list /\ d_tmpl dn = d_tmpl dj /\
    ((N.of_nat (length (rels (d_reg dn))) < two63)%N -> Forall2 (same_item w0 (length w0) (d_reg dn)) (concat (repeat (d_items d) n)) new).
Proof.
  induction n as [|n IH]; intros w0 l1 wj dj d w' R K N0 Nj E; cbn [append_times repeat concat] in *.
  - injection E as <-. exists dj, []. rewrite app_nil_r. auto.
  - destruct (append_file (length w0) 0 wj) as [w1| |] eqn:A; cbn [bind] in E; try discriminate.
    assert (L0 : 0 < length w0) by (apply nth_error_Some; congruence). assert (N1 : nth_error wj 0 = Some d) by (rewrite K; auto).
    destruct (append_keeps _ _ _ _ _ _ Nj N1 A) as (_ & O & d' & new & Nd & Id & _ & Tm & _).
    assert (K2 : forall p, p < length w0 -> nth_error w1 p = nth_error w0 p) by (intros p P; rewrite O by lia; auto).
    assert (R2 : run_ops (l1 ++ [OAppend (length w0) 0])%list (w0 ++ [new_docx])%list = Some w1).
    { eapply CopyTwice.run_snoc; [exact R|]. cbn [exec]. now rewrite Nj. }
    destruct (IH _ _ _ _ _ _ R2 K2 N0 Nd E) as (dn & new2 & Nn & In2 & Tn & S2). exists dn, (new ++ new2)%list.
    split; [assumption|]. split; [rewrite In2, Id; now rewrite app_assoc|]. split; [congruence|]. intros B.
    assert (R3 : run_ops (repeat (OAppend (length w0) 0) n) w1 = Some w').
    { eapply times_run; [exact Nd|exact E]. }
    destruct (append_links_pictures w0 l1 wj dj 0 d w1 _ w' dn R Nj N1 A R3 Nn B) as (d'' & new' & Nd' & Id' & S).
    rewrite Nd in Nd'. injection Nd' as <-. rewrite Id in Id'. apply app_inv_head in Id'. subst new'.
    apply Forall2_app; [|now apply S2]. clear -S K. induction S; constructor; auto. eapply item_shrink; [|eassumption]. intros i e Q. rewrite K; auto. apply nth_error_Some. congruence.
Qed.

Lemma dup_done : forall w3 d ed dir base, stands (fl_loc fl) dir base -> nth_error w3 0 = Some d -> dup_step x sys fl w3 = (ed, Some tt) ->
  ((fl_dup fl <= 1)%N /\ ed = []) \/
  exists dn new, (1 < fl_dup fl)%N /\ ed = [ECreate (dup_at (fl_loc fl) dir base); EWrite (dup_at (fl_loc fl) dir base) dn] /\ packs dn = true /\
    d_items dn = (ISect A4 :: new)%list /\ d_tmpl dn = default_theme x /\
    ((N.of_nat (length (rels (d_reg dn))) < two63)%N -> Forall2 (same_item w3 (length w3) (d_reg dn)) (concat (repeat (d_items d) (turns (fl_dup fl)))) new).
Proof.
  intros w3 d ed dir base S N E. unfold dup_step in E. destruct (1 <? fl_dup fl)%N eqn:Q; [right|left; apply N.ltb_ge in Q; apply ret_done in E as (-> & _); auto].
  apply N.ltb_lt in Q. rewrite (dup_named _ _ _ S) in E. fold (dup_at (fl_loc fl) dir base) in E. cbn [lift seqp ret fst snd app] in E. rewrite <- surjective_pairing in E.
  apply seqp_done in E as (e1 & [] & e2 & A & B & ->). apply seqp_done in B as (e3 & w' & e4 & B1 & B2 & ->). apply lift_done in B1 as (-> & B1).
  assert (R : run_ops [OTemplate (length w3) (default_theme x); OPage (length w3) false] (w3 ++ [new_docx])%list = Some (w3 ++ [with_a4 (with_default_theme x new_docx)])%list).
  { assert (NN : forall y, nth_error (w3 ++ [y]) (length w3) = Some y) by (intros y; rewrite nth_error_app2, Nat.sub_diag by lia; reflexivity).
    assert (SS : forall y z, set_nth (w3 ++ [y]) (length w3) z = (w3 ++ [z])%list) by (intros y z; clear; induction w3 as [|a l IH]; cbn; [reflexivity|now rewrite IH]).
    cbn [run_ops exec]. unfold on_doc. rewrite NN. cbn [bind]. rewrite SS, NN. cbn [bind]. now rewrite SS. }
  assert (K1 : forall p, p < length w3 -> nth_error (w3 ++ [with_a4 (with_default_theme x new_docx)]) p = nth_error w3 p) by (intros p P; now rewrite nth_error_app1).
  assert (K2 : nth_error (w3 ++ [with_a4 (with_default_theme x new_docx)]) (length w3) = Some (with_a4 (with_default_theme x new_docx))) by (rewrite nth_error_app2, Nat.sub_diag by lia; reflexivity).
  destruct (appended _ _ _ _ _ _ _ R K1 N K2 B1) as (dn & new & Nn & In2 & Tn & S2).
  rewrite Nn in B2. unfold create, fill in *. destruct (sys_create sys _); [|discriminate]. destruct (packs dn && _)%bool eqn:PK; [|discriminate]. apply andb_prop in PK as (PK & _).
  apply emit_done in A, B2. subst. exists dn, new. repeat (split; auto).
Qed.

Lemma files : forall a es u dir base, stands (fl_loc fl) dir base -> tool x sys fl a = (es, Some u) ->
  exists d l' parts copies stem ext, unpack 0 a = Ok d /\ left_of fl (drop_drawing_of "NilPicture") (d_items d) l' /\
    written es = ((if fl_unm fl then [((dir ++ "unmarshal_" ++ base)%string, set_d_items l' d)] else []) ++
                  combine (map (part_name dir stem ext) (seq 0 (length parts))) parts ++
                  map (pair (dup_at (fl_loc fl) dir base)) copies)%list /\
    made es = map fst (written es) /\ Forall (fun f => exists ar, writes (snd f) (Ok ar)) (written es) /\
    (parts <> [] -> dotted base stem ext) /\ split_into fl [set_d_items l' d] l' parts /\ copied_into x fl [set_d_items l' d] l' copies.
Proof.
  intros a es u dir base S E. destruct (finished _ _ _ E) as (d & l' & ls & eu & esp & w3 & ed & U & Lf & Eu & Sh & Es & Ed & ->).
  assert (I1 : d_items (set_d_items l' d) = l') by now destruct d.
  destruct (unm_done _ _ _ _ S Eu) as (Wu & Mu & _ & Pu).
  assert (SP : exists parts stem ext, w3 = (set_d_items l' d :: parts)%list /\ written esp = combine (map (part_name dir stem ext) (seq 0 (length parts))) parts /\
    made esp = map fst (written esp) /\ Forall (fun d => packs d = true) parts /\ (parts <> [] -> dotted base stem ext) /\ split_into fl [set_d_items l' d] l' parts).
  { destruct (split_done _ _ _ _ _ S Es) as [(F & -> & ->)|(re & ps & ds & stem & ext & F & P & -> & Ln & D & W & M & _ & Pk & K)].
    - exists [], "", "". do 3 (split; [reflexivity|]). split; [constructor|]. split; [intros []; reflexivity|]. unfold split_into. now rewrite F.
    - exists ds, stem, ext. split; [reflexivity|]. split; [assumption|]. split; [|split; [assumption|split; [assumption|]]].
      + rewrite W, M. generalize (part_name dir stem ext). generalize 0. clear. induction ds as [|y ds IH]; intros j f; cbn [length seq map combine fst]; [reflexivity|]. now rewrite <- IH.
      + unfold split_into. rewrite F. exists ps. rewrite I1 in P. split; [exact P|]. split; [assumption|]. intros k s e K1 K2. destruct (K k s e K1 K2) as (T1 & T2 & T3). split; [exists (set_d_items l' d); auto|]. auto. }
  destruct SP as (parts & stem & ext & -> & Ws & Ms & Ps & Dt & Po).
  assert (CP : exists copies, written ed = map (pair (dup_at (fl_loc fl) dir base)) copies /\ made ed = map fst (written ed) /\ Forall (fun d => packs d = true) copies /\
    copied_into x fl [set_d_items l' d] l' copies).
  { destruct (dup_done (set_d_items l' d :: parts) (set_d_items l' d) _ _ _ S eq_refl Ed) as [(Q & ->)|(dn & new & Q & -> & Pd & Id & Td & Sd)].
    - exists []. do 2 (split; [reflexivity|]). split; [constructor|]. unfold copied_into. rewrite (proj2 (N.ltb_ge _ _)) by assumption. reflexivity.
    - exists [dn]. do 2 (split; [reflexivity|]). split; [auto|]. unfold copied_into. rewrite (proj2 (N.ltb_lt _ _)) by assumption. exists dn, new. split; [reflexivity|]. split; [assumption|]. split; [assumption|].
      intros B. specialize (Sd B). rewrite I1 in Sd. exists (length (set_d_items l' d :: parts)).
      assert (SH : Forall2 (same_item [set_d_items l' d] (length (set_d_items l' d :: parts)) (d_reg dn)) (concat (repeat l' (turns (fl_dup fl)))) new).
      { clear -Sd. induction Sd; constructor; auto. eapply item_shrink; [|eassumption]. intros [|[|i]] e Q; cbn in *; try discriminate. assumption. }
      unfold turns in SH. change (2 ^ 63)%N with two63N. destruct (fl_dup fl <? two63N)%N eqn:T; [exact SH|]. inversion SH. reflexivity. }
  destruct CP as (copies & Wc & Mc & Pc & Co).
  assert (Wp : forall l, written (map EPrint l) = []) by (clear; induction l; auto). assert (Mp : forall l, made (map EPrint l) = []) by (clear; induction l; auto).
  assert (WW : written (eu ++ (EPrint "Plain text:" :: map EPrint ls) ++ esp ++ ed ++ [EPrint "End of main"]) = (written eu ++ written esp ++ written ed)%list).
  { rewrite !written_app. change (written (EPrint "Plain text:" :: map EPrint ls)) with (written (map EPrint ls)). rewrite Wp. cbn [written flat_map app]. now rewrite app_nil_r. }
  assert (MM : made (eu ++ (EPrint "Plain text:" :: map EPrint ls) ++ esp ++ ed ++ [EPrint "End of main"]) = (made eu ++ made esp ++ made ed)%list).
  { rewrite !made_app. change (made (EPrint "Plain text:" :: map EPrint ls)) with (made (map EPrint ls)). rewrite Mp. cbn [made flat_map app]. now rewrite app_nil_r. }
  exists d, l', parts, copies, stem, ext. split; [assumption|]. split; [assumption|].
  split; [rewrite WW, Wu, Ws, Wc; reflexivity|]. split; [rewrite MM, WW, Mu, Ms, Mc, !map_app; reflexivity|]. split; [|auto].
  rewrite WW, Wu, Ws, Wc. apply Forall_app. split; [|apply Forall_app; split].
  - unfold unm_files. destruct (fl_unm fl); constructor; auto. apply packs_writes. auto.
  - clear -Ps. generalize (map (part_name dir stem ext) (seq 0 (length parts))). induction Ps as [|y l P F IH]; intros [|k s]; cbn; constructor; auto. now apply packs_writes.
  - clear -Pc. induction Pc; cbn; constructor; auto. now apply packs_writes.
Qed.
End Tool.
