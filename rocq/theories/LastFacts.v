(** Sequences of formatting calls. *)
From Coq Require Import String Ascii List Bool Arith NArith ZArith Lia.
From Verif Require Import GoStr Num Lib Types Docx Api Keep Copy Pack History Alias SpecAlias SpecSep SpecLast RegFacts HistFacts2 SepFacts.
Import ListNotations.
Local Open Scope list_scope.
Local Open Scope string_scope.

(** ** runs *)
Definition effect (o : rop) : rpr -> rpr :=
  match o with
  | RColor v => set_rpr_color (Some v) | RSize v => set_rpr_size (Some v) | RSizeCs v => set_rpr_sizeCs (Some v)
  | RShade v c f => set_rpr_shade (Some (mk_shade v c f "" "")) | RSpacing n => set_rpr_spacing (Some (set_spacing_line n spacing0))
  | RBold => set_rpr_bold true | RItalic => set_rpr_italic true | RUnderline v => set_rpr_underline (Some v) | RHighlight v => set_rpr_highlight (Some v)
  | RStrike b => set_rpr_strike (Some (if b then "true" else "false")) | RFont a e h t => set_rpr_fonts (Some (mk_rfonts a e h t))
  | _ => fun q => q
  end.
Lemma rop_effect : forall o x r, run_sets o = Some x -> exec_rop o r = on_rpr (effect o) r.
Proof. intros [] x r K; try discriminate K; reflexivity. Qed.
Lemma effect_last : forall o1 o2 x q, run_sets o1 = Some x -> run_sets o2 = Some x -> effect o2 (effect o1 q) = effect o2 q.
Proof. intros [] [] x [] A B; cbn in A, B; try discriminate; try congruence; reflexivity. Qed.
Lemma effect_swap : forall o1 o2 x y q, run_sets o1 = Some x -> run_sets o2 = Some y -> x <> y -> effect o2 (effect o1 q) = effect o1 (effect o2 q).
Proof. intros [] [] x y [] A B N; cbn in A, B; try discriminate; try congruence; reflexivity. Qed.

(** ** paragraphs *)
Lemma set_nth_twice : forall A (l : list A) i x y, set_nth (set_nth l i x) i y = set_nth l i y.
Proof. induction l; intros [|i] x y; cbn; f_equal; auto. Qed.
Lemma set_nth_swap : forall A (l : list A) i j x y, i <> j -> set_nth (set_nth l i x) j y = set_nth (set_nth l j y) i x.
Proof. induction l; intros [|i] [|j] x y N; cbn; try congruence; f_equal; auto. Qed.
Definition on_child (k : nat) (f : rpr -> rpr) (p : para) : res para :=
  match nth_error (para_children p) k with
  | Some (PRun r) => bind (on_rpr f r) (fun r' => Ok (set_para_children (set_nth (para_children p) k (PRun r')) p))
  | Some (PLink id r) => bind (on_rpr f r) (fun r' => Ok (set_para_children (set_nth (para_children p) k (PLink id r')) p))
  | _ => Panic
  end.
(** the update of a paragraph that a formatting call makes *)
Definition update (o : pop) (p : para) : res para :=
  match o with
  | OJc v => Ok (para_justification v p) | OStyle v => Ok (para_style v p) | ONum n l => Ok (para_numpr n l p)
  | ONumFont a e h t => Ok (para_numfont a e h t p) | ONumSize v => Ok (para_numsize v p)
  | ORun k o => on_child k (effect o) p
  | _ => Ok p
  end.
Definition in_para (o : pop) : Prop := match o with ORun _ o => run_sets o <> None | _ => para_sets o <> None end.
Lemma pop_update : forall (L : GoLib) o w p, in_para o -> exec_pop o w p = bind (update o p) (fun p' => Ok (w, p')).
Proof.
  intros L o w p K. destruct o; cbn [in_para para_sets] in K; try (exfalso; apply K; reflexivity); try reflexivity.
  cbn [exec_pop update]. unfold on_child. destruct (run_sets o) as [x|] eqn:S; [|exfalso; apply K; reflexivity].
  destruct (nth_error (para_children p) k) as [[r|id r|r]|]; try reflexivity; rewrite (rop_effect o x r S); destruct (on_rpr (effect o) r); reflexivity.
Qed.
Lemma update_no_error : forall o p e, update o p <> Err e.
Proof.
  intros o p er. destruct o; cbn; try discriminate. unfold on_child, on_rpr. destruct (nth_error (para_children p) k) as [[r|id r|r]|]; try discriminate; destruct (runR_rpr r); discriminate.
Qed.

Lemma put_put : forall l a p q r, get_para l a = Some p -> put_para (put_para l a q) a r = put_para l a r.
Proof.
  intros l [i|i rr c k] p q r G; cbn [put_para get_para] in *; [apply set_nth_twice|].
  unfold get_cell, put_cell in *. destruct (nth_error l i) as [[p0|t|s]|] eqn:N; try discriminate. destruct (nth_error (table_rows t) rr) as [x|] eqn:R; [|discriminate].
  destruct (nth_error (row_cells x) c) as [y|] eqn:C; [|discriminate]. rewrite (set_nth_same _ _ _ _ (nth_lt _ _ _ _ N)). cbn [table_rows set_table_rows].
  rewrite (set_nth_same _ _ _ _ (nth_lt _ _ _ _ R)). cbn [row_cells set_row_cells]. rewrite (set_nth_same _ _ _ _ (nth_lt _ _ _ _ C)). cbn [cell_paras set_cell_paras].
  rewrite !set_nth_twice. destruct t, x, y. cbn. reflexivity.
Qed.

Definition upd (d : nat) (a : addr) (U : para -> res para) (w : world) : option world :=
  match nth_error w d with
  | None => None
  | Some x => match get_para (d_items x) a with
              | None => None
              | Some p => match U p with Ok p' => Some (set_nth w d (set_d_items (put_para (d_items x) a p') x)) | _ => None end
              end
  end.
Lemma run_upd : forall (L : GoLib) d a o w, in_para o -> run_ops [OPara d a o] w = upd d a (update o) w.
Proof.
  intros L d a o w K. cbn [run_ops exec]. unfold upd. destruct (nth_error w d) as [x|] eqn:N; [|reflexivity]. destruct (get_para (d_items x) a) as [p|]; [|reflexivity].
  rewrite pop_update by assumption. pose proof (update_no_error o p) as NE. destruct (update o p) as [p'|e|]; cbn [bind]; [|now destruct (NE e)|reflexivity].
  unfold on_doc. rewrite N. reflexivity.
Qed.
Lemma upd_upd : forall d a U V w, (forall p e, U p <> Err e) -> (forall p e, V p <> Err e) ->
  match upd d a U w with Some w1 => upd d a V w1 | None => None end = upd d a (fun p => bind (U p) V) w.
Proof.
  intros d a U V w NU NV. unfold upd at 1 3. destruct (nth_error w d) as [x|] eqn:N; [|reflexivity]. destruct (get_para (d_items x) a) as [p|] eqn:G; [|reflexivity].
  destruct (U p) as [p'|e|] eqn:E; cbn [bind]; [|reflexivity|reflexivity]. unfold upd. rewrite (set_nth_same _ _ _ _ (nth_lt _ _ _ _ N)). cbn [d_items set_d_items].
  rewrite (get_put_same _ _ _ _ G). destruct (V p'); [|reflexivity|reflexivity]. rewrite set_nth_twice, (put_put _ _ _ _ _ G). destruct x. reflexivity.
Qed.
Lemma upd_ext : forall d a U V w, (forall p, U p = V p) -> upd d a U w = upd d a V w.
Proof. intros d a U V w K. unfold upd. destruct (nth_error w d); [|reflexivity]. destruct (get_para _ a); [|reflexivity]. now rewrite K. Qed.
Lemma two_upd : forall (L : GoLib) d a o1 o2 w, in_para o1 -> in_para o2 -> run_ops [OPara d a o1; OPara d a o2] w = upd d a (fun p => bind (update o1 p) (update o2)) w.
Proof.
  intros L d a o1 o2 w K1 K2. change [OPara d a o1; OPara d a o2] with ([OPara d a o1] ++ [OPara d a o2])%list. rewrite run_split, run_upd by assumption.
  rewrite <- upd_upd by apply update_no_error. destruct (upd d a (update o1) w); [|reflexivity]. now apply run_upd.
Qed.

Lemma children_set : forall c p, para_children (set_para_children c p) = c.
Proof. intros c [[]]; reflexivity. Qed.
Lemma children_twice : forall c c' p, set_para_children c' (set_para_children c p) = set_para_children c' p.
Proof. intros c c' [[]]; reflexivity. Qed.
Lemma child_same : forall k f g p, bind (on_child k f p) (on_child k g) = on_child k (fun q => g (f q)) p.
Proof.
  intros k f g p. unfold on_child at 1 3. destruct (nth_error (para_children p) k) as [[r|id r|r]|] eqn:N; try reflexivity; unfold on_rpr; destruct (runR_rpr r) as [q|] eqn:Q; try reflexivity; cbn [bind];
    unfold on_child; rewrite children_set, (set_nth_same _ _ _ _ (nth_lt _ _ _ _ N)); unfold on_rpr; cbn [runR_rpr set_runR_rpr bind]; rewrite children_twice, set_nth_twice; destruct r; reflexivity.
Qed.
Lemma child_ext : forall k f g p, (forall q, f q = g q) -> on_child k f p = on_child k g p.
Proof. intros k f g p K. unfold on_child, on_rpr. destruct (nth_error (para_children p) k) as [[r|id r|r]|]; try reflexivity; destruct (runR_rpr r); try reflexivity; now rewrite K. Qed.
Lemma child_other : forall k j f g p, k <> j -> bind (on_child k f p) (on_child j g) = bind (on_child j g p) (on_child k f).
Proof.
  intros k j f g p N.
  destruct (nth_error (para_children p) k) as [[r|id r|r]|] eqn:A; destruct (nth_error (para_children p) j) as [[s|jd s|s]|] eqn:B;
    unfold on_child, on_rpr; rewrite ?A, ?B; try destruct (runR_rpr r) eqn:R; try destruct (runR_rpr s) eqn:S; cbn [bind];
    rewrite ?children_set, ?set_nth_other, ?A, ?B by congruence; rewrite ?R, ?S; cbn [bind]; try reflexivity;
    rewrite ?children_twice, (set_nth_swap _ _ k j) by assumption; reflexivity.
Qed.
Lemma ppr_child : forall k f F p, bind (on_child k f p) (fun p' => Ok (set_para_ppr (F (para_ppr p')) p')) = on_child k f (set_para_ppr (F (para_ppr p)) p).
Proof.
  intros k f F [[pp ch fl]]. unfold on_child.
  change (para_children (set_para_ppr (F (para_ppr (Para {| paraR_ppr := pp; paraR_children := ch; paraR_file := fl |}))) (Para {| paraR_ppr := pp; paraR_children := ch; paraR_file := fl |}))) with ch.
  change (para_children (Para {| paraR_ppr := pp; paraR_children := ch; paraR_file := fl |})) with ch.
  destruct (nth_error ch k) as [[r|id r|r]|]; try reflexivity; destruct (on_rpr f r); reflexivity.
Qed.
(** the setters of a paragraph, as functions of its properties *)
Definition prop_effect (o : pop) (v : option ppr) : option ppr :=
  let q := match v with Some q => q | None => ppr0 end in
  match o with
  | OJc v => Some (set_ppr_jc (Some v) q)
  | OStyle v => Some (set_ppr_style (Some v) q)
  | ONum n l => Some (set_ppr_num (Some (mk_numpr (Some n) (Some l))) (set_ppr_rpr (Some (the_rpr q)) q))
  | ONumFont a e h t => Some (set_ppr_rpr (Some (set_rpr_fonts (Some (mk_rfonts a e h t)) (the_rpr q))) q)
  | ONumSize v => Some (set_ppr_rpr (Some (set_rpr_size (Some v) (the_rpr q))) q)
  | _ => v
  end.
Lemma para_effect : forall o x, para_sets o = Some x -> update o = fun p => Ok (set_para_ppr (prop_effect o (para_ppr p)) p).
Proof. intros [] x K; try discriminate K; reflexivity. Qed.
Lemma prop_swap : forall o1 o2 x y v, para_sets o1 = Some x -> para_sets o2 = Some y -> x <> y -> prop_effect o2 (prop_effect o1 v) = prop_effect o1 (prop_effect o2 v).
Proof.
  intros o1 o2 x y v A B N. destruct o1; try discriminate A; destruct o2; try discriminate B; cbn in A, B; try congruence;
    destruct v as [[? ? ? ? ? ? ? ? ? [[]|]]|]; reflexivity.
Qed.
Lemma update_last : forall o1 o2 p, match o1, o2 with ORun k1 a, ORun k2 b => k1 = k2 /\ exists x, run_sets a = Some x /\ run_sets b = Some x
    | _, _ => exists x, para_sets o1 = Some x /\ para_sets o2 = Some x end -> bind (update o1 p) (update o2) = update o2 p.
Proof.
  intros o1 o2 p K. destruct o1, o2; try (destruct K as (x & A & B); cbn in A, B; congruence);
    try (destruct p as [[[[]|] ch fl]]; reflexivity).
  destruct K as (<- & x & A & B). change (bind (on_child k (effect o) p) (on_child k (effect o0)) = on_child k (effect o0) p). rewrite child_same. apply child_ext. intros q. eapply effect_last; eauto.
Qed.

Lemma child_para : forall k o o2 y p, para_sets o2 = Some y -> bind (update (ORun k o) p) (update o2) = bind (update o2 p) (update (ORun k o)).
Proof.
  intros k o o2 y p B. rewrite (para_effect _ _ B). change (bind (on_child k (effect o) p) (fun p' => Ok (set_para_ppr (prop_effect o2 (para_ppr p')) p')) = on_child k (effect o) (set_para_ppr (prop_effect o2 (para_ppr p)) p)).
  apply ppr_child.
Qed.
Lemma update_swap : forall d a o1 o2 s t p, sets (OPara d a o1) = Some s -> sets (OPara d a o2) = Some t -> s <> t ->
  bind (update o1 p) (update o2) = bind (update o2 p) (update o1).
Proof.
  assert (PP : forall o1 o2 x y p, para_sets o1 = Some x -> para_sets o2 = Some y -> x <> y -> bind (update o1 p) (update o2) = bind (update o2 p) (update o1)).
  { intros o1 o2 x y p A B N. rewrite (para_effect _ _ A), (para_effect _ _ B). cbn [bind]. f_equal.
    change (set_para_ppr (prop_effect o2 (prop_effect o1 (para_ppr p))) p = set_para_ppr (prop_effect o1 (prop_effect o2 (para_ppr p))) p). now rewrite (prop_swap o1 o2 x y). }
  assert (CL : forall d a o, (exists k r, o = ORun k r) \/ sets (OPara d a o) = match para_sets o with Some x => Some (TPara d a x) | None => None end).
  { intros d a []; try (right; reflexivity); left; eauto. }
  intros d a o1 o2 s t p A B N.
  destruct (CL d a o1) as [(k & r & ->)|E1]; destruct (CL d a o2) as [(j & u & ->)|E2].
  - cbn in A, B. destruct (run_sets r) as [x|] eqn:X; [|discriminate]. destruct (run_sets u) as [y|] eqn:Y; [|discriminate]. injection A as <-. injection B as <-.
    change (bind (on_child k (effect r) p) (on_child j (effect u)) = bind (on_child j (effect u) p) (on_child k (effect r))).
    destruct (Nat.eq_dec k j) as [<-|NE]; [|now apply child_other]. rewrite !child_same. apply child_ext. intros q. apply (effect_swap r u x y); congruence.
  - rewrite E2 in B. destruct (para_sets o2) as [y|] eqn:Y; [|discriminate]. eapply child_para; eauto.
  - rewrite E1 in A. destruct (para_sets o1) as [x|] eqn:X; [|discriminate]. symmetry. eapply child_para; eauto.
  - rewrite E1 in A. rewrite E2 in B. destruct (para_sets o1) as [x|] eqn:X; [|discriminate]. destruct (para_sets o2) as [y|] eqn:Y; [|discriminate].
    eapply PP; eauto. congruence.
Qed.

(** ** tables, rows and cells *)
Lemma items_twice : forall l l' x, set_d_items l' (set_d_items l x) = set_d_items l' x.
Proof. intros l l' []; reflexivity. Qed.
Lemma items_set : forall l x, d_items (set_d_items l x) = l.
Proof. intros l []; reflexivity. Qed.
(** ** two calls *)
Lemma sets_in_para : forall d a o t, sets (OPara d a o) = Some t -> in_para o.
Proof.
  intros d a o t K. destruct o; cbn in *; try discriminate K; try discriminate. destruct (run_sets o); discriminate.
Qed.
Lemma table_last : forall (L : GoLib) d i v v' w, run_ops [OTableJc d i v; OTableJc d i v'] w = run_ops [OTableJc d i v'] w.
Proof.
  intros L d i v v' w. cbn [run_ops exec]. unfold on_doc. destruct (nth_error w d) as [x|] eqn:N; [|reflexivity].
  destruct (nth_error (d_items x) i) as [[p|t|s]|] eqn:I; try reflexivity. unfold table_justification. destruct (table_props t) as [q|] eqn:Q; [|reflexivity]. cbn [bind].
  rewrite (set_nth_same _ _ _ _ (nth_lt _ _ _ _ N)), items_set, (set_nth_same _ _ _ _ (nth_lt _ _ _ _ I)). cbn [table_props set_table_props bind].
  rewrite !set_nth_twice, items_twice. destruct t, q; reflexivity.
Qed.
Lemma row_last : forall (L : GoLib) d i r v v' w, run_ops [ORowJc d i r v; ORowJc d i r v'] w = run_ops [ORowJc d i r v'] w.
Proof.
  intros L d i r v v' w. cbn [run_ops exec]. unfold on_doc. destruct (nth_error w d) as [x|] eqn:N; [|reflexivity].
  destruct (nth_error (d_items x) i) as [[p|t|s]|] eqn:I; try reflexivity. destruct (nth_error (table_rows t) r) as [y|] eqn:R; [|reflexivity].
  unfold row_justification. destruct (row_props y) as [q|] eqn:Q; [|reflexivity]. cbn [bind].
  rewrite (set_nth_same _ _ _ _ (nth_lt _ _ _ _ N)), items_set, (set_nth_same _ _ _ _ (nth_lt _ _ _ _ I)). cbn [table_rows set_table_rows].
  rewrite (set_nth_same _ _ _ _ (nth_lt _ _ _ _ R)). cbn [row_props set_row_props bind].
  rewrite !set_nth_twice, items_twice. destruct t, y, q; reflexivity.
Qed.
Lemma cell_get_put : forall l i r c y z, get_cell l i r c = Some y -> get_cell (put_cell l i r c z) i r c = Some z.
Proof.
  intros l i r c y z G. unfold get_cell, put_cell in *. destruct (nth_error l i) as [[p0|t|s]|] eqn:N; try discriminate. destruct (nth_error (table_rows t) r) as [x|] eqn:R; [|discriminate].
  rewrite (set_nth_same _ _ _ _ (nth_lt _ _ _ _ N)). cbn [table_rows set_table_rows]. rewrite (set_nth_same _ _ _ _ (nth_lt _ _ _ _ R)). cbn [row_cells set_row_cells].
  apply set_nth_same. eapply nth_lt; eauto.
Qed.
Lemma cell_put_put : forall l i r c y z, put_cell (put_cell l i r c y) i r c z = put_cell l i r c z.
Proof.
  intros l i r c y z. unfold put_cell. destruct (nth_error l i) as [[p0|t|s]|] eqn:N; rewrite ?N; try reflexivity. destruct (nth_error (table_rows t) r) as [x|] eqn:R; [|rewrite N, R; reflexivity].
  rewrite (set_nth_same _ _ _ _ (nth_lt _ _ _ _ N)). cbn [table_rows set_table_rows]. rewrite (set_nth_same _ _ _ _ (nth_lt _ _ _ _ R)). cbn [row_cells set_row_cells].
  rewrite !set_nth_twice. destruct t, x; reflexivity.
Qed.
Lemma cell_last : forall (L : GoLib) d i r c v k f v' k' f' w, run_ops [OCellShade d i r c v k f; OCellShade d i r c v' k' f'] w = run_ops [OCellShade d i r c v' k' f'] w.
Proof.
  intros L d i r c v k f v' k' f' w. cbn [run_ops exec]. unfold on_doc. destruct (nth_error w d) as [x|] eqn:N; [|reflexivity].
  destruct (get_cell (d_items x) i r c) as [y|] eqn:G; [|reflexivity].
  unfold cell_shade. destruct (cell_props y) as [q|] eqn:Q; [|reflexivity]. cbn [bind].
  rewrite (set_nth_same _ _ _ _ (nth_lt _ _ _ _ N)), items_set, (cell_get_put _ _ _ _ _ _ G). cbn [cell_props set_cell_props bind].
  rewrite !set_nth_twice, items_twice, cell_put_put. destruct y, q; reflexivity.
Qed.
Lemma sets_run : forall d a o t, sets (OPara d a o) = Some t -> (exists k r x, o = ORun k r /\ run_sets r = Some x /\ t = TRun d a k x) \/ (exists x, para_sets o = Some x /\ t = TPara d a x).
Proof.
  intros d a o t K. destruct o; cbn in K; try discriminate K; try (injection K as <-; right; eexists; split; reflexivity).
  destruct (run_sets o) as [x|] eqn:X; [|discriminate]. injection K as <-. left. exists k, o, x. auto.
Qed.
Lemma two_last : forall (L : GoLib) o1 o2 t w, sets o1 = Some t -> sets o2 = Some t -> run_ops [o1; o2] w = run_ops [o2] w.
Proof.
  intros L o1 o2 t w A B. destruct o1; try discriminate A.
  - destruct o2; try discriminate B; try (destruct (sets_run _ _ _ _ A) as [(? & ? & ? & _ & _ & ->)|(? & _ & ->)]; discriminate B).
    pose proof (sets_in_para _ _ _ _ A) as I1. pose proof (sets_in_para _ _ _ _ B) as I2.
    assert (D : d0 = d /\ a0 = a /\ forall p, bind (update o p) (update o0) = update o0 p).
    { destruct (sets_run _ _ _ _ A) as [(k & r & x & -> & X & ->)|(x & X & ->)]; destruct (sets_run _ _ _ _ B) as [(k' & r' & x' & -> & X' & E)|(x' & X' & E)]; try discriminate E; injection E as -> -> E; [destruct E|]; subst.
      all: split; [reflexivity|]; split; [reflexivity|]; intros p; apply update_last.
      - split; [congruence|]. exists x'. split; congruence.
      - destruct o; try discriminate X; destruct o0; try discriminate X'; eexists; eauto. }
    destruct D as (-> & -> & D). rewrite two_upd, run_upd by assumption. now apply upd_ext.
  - destruct o2; try discriminate B; try (destruct (sets_run _ _ _ _ B) as [(? & ? & ? & _ & _ & ->)|(? & _ & ->)]; discriminate A); try (cbn in A, B; congruence).
    cbn in A, B. injection A as <-. injection B as -> ->. apply table_last.
  - destruct o2; try discriminate B; try (destruct (sets_run _ _ _ _ B) as [(? & ? & ? & _ & _ & ->)|(? & _ & ->)]; discriminate A); try (cbn in A, B; congruence).
    cbn in A, B. injection A as <-. injection B as -> -> ->. apply row_last.
  - destruct o2; try discriminate B; try (destruct (sets_run _ _ _ _ B) as [(? & ? & ? & _ & _ & ->)|(? & _ & ->)]; discriminate A); try (cbn in A, B; congruence).
    cbn in A, B. injection A as <-. injection B as -> -> -> ->. apply cell_last.
Qed.
(** *** updates of parts that may fail *)
Definition step {A B : Type} (x : option A) (f : A -> option B) : option B := match x with Some y => f y | None => None end.
Definition comm {A : Type} (f g : A -> option A) : Prop := forall x, step (f x) g = step (g x) f.
Definition at_nth {A : Type} (i : nat) (f : A -> option A) (l : list A) : option (list A) := step (nth_error l i) (fun x => step (f x) (fun y => Some (set_nth l i y))).
Lemma at_comm : forall A (f g : A -> option A) i j, (i = j -> comm f g) -> comm (at_nth i f) (at_nth j g).
Proof.
  intros A f g i j K l. unfold at_nth, step. destruct (Nat.eq_dec i j) as [<-|N].
  - specialize (K eq_refl). destruct (nth_error l i) as [x|] eqn:E; [|reflexivity]. specialize (K x). unfold step in K.
    destruct (f x) as [y|] eqn:F; destruct (g x) as [z|] eqn:G; rewrite ?(set_nth_same _ _ _ _ (nth_lt _ _ _ _ E)); try reflexivity.
    + rewrite K. destruct (f z); [|reflexivity]. now rewrite !set_nth_twice.
    + now rewrite K.
    + now rewrite <- K.
  - destruct (nth_error l i) as [x|] eqn:E; destruct (nth_error l j) as [y|] eqn:F; try (destruct (f x) eqn:P); try (destruct (g y) eqn:Q); rewrite ?set_nth_other, ?E, ?F, ?P, ?Q by congruence; try reflexivity.
    now rewrite (set_nth_swap _ _ i j).
Qed.
Definition in_rows (f : list row -> option (list row)) (t : table) : option table := step (f (table_rows t)) (fun l => Some (set_table_rows l t)).
Definition in_cells (f : list cell -> option (list cell)) (r : row) : option row := step (f (row_cells r)) (fun l => Some (set_row_cells l r)).
Definition in_paras (f : list para -> option (list para)) (c : cell) : option cell := step (f (cell_paras c)) (fun l => Some (set_cell_paras l c)).
Definition in_table (f : table -> option table) (x : item) : option item := match x with ITable t => step (f t) (fun t' => Some (ITable t')) | _ => None end.
Definition in_paragraph (f : para -> option para) (x : item) : option item := match x with IPara p => step (f p) (fun p' => Some (IPara p')) | _ => None end.
Definition in_items (f : list item -> option (list item)) (d : docx) : option docx := step (f (d_items d)) (fun l => Some (set_d_items l d)).
Definition tprops (v : string) (t : table) : option table := step (table_props t) (fun q => Some (set_table_props (Some (set_tblpr_jc (Some v) q)) t)).
Definition rprops (v : string) (r : row) : option row := step (row_props r) (fun q => Some (set_row_props (Some (set_trpr_jc (Some v) q)) r)).
Definition cprops (v k f : string) (c : cell) : option cell := step (cell_props c) (fun q => Some (set_cell_props (Some (set_tcpr_shade (Some (mk_shade v k f "" "")) q)) c)).
Lemma rows_comm : forall f g, comm f g -> comm (in_rows f) (in_rows g).
Proof.
  intros f g K x. specialize (K (table_rows x)). unfold in_rows, step in *.
  assert (S : forall l, table_rows (set_table_rows l x) = l) by (destruct x; reflexivity). assert (T : forall l l', set_table_rows l' (set_table_rows l x) = set_table_rows l' x) by (destruct x; reflexivity).
  destruct (f (table_rows x)) as [y|]; destruct (g (table_rows x)) as [z|]; rewrite ?S; [rewrite K; destruct (f z); [now rewrite !T|reflexivity]|now rewrite K|now rewrite <- K|reflexivity].
Qed.
Lemma cells_comm : forall f g, comm f g -> comm (in_cells f) (in_cells g).
Proof.
  intros f g K x. specialize (K (row_cells x)). unfold in_cells, step in *.
  assert (S : forall l, row_cells (set_row_cells l x) = l) by (destruct x; reflexivity). assert (T : forall l l', set_row_cells l' (set_row_cells l x) = set_row_cells l' x) by (destruct x; reflexivity).
  destruct (f (row_cells x)) as [y|]; destruct (g (row_cells x)) as [z|]; rewrite ?S; [rewrite K; destruct (f z); [now rewrite !T|reflexivity]|now rewrite K|now rewrite <- K|reflexivity].
Qed.
Lemma paras_comm : forall f g, comm f g -> comm (in_paras f) (in_paras g).
Proof.
  intros f g K x. specialize (K (cell_paras x)). unfold in_paras, step in *.
  assert (S : forall l, cell_paras (set_cell_paras l x) = l) by (destruct x; reflexivity). assert (T : forall l l', set_cell_paras l' (set_cell_paras l x) = set_cell_paras l' x) by (destruct x; reflexivity).
  destruct (f (cell_paras x)) as [y|]; destruct (g (cell_paras x)) as [z|]; rewrite ?S; [rewrite K; destruct (f z); [now rewrite !T|reflexivity]|now rewrite K|now rewrite <- K|reflexivity].
Qed.
Lemma items_comm : forall f g, comm f g -> comm (in_items f) (in_items g).
Proof.
  intros f g K x. specialize (K (d_items x)). unfold in_items, step in *.
  assert (S : forall l, d_items (set_d_items l x) = l) by (destruct x; reflexivity). assert (T : forall l l', set_d_items l' (set_d_items l x) = set_d_items l' x) by (destruct x; reflexivity).
  destruct (f (d_items x)) as [y|]; destruct (g (d_items x)) as [z|]; rewrite ?S; [rewrite K; destruct (f z); [now rewrite !T|reflexivity]|now rewrite K|now rewrite <- K|reflexivity].
Qed.
Lemma tables_comm : forall f g, comm f g -> comm (in_table f) (in_table g).
Proof. intros f g K [p|t|s]; try reflexivity. specialize (K t). unfold in_table, step in *. destruct (f t) as [y|] eqn:F; destruct (g t) as [z|] eqn:G; [now rewrite K|now rewrite K|now rewrite <- K|reflexivity]. Qed.
Lemma paragraphs_comm : forall f g, comm f g -> comm (in_paragraph f) (in_paragraph g).
Proof. intros f g K [p|t|s]; try reflexivity. specialize (K p). unfold in_paragraph, step in *. destruct (f p) as [y|] eqn:F; destruct (g p) as [z|] eqn:G; [now rewrite K|now rewrite K|now rewrite <- K|reflexivity]. Qed.
Lemma kinds_comm : forall f g, comm (in_paragraph f) (in_table g).
Proof. intros f g [p|t|s]; cbn; try reflexivity; unfold step; [destruct (f p)|destruct (g t)]; reflexivity. Qed.
Lemma table_rows_comm : forall v g, comm (tprops v) (in_rows g).
Proof. intros v g x. unfold tprops, in_rows, step. destruct (table_props x) as [q|] eqn:Q.
  - replace (table_rows (set_table_props _ x)) with (table_rows x) by (destruct x; reflexivity). destruct (g (table_rows x)); [|reflexivity]. destruct x; cbn in Q |- *; subst; reflexivity.
  - destruct (g (table_rows x)); [|reflexivity]. destruct x; cbn in Q |- *; subst; reflexivity.
 Qed.
Lemma row_cells_comm : forall v g, comm (rprops v) (in_cells g).
Proof. intros v g x. unfold rprops, in_cells, step. destruct (row_props x) as [q|] eqn:Q.
  - replace (row_cells (set_row_props _ x)) with (row_cells x) by (destruct x; reflexivity). destruct (g (row_cells x)); [|reflexivity]. destruct x; cbn in Q |- *; subst; reflexivity.
  - destruct (g (row_cells x)); [|reflexivity]. destruct x; cbn in Q |- *; subst; reflexivity.
 Qed.
Lemma cell_paras_comm : forall v k f g, comm (cprops v k f) (in_paras g).
Proof. intros v k f g x. unfold cprops, in_paras, step. destruct (cell_props x) as [q|] eqn:Q.
  - replace (cell_paras (set_cell_props _ x)) with (cell_paras x) by (destruct x; reflexivity). destruct (g (cell_paras x)); [|reflexivity]. destruct x; cbn in Q |- *; subst; reflexivity.
  - destruct (g (cell_paras x)); [|reflexivity]. destruct x; cbn in Q |- *; subst; reflexivity.
 Qed.
Lemma comm_sym : forall A (f g : A -> option A), comm f g -> comm g f.
Proof. intros A f g K x. symmetry. apply K. Qed.

Definition upd_para (o : pop) (p : para) : option para := match update o p with Ok p' => Some p' | _ => None end.
Definition change_at (a : addr) (f : para -> option para) : list item -> option (list item) :=
  match a with
  | ABody i => at_nth i (in_paragraph f)
  | ACell i r c k => at_nth i (in_table (in_rows (at_nth r (in_cells (at_nth c (in_paras (at_nth k f)))))))
  end.
(** what a formatting call does to the body of which document *)
Definition change (o : op) : option (nat * (list item -> option (list item))) :=
  match o with
  | OPara d a o => Some (d, change_at a (upd_para o))
  | OTableJc d i v => Some (d, at_nth i (in_table (tprops v)))
  | ORowJc d i r v => Some (d, at_nth i (in_table (in_rows (at_nth r (rprops v)))))
  | OCellShade d i r c v k f => Some (d, at_nth i (in_table (in_rows (at_nth r (in_cells (at_nth c (cprops v k f)))))))
  | _ => None
  end.
Lemma change_at_spec : forall l a f, change_at a f l = step (get_para l a) (fun p => step (f p) (fun p' => Some (put_para l a p'))).
Proof.
  intros l [i|i r c k] f; cbn [change_at get_para put_para]; unfold at_nth, step.
  - destruct (nth_error l i) as [[p|t|s]|]; try reflexivity. cbn. unfold step. destruct (f p); reflexivity.
  - unfold get_cell, put_cell. destruct (nth_error l i) as [[p|t|s]|]; try reflexivity. cbn. unfold in_rows, step. destruct (nth_error (table_rows t) r) as [x|]; [|reflexivity].
    unfold in_cells, step. destruct (nth_error (row_cells x) c) as [y|]; [|reflexivity]. unfold in_paras, step. destruct (nth_error (cell_paras y) k) as [p|]; [|reflexivity]. destruct (f p); reflexivity.
Qed.
Lemma run_change : forall (L : GoLib) o t w, sets o = Some t -> exists d f, change o = Some (d, f) /\ run_ops [o] w = at_nth d (in_items f) w.
Proof.
  intros L o t w S. destruct o; try discriminate S; eexists; eexists; (split; [reflexivity|]).
  - rewrite run_upd by (eapply sets_in_para; eauto). unfold upd, at_nth, in_items. destruct (nth_error w d) as [x|]; [|reflexivity]. cbn [step].
    rewrite change_at_spec. destruct (get_para (d_items x) a) as [p|]; [|reflexivity]. cbn [step]. unfold upd_para. destruct (update o p); reflexivity.
  - cbn [run_ops exec]. unfold on_doc, at_nth at 1, in_items. destruct (nth_error w d) as [x|]; [|reflexivity]. cbn [step]. unfold at_nth. destruct (nth_error (d_items x) i) as [[p|t0|s]|]; try reflexivity.
    cbn [step in_table]. unfold table_justification, tprops. destruct (table_props t0); reflexivity.
  - cbn [run_ops exec]. unfold on_doc, at_nth at 1, in_items. destruct (nth_error w d) as [x|]; [|reflexivity]. cbn [step]. unfold at_nth. destruct (nth_error (d_items x) i) as [[p|t0|s]|]; try reflexivity.
    cbn [step in_table]. unfold in_rows. destruct (nth_error (table_rows t0) r) as [y|]; [|reflexivity]. cbn [step]. unfold row_justification, rprops. destruct (row_props y); reflexivity.
  - cbn [run_ops exec]. unfold on_doc, at_nth at 1, in_items. destruct (nth_error w d) as [x|]; [|reflexivity]. cbn [step]. unfold at_nth, get_cell, put_cell. destruct (nth_error (d_items x) i) as [[p|t0|s]|]; try reflexivity.
    cbn [step in_table]. unfold in_rows. destruct (nth_error (table_rows t0) r) as [y|]; [|reflexivity]. cbn [step]. unfold in_cells. destruct (nth_error (row_cells y) c) as [z|]; [|reflexivity].
    cbn [step]. unfold cell_shade, cprops. destruct (cell_props z); reflexivity.
Qed.
Lemma para_comm : forall d a o1 o2 s t, sets (OPara d a o1) = Some s -> sets (OPara d a o2) = Some t -> s <> t -> comm (upd_para o1) (upd_para o2).
Proof.
  intros d a o1 o2 s t A B N p. pose proof (update_swap d a o1 o2 s t p A B N) as K. unfold upd_para, step.
  pose proof (update_no_error o1 p) as E1. pose proof (update_no_error o2 p) as E2.
  destruct (update o1 p) as [p1|e|]; [|now destruct (E1 e)|]; (destruct (update o2 p) as [p2|e|]; [|now destruct (E2 e)|]); cbn [bind] in K; rewrite ?K; try rewrite <- K; reflexivity.
Qed.
Lemma change_comm : forall o1 o2 s t d f g, sets o1 = Some s -> sets o2 = Some t -> s <> t -> change o1 = Some (d, f) -> change o2 = Some (d, g) -> comm f g.
Proof.
  assert (PP : forall d a b o1 o2 s t, sets (OPara d a o1) = Some s -> sets (OPara d b o2) = Some t -> s <> t -> comm (change_at a (upd_para o1)) (change_at b (upd_para o2))).
  { intros d a b o1 o2 s t A B N. destruct a as [i|i r c k], b as [i'|i' r' c' k']; cbn [change_at]; apply at_comm; intros <-.
    - apply paragraphs_comm. eapply para_comm; eauto.
    - apply kinds_comm.
    - apply comm_sym, kinds_comm.
    - apply tables_comm, rows_comm, at_comm. intros <-. apply cells_comm, at_comm. intros <-. apply paras_comm, at_comm. intros <-. eapply para_comm; eauto. }
  assert (PT : forall a h i v, comm (change_at a h) (at_nth i (in_table (tprops v)))).
  { intros [i|i r c k] h j v; cbn [change_at]; apply at_comm; intros _; [apply kinds_comm|]. apply tables_comm, comm_sym, table_rows_comm. }
  assert (PR : forall a h i r v, comm (change_at a h) (at_nth i (in_table (in_rows (at_nth r (rprops v)))))).
  { intros [i|i r c k] h j q v; cbn [change_at]; apply at_comm; intros _; [apply kinds_comm|]. apply tables_comm, rows_comm, at_comm. intros _. apply comm_sym, row_cells_comm. }
  assert (PC : forall a h i r c v k f, comm (change_at a h) (at_nth i (in_table (in_rows (at_nth r (in_cells (at_nth c (cprops v k f)))))))).
  { intros [i|i r c k] h j q u v k' f; cbn [change_at]; apply at_comm; intros _; [apply kinds_comm|]. apply tables_comm, rows_comm, at_comm. intros _. apply cells_comm, at_comm. intros _.
    apply comm_sym, cell_paras_comm. }
  intros o1 o2 s t d f g A B N E F.
  destruct o1; try discriminate A; destruct o2; try discriminate B; cbn [change] in E, F; injection E as -> <-; injection F as -> <-; auto.
  - eapply PP; eauto.
  - apply comm_sym. auto.
  - cbn in A, B. injection A as <-. injection B as <-. apply at_comm. intros <-. now destruct N.
  - apply at_comm. intros _. apply tables_comm, table_rows_comm.
  - apply at_comm. intros _. apply tables_comm, table_rows_comm.
  - apply comm_sym. auto.
  - apply at_comm. intros _. apply tables_comm, comm_sym, table_rows_comm.
  - cbn in A, B. injection A as <-. injection B as <-. apply at_comm. intros <-. apply tables_comm, rows_comm, at_comm. intros <-. now destruct N.
  - apply at_comm. intros _. apply tables_comm, rows_comm, at_comm. intros _. apply row_cells_comm.
  - apply comm_sym. auto.
  - apply at_comm. intros _. apply tables_comm, comm_sym, table_rows_comm.
  - apply at_comm. intros _. apply tables_comm, rows_comm, at_comm. intros _. apply comm_sym, row_cells_comm.
  - cbn in A, B. injection A as <-. injection B as <-. apply at_comm. intros <-. apply tables_comm, rows_comm, at_comm. intros <-. apply cells_comm, at_comm. intros <-. now destruct N.
Qed.
Lemma two_swap : forall (L : GoLib) o1 o2 s t w, sets o1 = Some s -> sets o2 = Some t -> s <> t -> run_ops [o1; o2] w = run_ops [o2; o1] w.
Proof.
  intros L o1 o2 s t w A B N. destruct (run_change L o1 s w A) as (d & f & C1 & _). destruct (run_change L o2 t w B) as (e & g & C2 & _).
  assert (R1 : forall w, run_ops [o1] w = at_nth d (in_items f) w). { intros v. destruct (run_change L o1 s v A) as (d' & f' & E & ->). rewrite C1 in E. injection E as <- <-. reflexivity. }
  assert (R2 : forall w, run_ops [o2] w = at_nth e (in_items g) w). { intros v. destruct (run_change L o2 t v B) as (d' & f' & E & ->). rewrite C2 in E. injection E as <- <-. reflexivity. }
  assert (K : comm (at_nth d (in_items f)) (at_nth e (in_items g))). { apply at_comm. intros <-. apply items_comm. exact (change_comm o1 o2 s t d f g A B N C1 C2). }
  specialize (K w). change [o1; o2] with ([o1] ++ [o2])%list. change [o2; o1] with ([o2] ++ [o1])%list. rewrite !run_split, R1, R2. unfold step in K.
  destruct (at_nth d (in_items f) w) as [w1|]; destruct (at_nth e (in_items g) w) as [w2|]; rewrite ?R1, ?R2; exact K.
Qed.

(** ** in memory *)
Lemma first_drop : forall l1 o l2, formatted_first (l1 ++ o :: l2)%list -> formatted_first (l1 ++ l2)%list.
Proof.
  intros l1 o l2 (a & b & E & A & B). revert a E A. induction l1 as [|x l1 IH]; intros [|y a] E A; cbn in E.
  - exists [], l2. split; [reflexivity|]. split; [intros ? []|]. intros z I. apply B. rewrite <- E. now right.
  - injection E as <- ->. exists a, b. split; [reflexivity|]. split; [intros z I; apply A; now right|exact B].
  - exists [], (x :: l1 ++ l2)%list. split; [reflexivity|]. split; [intros ? []|]. intros z I. apply B. rewrite <- E. destruct I as [I|I]; [now left|right].
    apply in_app_iff in I. apply in_or_app. destruct I; [now left|right; now right].
  - injection E as <- E. destruct (IH a E) as (a' & b' & F & A' & B'); [intros z I; apply A; now right|].
    exists (x :: a'), b'. split; [cbn; now f_equal|]. split; [|exact B']. intros z [<-|I]; [apply A; now left|now apply A'].
Qed.
Lemma sets_formats : forall o t, sets o = Some t -> formats o = true.
Proof.
  intros y t' K. destruct y; try discriminate K; try reflexivity. destruct (sets_run _ _ _ _ K) as [(k & r & x & -> & X & _)|(x & X & _)]; [destruct r|destruct o]; try discriminate X; reflexivity.
Qed.
Lemma first_swap : forall l1 o1 o2 l2, formats o1 = true -> formats o2 = true -> formatted_first (l1 ++ o1 :: o2 :: l2)%list -> formatted_first (l1 ++ o2 :: o1 :: l2)%list.
Proof.
  intros l1 o1 o2 l2 F1 F2 (a & b & E & A & B). revert a E A. induction l1 as [|x l1 IH]; intros [|y a] E A; cbn in E.
  - rewrite (B o1) in F1; [discriminate|]. rewrite <- E. now left.
  - injection E as <- E. destruct a as [|z a]; cbn in E.
    + rewrite (B o2) in F2; [discriminate|]. rewrite <- E. now left.
    + injection E as <- ->. exists (o2 :: o1 :: a), b. split; [reflexivity|]. split; [|exact B]. intros z I. apply A. cbn in *. tauto.
  - rewrite (B o1) in F1; [discriminate|]. rewrite <- E. right. apply in_or_app. right. now left.
  - injection E as <- E. destruct (IH a E) as (a' & b' & F & A' & B'); [intros z I; apply A; now right|].
    exists (x :: a'), b'. split; [cbn; now f_equal|]. split; [|exact B']. intros z [<-|I]; [apply A; now left|now apply A'].
Qed.
Lemma last_wins : forall (L : GoLib) l1 o1 o2 l2 t, sets o1 = Some t -> sets o2 = Some t -> formatted_first (l1 ++ o1 :: o2 :: l2)%list ->
  documents (l1 ++ o1 :: o2 :: l2)%list = documents (l1 ++ o2 :: l2)%list.
Proof.
  intros L l1 o1 o2 l2 t A B F. rewrite !first_documents by (eauto using first_drop). rewrite !run_split. destruct (run_ops l1 []) as [w|]; [|reflexivity].
  change (o1 :: o2 :: l2) with ([o1; o2] ++ l2)%list. change (o2 :: l2) with ([o2] ++ l2)%list. now rewrite !run_split, (two_last L o1 o2 t).
Qed.
Lemma any_order : forall (L : GoLib) l1 o1 o2 l2 s t, sets o1 = Some s -> sets o2 = Some t -> s <> t -> formatted_first (l1 ++ o1 :: o2 :: l2)%list ->
  documents (l1 ++ o1 :: o2 :: l2)%list = documents (l1 ++ o2 :: o1 :: l2)%list.
Proof.
  intros L l1 o1 o2 l2 s t A B N F. rewrite !first_documents by (eauto using first_swap, sets_formats). rewrite !run_split. destruct (run_ops l1 []) as [w|]; [|reflexivity].
  change (o1 :: o2 :: l2) with ([o1; o2] ++ l2)%list. change (o2 :: o1 :: l2) with ([o2; o1] ++ l2)%list. now rewrite !run_split, (two_swap L o1 o2 s t).
Qed.
