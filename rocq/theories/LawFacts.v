(** Laws of KeepElements and the Drop functions. *)
From Coq Require Import String Ascii List Bool Arith NArith ZArith Lia.
From Verif Require Import GoStr Num Lib Types Docx Api Keep Copy History HistFacts2 VerbFacts.
Import ListNotations.
Local Open Scope list_scope.
Local Open Scope string_scope.

Section Laws.
Context `{GoLib}.

Lemma keep_both : forall A (ty : A -> string) a b c l, (forall n, In n c <-> In n a /\ In n b) -> keep_named ty b (keep_named ty a l) = keep_named ty c l.
Proof.
  intros A ty a b c l K. assert (M : forall n x, existsb (String.eqb n) x = true <-> In n x).
  { intros n x. rewrite existsb_exists. split; [intros (y & I & E); apply String.eqb_eq in E; now subst|intros I; exists n; split; [assumption|apply String.eqb_refl]]. }
  assert (B : forall n, existsb (String.eqb n) c = (existsb (String.eqb n) a && existsb (String.eqb n) b)%bool) by (intros n; apply eq_true_iff_eq; rewrite andb_true_iff, !M; apply K).
  induction l as [|x l IH]; cbn [keep_named]; [reflexivity|]. rewrite B. destruct (existsb _ a); cbn [keep_named andb]; [|exact IH]. destruct (existsb _ b); [|exact IH]. now rewrite IH.
Qed.
Lemma keep_all_named : forall A (ty : A -> string) a l, (forall x, In x l -> In (ty x) a) -> keep_named ty a l = l.
Proof.
  intros A ty a. induction l as [|x l IH]; intros K; cbn [keep_named]; [reflexivity|]. assert (E : existsb (String.eqb (ty x)) a = true) by (apply existsb_exists; exists (ty x); split; [apply K; now left|apply String.eqb_refl]).
  rewrite E, IH; [reflexivity|]. intros y I. apply K. now right.
Qed.
Lemma keep_map : forall A (ty : A -> string) f a l, (forall x, ty (f x) = ty x) -> keep_named ty a (map f l) = map f (keep_named ty a l).
Proof. intros A ty f a l K. induction l as [|x l IH]; cbn; [reflexivity|]. rewrite K. destruct (existsb _ a); cbn; now rewrite IH. Qed.

Lemma filter_both : forall A (f g : A -> bool) l, filter g (filter f l) = filter (fun x => f x && g x)%bool l.
Proof. intros A f g. induction l as [|x l IH]; cbn; [reflexivity|]. destruct (f x); cbn; [|exact IH]. destruct (g x); now rewrite IH. Qed.
Lemma in_para_both : forall s t u p, (forall c, u c = (s c || t c)%bool) -> drop_in_para t (drop_in_para s p) = drop_in_para u p.
Proof.
  intros s t u [[pp ch f]] K.
  assert (R : forall r, drop_in_run t (drop_in_run s r) = drop_in_run u r).
  { intros r. destruct r. unfold drop_in_run, set_runR_children. cbn. f_equal. rewrite filter_both. apply filter_ext. intros c. now rewrite K, negb_orb. }
  unfold drop_in_para, set_para_children, mk_para, para_children, para_ppr, para_file. cbn [para_r paraR_ppr paraR_children paraR_file]. f_equal. f_equal. rewrite map_map. apply map_ext. intros [r|id r|q]; cbn [drop_in_pchild]; [now rewrite R|reflexivity|reflexivity].
Qed.
Lemma para_twice : forall n p, para_drop n (para_drop n p) = para_drop n p.
Proof. intros n p. unfold para_drop. destruct (drop_test n) as [t|]; [|reflexivity]. apply in_para_both. intros c. now destruct (t c). Qed.
Lemma para_swap : forall n m p, para_drop n (para_drop m p) = para_drop m (para_drop n p).
Proof.
  intros n m p. unfold para_drop. destruct (drop_test n) as [s|], (drop_test m) as [t|]; try reflexivity.
  rewrite (in_para_both t s (fun c => s c || t c)%bool) by (intros c; apply orb_comm). now rewrite (in_para_both s t (fun c => s c || t c)%bool).
Qed.
Lemma sums : forall f g c, drops (fun d => f d || g d)%bool c = (drops f c || drops g c)%bool.
Proof.
  intros f g [t|t|t|i a]; cbn; auto. unfold data_test. destruct (inline_data i) as [d|], (anchor_data a) as [e|]; cbn; auto.
  - now destruct (f d), (g d), (f e), (g e).
  - now rewrite !orb_false_r.
Qed.
Lemma para_shape_canvas : forall p, para_drop "Canvas" (para_drop "Shape" p) = para_drop "ShapeAndCanvas" p.
Proof. intros p. apply in_para_both. intros c. apply (sums d_shape d_canvas). Qed.
Lemma para_three : forall p, para_drop "Group" (para_drop "ShapeAndCanvas" p) = para_drop "ShapeAndCanvasAndGroup" p.
Proof. intros p. apply in_para_both. intros c. apply (sums d_shape_canvas d_group). Qed.

(** to the body *)
Lemma body_both : forall n m k l, (forall p, para_drop m (para_drop n p) = para_drop k p) -> drop_drawing_of m (drop_drawing_of n l) = drop_drawing_of k l.
Proof.
  intros n m k l K. unfold drop_drawing_of. rewrite map_map. apply map_ext.
  assert (C : forall c, drop_cell m (drop_cell n c) = drop_cell k c) by (intros [a b c]; unfold drop_cell; cbn; unfold set_cell_paras; cbn; f_equal; rewrite map_map; apply map_ext; exact K).
  assert (R : forall c, drop_row m (drop_row n c) = drop_row k c) by (intros [a b]; unfold drop_row; cbn; unfold set_row_cells; cbn; f_equal; rewrite map_map; apply map_ext; exact C).
  intros [p|[a b c]|s]; cbn; [now rewrite K| |reflexivity]. unfold drop_table. cbn. unfold set_table_rows. cbn. do 2 f_equal. rewrite map_map. apply map_ext. exact R.
Qed.
Lemma body_swap : forall n m l, drop_drawing_of m (drop_drawing_of n l) = drop_drawing_of n (drop_drawing_of m l).
Proof.
  intros n m l. unfold drop_drawing_of. rewrite !map_map. apply map_ext. pose proof (para_swap m n) as K.
  assert (C : forall c, drop_cell m (drop_cell n c) = drop_cell n (drop_cell m c)) by (intros [a b c]; unfold drop_cell; cbn; unfold set_cell_paras; cbn; f_equal; rewrite !map_map; apply map_ext; exact K).
  assert (R : forall c, drop_row m (drop_row n c) = drop_row n (drop_row m c)) by (intros [a b]; unfold drop_row; cbn; unfold set_row_cells; cbn; f_equal; rewrite !map_map; apply map_ext; exact C).
  intros [p|[a b c]|s]; cbn; [now rewrite K| |reflexivity]. unfold drop_table. cbn. unfold set_table_rows. cbn. do 2 f_equal. rewrite !map_map. apply map_ext. exact R.
Qed.
Lemma drop_keep : forall n a l, body_keep a (drop_drawing_of n l) = drop_drawing_of n (body_keep a l).
Proof. intros n a l. apply keep_map. now intros [p|t|s]. Qed.
Lemma para_drop_keep : forall n a p, para_keep a (para_drop n p) = para_drop n (para_keep a p).
Proof.
  intros n a [[pp ch f]]. unfold para_drop. destruct (drop_test n) as [t|]; [|reflexivity]. unfold para_keep, drop_in_para, set_para_children, mk_para. cbn. do 2 f_equal. apply keep_map. now intros [r|id r|q].
Qed.

(** ** calls *)
Definition on_items (d : nat) (f : list item -> list item) (w : world) : option world :=
  match nth_error w d with Some x => Some (set_nth w d (set_d_items (f (d_items x)) x)) | None => None end.
Lemma doc_calls : forall d f w, match on_doc w d (fun x => Ok (set_d_items (f (d_items x)) x)) with Ok w' => Some w' | _ => None end = on_items d f w.
Proof. intros d f w. unfold on_doc, on_items. now destruct (nth_error w d). Qed.
Definition acts (o : op) (d : nat) (f : list item -> list item) : Prop := forall w, exec o w = on_doc w d (fun x => Ok (set_d_items (f (d_items x)) x)).
Lemma one_call : forall o d f w, acts o d f -> run_ops [o] w = on_items d f w.
Proof. intros o d f w K. cbn [run_ops]. rewrite K, <- doc_calls. unfold on_doc. now destruct (nth_error w d). Qed.
Lemma two_calls : forall o o' d f g w, acts o d f -> acts o' d g -> run_ops [o; o'] w = on_items d (fun l => g (f l)) w.
Proof.
  intros o o' d f g w K K'. change (run_ops [o; o'] w) with (match exec o w with Ok w' => run_ops [o'] w' | Err _ => run_ops [o'] w | Panic => None end). rewrite K. unfold on_doc, on_items. destruct (nth_error w d) as [x|] eqn:N; [|reflexivity]. cbn [bind].
  rewrite (one_call o' d g _ K'). unfold on_items. rewrite (set_get _ _ _ _ _ N), set_twice. now destruct x.
Qed.
Lemma same_items : forall d f g w, (forall l, f l = g l) -> on_items d f w = on_items d g w.
Proof. intros d f g w K. unfold on_items. destruct (nth_error w d); [|reflexivity]. now rewrite K. Qed.
Lemma keep_acts : forall d a, acts (OKeep d a) d (body_keep a).
Proof. intros d a w. reflexivity. Qed.
Lemma drop_acts : forall d n, acts (ODropAll d n) d (drop_drawing_of n).
Proof. intros d a w. reflexivity. Qed.
Hint Resolve keep_acts drop_acts : core.

Lemma law_keep : forall d a b c w, (forall n, In n c <-> In n a /\ In n b) -> run_ops [OKeep d a; OKeep d b] w = run_ops [OKeep d c] w.
Proof. intros. erewrite two_calls, one_call by auto. apply same_items. intros l. now apply keep_both. Qed.
Lemma law_all : forall d a w, d < length w -> incl ["*docx.Paragraph"; "*docx.Table"; "*docx.SectPr"] a -> run_ops [OKeep d a] w = Some w.
Proof.
  intros d a w D I. erewrite one_call by auto. unfold on_items. destruct (nth_error w d) as [x|] eqn:N; [|apply nth_error_None in N; lia].
  unfold body_keep. rewrite keep_all_named by (intros [p|t|s] _; apply I; cbn; auto). f_equal. apply set_same. now destruct x.
Qed.
Lemma law_twice : forall d n w, run_ops [ODropAll d n; ODropAll d n] w = run_ops [ODropAll d n] w.
Proof. intros. erewrite two_calls, one_call by auto. apply same_items. intros l. apply body_both, para_twice. Qed.
Lemma law_swap : forall d n m w, run_ops [ODropAll d n; ODropAll d m] w = run_ops [ODropAll d m; ODropAll d n] w.
Proof. intros. erewrite !two_calls by auto. apply same_items. intros l. apply body_swap. Qed.
Lemma law_shape_canvas : forall d w, run_ops [ODropAll d "Shape"; ODropAll d "Canvas"] w = run_ops [ODropAll d "ShapeAndCanvas"] w.
Proof. intros. erewrite two_calls, one_call by auto. apply same_items. intros l. apply body_both, para_shape_canvas. Qed.
Lemma law_three : forall d w, run_ops [ODropAll d "ShapeAndCanvas"; ODropAll d "Group"] w = run_ops [ODropAll d "ShapeAndCanvasAndGroup"] w.
Proof. intros. erewrite two_calls, one_call by auto. apply same_items. intros l. apply body_both, para_three. Qed.
Lemma law_mixed : forall d n a w, run_ops [ODropAll d n; OKeep d a] w = run_ops [OKeep d a; ODropAll d n] w.
Proof. intros. erewrite !two_calls by auto. apply same_items. intros l. apply drop_keep. Qed.

(** ** calls on a paragraph *)
Lemma put_twice : forall l a p q, put_para (put_para l a p) a q = put_para l a q.
Proof.
  intros l [i|i r c k] p q; cbn [put_para]; [apply set_twice|]. destruct (get_cell l i r c) as [x|] eqn:G; [|now rewrite G]. unfold get_cell in G. 
  destruct (nth_error l i) as [[|t|]|] eqn:N; try discriminate. destruct (nth_error (table_rows t) r) as [y|] eqn:R; [|discriminate].
  unfold put_cell, get_cell. rewrite N, R. cbn [nth_error]. rewrite (set_get _ _ _ _ _ N). cbn [table_rows set_table_rows]. rewrite (set_get _ _ _ _ _ R). cbn [row_cells set_row_cells]. rewrite (set_get _ _ _ _ _ G).
  rewrite set_twice. destruct t, y, x. cbn. rewrite !set_twice. reflexivity.
Qed.
Definition on_para (d : nat) (a : addr) (f : para -> para) (w : world) : option world :=
  match nth_error w d with
  | Some x => match get_para (d_items x) a with Some p => Some (set_nth w d (set_d_items (put_para (d_items x) a (f p)) x)) | None => None end
  | None => None
  end.
Definition pacts (o : pop) (f : para -> para) : Prop := forall w p, exec_pop o w p = Ok (w, f p).
Lemma one_pop : forall o d a f w, pacts o f -> run_ops [OPara d a o] w = on_para d a f w.
Proof.
  intros o d a f w K. cbn [run_ops exec]. unfold on_para. destruct (nth_error w d) as [x|] eqn:N; [|reflexivity]. destruct (get_para (d_items x) a) as [p|]; [|reflexivity].
  rewrite K. cbn [bind]. unfold on_doc. rewrite N. reflexivity.
Qed.
Lemma two_pops : forall o o' d a f g w, pacts o f -> pacts o' g -> run_ops [OPara d a o; OPara d a o'] w = on_para d a (fun p => g (f p)) w.
Proof.
  intros o o' d a f g w K K'. change (run_ops [OPara d a o; OPara d a o'] w) with (match exec (OPara d a o) w with Ok w' => run_ops [OPara d a o'] w' | Err _ => run_ops [OPara d a o'] w | Panic => None end).
  cbn [exec]. unfold on_para. destruct (nth_error w d) as [x|] eqn:N; [|reflexivity]. destruct (get_para (d_items x) a) as [p|] eqn:G; [|reflexivity].
  rewrite K. cbn [bind]. unfold on_doc. rewrite N. cbn [bind]. rewrite (one_pop o' d a g _ K'). unfold on_para. rewrite (set_get _ _ _ _ _ N). cbn [d_items set_d_items]. rewrite (get_put_same _ _ _ _ G), set_twice, put_twice. now destruct x.
Qed.
Lemma same_para_call : forall d a f g w, (forall p, f p = g p) -> on_para d a f w = on_para d a g w.
Proof. intros d a f g w K. unfold on_para. destruct (nth_error w d) as [x|]; [|reflexivity]. destruct (get_para (d_items x) a); [|reflexivity]. now rewrite K. Qed.
Lemma keepp_acts : forall a, pacts (OKeepP a) (para_keep a).
Proof. intros a w p. reflexivity. Qed.
Lemma dropp_acts : forall a, pacts (ODropP a) (para_drop a).
Proof. intros a w p. reflexivity. Qed.
Hint Resolve keepp_acts dropp_acts : core.
Lemma plaw_keep : forall d x a b c w, (forall n, In n c <-> In n a /\ In n b) -> run_ops [OPara d x (OKeepP a); OPara d x (OKeepP b)] w = run_ops [OPara d x (OKeepP c)] w.
Proof.
  intros. erewrite two_pops, one_pop by auto. apply same_para_call. intros [[pp ch f]]. unfold para_keep, set_para_children, mk_para, para_children, para_ppr, para_file. cbn [para_r paraR_ppr paraR_children paraR_file]. f_equal. f_equal. now apply keep_both.
Qed.
Lemma plaw_twice : forall d x n w, run_ops [OPara d x (ODropP n); OPara d x (ODropP n)] w = run_ops [OPara d x (ODropP n)] w.
Proof. intros. erewrite two_pops, one_pop by auto. apply same_para_call. intros p. apply para_twice. Qed.
Lemma plaw_swap : forall d x n m w, run_ops [OPara d x (ODropP n); OPara d x (ODropP m)] w = run_ops [OPara d x (ODropP m); OPara d x (ODropP n)] w.
Proof. intros. erewrite !two_pops by auto. apply same_para_call. intros p. apply para_swap. Qed.
Lemma plaw_shape_canvas : forall d x w, run_ops [OPara d x (ODropP "Shape"); OPara d x (ODropP "Canvas")] w = run_ops [OPara d x (ODropP "ShapeAndCanvas")] w.
Proof. intros. erewrite two_pops, one_pop by auto. apply same_para_call. intros p. apply para_shape_canvas. Qed.
Lemma plaw_three : forall d x w, run_ops [OPara d x (ODropP "ShapeAndCanvas"); OPara d x (ODropP "Group")] w = run_ops [OPara d x (ODropP "ShapeAndCanvasAndGroup")] w.
Proof. intros. erewrite two_pops, one_pop by auto. apply same_para_call. intros p. apply para_three. Qed.
Lemma plaw_mixed : forall d x n a w, run_ops [OPara d x (ODropP n); OPara d x (OKeepP a)] w = run_ops [OPara d x (OKeepP a); OPara d x (ODropP n)] w.
Proof. intros. erewrite !two_pops by auto. apply same_para_call. intros p. apply para_drop_keep. Qed.
End Laws.
