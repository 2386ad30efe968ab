(** The template can be chosen at any time. *)
From Coq Require Import String Ascii List Bool Arith NArith ZArith Lia.
From Verif Require Import GoStr Num Lib Types Docx Api Keep Copy Pack History Alias SpecAlias SpecSep SpecAnyTime RegFacts HistFacts2 SepFacts LastFacts LayoutFacts.
Import ListNotations.
Local Open Scope list_scope.
Local Open Scope string_scope.

Definition choose (e : nat) (t : tmpl) (w : world) : world := match nth_error w e with Some y => set_nth w e (use_template t y) | None => w end.
Lemma choose_nth : forall e t w i, nth_error (choose e t w) i = match nth_error w i with Some y => Some (if Nat.eqb i e then use_template t y else y) | None => None end.
Proof.
  intros e t w i. unfold choose. destruct (nth_error w e) as [y|] eqn:E.
  - destruct (Nat.eqb i e) eqn:Q.
    + apply Nat.eqb_eq in Q. subst. now rewrite (set_nth_same _ _ _ _ (nth_lt _ _ _ _ E)), E.
    + apply Nat.eqb_neq in Q. rewrite set_nth_other by congruence. now destruct (nth_error w i).
  - destruct (nth_error w i) as [y|] eqn:N; [|reflexivity]. destruct (Nat.eqb i e) eqn:Q; [|reflexivity]. apply Nat.eqb_eq in Q. congruence.
Qed.
Lemma choose_set : forall e t w i y x x', nth_error w i = Some y -> x' = (if Nat.eqb i e then use_template t x else x) -> set_nth (choose e t w) i x' = choose e t (set_nth w i x).
Proof.
  intros e t w i y x x' N ->. unfold choose at 1. destruct (Nat.eqb i e) eqn:Q.
  - apply Nat.eqb_eq in Q. subst. rewrite N, set_nth_twice. unfold choose. now rewrite (set_nth_same _ _ _ _ (nth_lt _ _ _ _ N)), set_nth_twice.
  - apply Nat.eqb_neq in Q. unfold choose. rewrite set_nth_other by congruence. destruct (nth_error w e); [|reflexivity]. apply set_nth_swap. congruence.
Qed.
Lemma on_file_choose : forall A e t w f (k : reg -> A * reg), on_file (choose e t w) f k = bind (on_file w f k) (fun '(x, w') => Ok (x, choose e t w')).
Proof.
  intros A e t w [i|] k; [|reflexivity]. unfold on_file. rewrite choose_nth. destruct (nth_error w i) as [y|] eqn:N; [|reflexivity].
  replace (d_reg (if Nat.eqb i e then use_template t y else y)) with (d_reg y) by (destruct (Nat.eqb i e), y; reflexivity).
  destruct (k (d_reg y)) as [x g]. cbn [bind]. do 2 f_equal. eapply choose_set; [exact N|]. destruct (Nat.eqb i e), y; reflexivity.
Qed.
Lemma pop_choose : forall (L : GoLib) e t o w p, exec_pop o (choose e t w) p = bind (exec_pop o w p) (fun '(w', p') => Ok (choose e t w', p')).
Proof.
  intros L e t o w p. destruct o; try reflexivity; cbn [exec_pop].
  - unfold add_link. rewrite on_file_choose. destruct (on_file w (para_file p) _) as [[x w']| |]; reflexivity.
  - unfold add_drawing. destruct (lib_imgsize data) as [[[sw sh] fm]|]; [|reflexivity]. rewrite on_file_choose. destruct (on_file w (para_file p) _) as [[[[idn id] r] w']| |]; try reflexivity.
    cbn [bind]. destruct (pic_size sw sh) as [[ew eh]| |]; reflexivity.
  - unfold add_shape. rewrite on_file_choose. destruct (on_file w (para_file p) _) as [[[idn ids] w']| |]; reflexivity.
  - destruct (nth_error (para_children p) k) as [[r|id r|r]|]; try reflexivity; destruct (exec_rop o r); reflexivity.
Qed.
Lemma on_doc_choose : forall e t w d k, (forall x, k (use_template t x) = bind (k x) (fun y => Ok (use_template t y))) ->
  on_doc (choose e t w) d k = bind (on_doc w d k) (fun w' => Ok (choose e t w')).
Proof.
  intros e t w d k K. unfold on_doc. rewrite choose_nth. destruct (nth_error w d) as [x|] eqn:N; [|reflexivity].
  assert (Q : k (if Nat.eqb d e then use_template t x else x) = bind (k x) (fun y => Ok (if Nat.eqb d e then use_template t y else y))).
  { destruct (Nat.eqb d e); [apply K|]. destruct (k x); reflexivity. }
  rewrite Q. destruct (k x) as [y|s|]; try reflexivity. cbn [bind]. f_equal. eapply choose_set; [exact N|reflexivity].
Qed.
(** *** copying *)
Definition lift {B} (e : nat) (t : tmpl) (r : res (world * B)) : res (world * B) := bind r (fun '(w', y) => Ok (choose e t w', y)).
Lemma reg_choose : forall e t w f, file_reg (choose e t w) f = file_reg w f.
Proof. intros e t w [i|]; [|reflexivity]. unfold file_reg. rewrite choose_nth. destruct (nth_error w i) as [y|]; [|reflexivity]. destruct (Nat.eqb i e), y; reflexivity. Qed.
Lemma graphic_choose : forall e t to f og w, copy_graphic to f og (choose e t w) = lift e t (copy_graphic to f og w).
Proof.
  intros e t to f og w. unfold copy_graphic, lift. destruct og as [g|]; [|reflexivity]. destruct (graphicR_data g) as [d|]; [|reflexivity].
  destruct (gdataR_pic d) as [p|]; [|destruct (gdataR_shape d), (gdataR_canvas d); reflexivity]. destruct (pic_blip p) as [bl|]; [|reflexivity].
  rewrite reg_choose. destruct (file_reg w f) as [src| |]; cbn [bind]; try reflexivity. destruct (refer_target src (ablip_embed (picblip_blip bl))) as [tgt|er|]; try reflexivity.
  rewrite on_file_choose. destruct (on_file w (Some to) inc_docid) as [[idn w1]| |]; cbn [bind]; try reflexivity.
  rewrite on_file_choose. destruct (on_file w1 (Some to) (increase_id TUPIAN)) as [[idu w2]| |]; cbn [bind]; try reflexivity.
  destruct (drop 6 tgt) as [name|]; [|reflexivity]. rewrite reg_choose. destruct (file_reg w2 f) as [src2| |]; cbn [bind]; try reflexivity.
  destruct (media_of src2 name) as [[[nm data]|]| |]; cbn [bind]; try reflexivity.
  rewrite on_file_choose. destruct (on_file w2 (Some to) _) as [[rid w3]| |]; cbn [bind]; try reflexivity. destruct (pic_nvpic p); reflexivity.
Qed.
Lemma rchild_choose : forall e t to c w, copy_rchild to c (choose e t w) = lift e t (copy_rchild to c w).
Proof.
  intros e t to [x|x|x|[x|] a] w; try reflexivity; unfold lift; cbn [copy_rchild].
  - rewrite graphic_choose. unfold lift. destruct (copy_graphic to _ _ w) as [[w' r]| |]; reflexivity.
  - destruct a as [y|]; [|reflexivity]. rewrite graphic_choose. unfold lift. destruct (copy_graphic to _ _ w) as [[w' r]| |]; reflexivity.
Qed.
Lemma list_choose : forall e t A B (f : A -> world -> res (world * B)), (forall x w, f x (choose e t w) = lift e t (f x w)) -> forall l w, copy_list f l (choose e t w) = lift e t (copy_list f l w).
Proof.
  intros e t A B f K. induction l as [|x l IH]; intros w; [reflexivity|]. cbn [copy_list]. rewrite K. unfold lift. destruct (f x w) as [[w1 y]| |]; try reflexivity. cbn [bind].
  rewrite IH. unfold lift. destruct (copy_list f l w1) as [[w2 l2]| |]; reflexivity.
Qed.
Lemma crun_choose : forall e t to r w, copy_run to r (choose e t w) = lift e t (copy_run to r w).
Proof. intros e t to r w. unfold copy_run. rewrite (list_choose e t) by apply rchild_choose. unfold lift. destruct (copy_list _ _ w) as [[w' c]| |]; reflexivity. Qed.
Lemma pchild_choose : forall e t to f c w, copy_pchild to f c (choose e t w) = lift e t (copy_pchild to f c w).
Proof.
  intros e t to f [r|id r|r] w; cbn [copy_pchild]; [| |reflexivity].
  - rewrite crun_choose. unfold lift. destruct (copy_run to r w) as [[w' r']| |]; reflexivity.
  - rewrite reg_choose. destruct (file_reg w f) as [src| |]; cbn [bind]; try reflexivity. destruct (refer_target src id) as [tgt|er|]; try reflexivity.
    rewrite on_file_choose. unfold lift. destruct (on_file w (Some to) _) as [[rid w1]| |]; cbn [bind]; try reflexivity. rewrite crun_choose. unfold lift. destruct (copy_run to r w1) as [[w' r']| |]; reflexivity.
Qed.
Lemma cpara_choose : forall e t to p w, copy_para to p (choose e t w) = lift e t (copy_para to p w).
Proof. intros e t to p w. unfold copy_para. rewrite (list_choose e t) by apply pchild_choose. unfold lift. destruct (copy_list _ _ w) as [[w' c]| |]; reflexivity. Qed.
Lemma citem_choose : forall e t to x w, copy_item to x (choose e t w) = lift e t (copy_item to x w).
Proof.
  intros e t to [p|u|s] w; cbn [copy_item]; [| |reflexivity].
  - rewrite cpara_choose. unfold lift. destruct (copy_para to p w) as [[w' p']| |]; reflexivity.
  - assert (CC : forall c w, copy_cell to c (choose e t w) = lift e t (copy_cell to c w)).
    { intros c w0. unfold copy_cell. rewrite (list_choose e t) by apply cpara_choose. unfold lift. destruct (copy_list _ _ w0) as [[w' l]| |]; reflexivity. }
    assert (CR : forall r w, copy_row to r (choose e t w) = lift e t (copy_row to r w)).
    { intros r w0. unfold copy_row. rewrite (list_choose e t) by apply CC. unfold lift. destruct (copy_list _ _ w0) as [[w' l]| |]; reflexivity. }
    unfold copy_table. rewrite (list_choose e t) by apply CR. unfold lift. destruct (copy_list _ _ w) as [[w' l]| |]; reflexivity.
Qed.
Lemma append_choose : forall e t to l w, append_items to l (choose e t w) = bind (append_items to l w) (fun w' => Ok (choose e t w')).
Proof.
  intros e t to. induction l as [|x l IH]; intros w; [reflexivity|]. cbn [append_items]. unfold copy_push. rewrite citem_choose. unfold lift.
  destruct (copy_item to x w) as [[w1 y]| |]; try reflexivity. cbn [bind]. unfold push_item. rewrite choose_nth. destruct (nth_error w1 to) as [d|] eqn:N; [|reflexivity]. cbn [bind].
  rewrite <- IH. f_equal. eapply choose_set; [exact N|]. destruct (Nat.eqb to e), d; reflexivity.
Qed.
Lemma exec_choose : forall (L : GoLib) e t o w, edits o -> exec o (choose e t w) = bind (exec o w) (fun w' => Ok (choose e t w')).
Proof.
  intros L e t o w E. destruct o; try destruct E; cbn [exec].
  - rewrite choose_nth. destruct (nth_error w d) as [x|] eqn:N; [|reflexivity].
    replace (d_items (if Nat.eqb d e then use_template t x else x)) with (d_items x) by (destruct (Nat.eqb d e), x; reflexivity).
    destruct (get_para (d_items x) a) as [p|]; [|reflexivity]. rewrite pop_choose. destruct (exec_pop o w p) as [[w' p']| |]; try reflexivity. cbn [bind]. apply on_doc_choose. intros []; reflexivity.
  - rewrite pop_choose. destruct (exec_pop o w p) as [[w' p']| |]; reflexivity.
  - apply on_doc_choose. intros []; reflexivity.
  - apply on_doc_choose. intros []; cbn. destruct (get_cell _ i r c); reflexivity.
  - apply on_doc_choose. intros x. unfold add_table. destruct (Z.ltb (iv r) 0); [reflexivity|]. destruct (Z.ltb (iv c) 0 && Z.ltb 0 (iv r))%bool; [reflexivity|]. destruct (use_colors col), x. reflexivity.
  - apply on_doc_choose. intros x. unfold add_table_twips. destruct (use_colors col), x. reflexivity.
  - apply on_doc_choose. intros []; cbn. destruct (nth_error _ i) as [[p|u|s]|]; try reflexivity. destruct (table_justification v u); reflexivity.
  - apply on_doc_choose. intros []; cbn. destruct (nth_error _ i) as [[p|u|s]|]; try reflexivity. destruct (nth_error (table_rows u) r) as [y|]; [|reflexivity]. destruct (row_justification v y); reflexivity.
  - apply on_doc_choose. intros []; cbn. destruct (get_cell _ i r c) as [y|]; [|reflexivity]. destruct (cell_shade v color fill y); reflexivity.
  - apply on_doc_choose. intros []; destruct a3; reflexivity.
  - apply on_doc_choose. intros []; reflexivity.
  - apply on_doc_choose. intros []; reflexivity.
  - unfold append_file. rewrite !choose_nth. destruct (nth_error w d) as [x|]; [|reflexivity]. destruct (nth_error w from) as [y|]; [|reflexivity].
    replace (d_items (if Nat.eqb from e then use_template t y else y)) with (d_items y) by (destruct (Nat.eqb from e), y; reflexivity). apply append_choose.
Qed.
Lemma run_template : forall (L : GoLib) e t w, run_ops [OTemplate e t] w = match nth_error w e with Some _ => Some (choose e t w) | None => None end.
Proof. intros L e t w. cbn [run_ops exec]. unfold on_doc, choose. destruct (nth_error w e); reflexivity. Qed.
Lemma run_choose : forall (L : GoLib) e t l w, Forall edits l -> run_ops l (choose e t w) = option_map (choose e t) (run_ops l w).
Proof.
  intros L e t l w P. revert w. induction P as [|o l Po P IH]; intros w; [reflexivity|]. cbn [run_ops]. rewrite exec_choose by assumption.
  destruct (exec o w) as [w'|s|]; cbn [bind]; [apply IH|apply IH|reflexivity].
Qed.
Lemma on_doc_length : forall w d k w', on_doc w d k = Ok w' -> length w' = length w.
Proof. intros w d k w' E. unfold on_doc in E. destruct (nth_error w d); [|discriminate]. destruct (k d0); try discriminate. cbn in E. injection E as <-. now rewrite set_nth_length. Qed.
Lemma edits_length : forall (L : GoLib) o w w', edits o -> exec o w = Ok w' -> length w' = length w.
Proof.
  intros L o w w' E R. destruct o; try destruct E; try (cbn [exec] in R; eapply on_doc_length; exact R).
  - eapply para_same_length; exact R.
  - cbn [exec] in R. destruct (exec_pop o w p) as [[w1 p']| |] eqn:X; try discriminate. cbn in R. injection R as <-. now destruct (HistFacts.exec_pop_items o w p w1 p' X) as (_ & LE & _).
  - cbn [exec] in R. destruct (nth_error w d); [|discriminate]. unfold append_file in R. destruct (nth_error w from) as [y|]; [|discriminate]. revert w R. induction (d_items y) as [|x l IH]; intros w R; cbn [append_items] in R.
    + congruence.
    + destruct (copy_push d x w) as [w1| |] eqn:C; try discriminate. cbn [bind] in R. rewrite (IH w1 R). exact (proj1 (HistFacts.copy_push_only _ _ _ _ C)).
Qed.
Lemma run_length : forall (L : GoLib) l w w', Forall edits l -> run_ops l w = Some w' -> length w' = length w.
Proof.
  intros L l w w' P. revert w. induction P as [|o l Po P IH]; intros w R; cbn [run_ops] in R; [congruence|]. destruct (exec o w) as [w1|s|] eqn:E; [|now apply IH|discriminate].
  rewrite (IH w1 R). eapply edits_length; eauto.
Qed.
Lemma moved : forall (L : GoLib) e t l w, Forall edits l -> run_ops (OTemplate e t :: l) w = run_ops (l ++ [OTemplate e t])%list w.
Proof.
  intros L e t l w P. change (OTemplate e t :: l) with ([OTemplate e t] ++ l)%list. rewrite !run_split, run_template.
  destruct (nth_error w e) as [y|] eqn:N.
  - rewrite run_choose by assumption. destruct (run_ops l w) as [w'|] eqn:R; [|reflexivity]. cbn [option_map]. rewrite run_template.
    destruct (nth_error w' e) eqn:N'; [reflexivity|]. apply nth_error_None in N'. apply nth_lt in N. rewrite (run_length L l w w' P R) in N'. lia.
  - destruct (run_ops l w) as [w'|] eqn:R; [|reflexivity]. rewrite run_template. apply nth_error_None in N. rewrite <- (run_length L l w w' P R) in N. apply nth_error_None in N. now rewrite N.
Qed.
Lemma choose_twice : forall e t t' w, choose e t' (choose e t w) = choose e t' w.
Proof.
  intros e t t' w. unfold choose at 1 3. rewrite choose_nth. destruct (nth_error w e) as [y|] eqn:N; [|unfold choose; now rewrite N].
  rewrite Nat.eqb_refl. unfold choose. rewrite N, set_nth_twice. destruct y; reflexivity.
Qed.
Lemma replaced : forall (L : GoLib) e t t' l w, Forall edits l -> run_ops (OTemplate e t :: l ++ [OTemplate e t'])%list w = run_ops (l ++ [OTemplate e t'])%list w.
Proof.
  intros L e t t' l w P. rewrite <- (moved L e t' l w P).
  change (OTemplate e t :: l ++ [OTemplate e t'])%list with ([OTemplate e t] ++ (l ++ [OTemplate e t']))%list. change (OTemplate e t' :: l) with ([OTemplate e t'] ++ l)%list.
  rewrite !(run_split [OTemplate _ _]), !run_template. destruct (nth_error w e) as [y|] eqn:N; [|reflexivity].
  rewrite <- (moved L e t' l _ P). change (OTemplate e t' :: l) with ([OTemplate e t'] ++ l)%list. rewrite run_split, run_template, choose_nth, N. now rewrite choose_twice.
Qed.
Lemma first_insert : forall l1 o l2, copies o = false -> formats o = false -> formatted_first (l1 ++ l2)%list -> formatted_first (l1 ++ o :: l2)%list.
Proof.
  intros l1 o l2 C N (a & b & E & A & B). destruct (WeaveFacts.app_cases _ _ _ _ _ E) as [(x & -> & ->)|(x & -> & ->)].
  - exists (l1 ++ o :: x)%list, b. split; [now rewrite <- app_assoc|]. split; [|exact B]. intros y I. apply in_app_iff in I. destruct I as [I|[<-|I]]; auto; apply A; apply in_app_iff; auto.
  - exists a, (x ++ o :: l2)%list. split; [now rewrite <- app_assoc|]. split; [exact A|]. intros y I. apply in_app_iff in I. destruct I as [I|[<-|I]]; auto; apply B; apply in_app_iff; auto.
Qed.
Lemma template_any_time : forall (L : GoLib) l1 e t l l2, Forall edits l -> formatted_first (l1 ++ (OTemplate e t :: l) ++ l2)%list ->
  documents (l1 ++ (OTemplate e t :: l) ++ l2)%list = documents (l1 ++ (l ++ [OTemplate e t]) ++ l2)%list.
Proof.
  intros L l1 e t l l2 P F.
  assert (F' : formatted_first (l1 ++ (l ++ [OTemplate e t]) ++ l2)%list).
  { apply first_drop in F. rewrite <- app_assoc. cbn [app]. rewrite app_assoc. apply first_insert; [reflexivity|reflexivity|]. now rewrite <- app_assoc. }
  rewrite !first_documents by assumption.
  rewrite !run_split. destruct (run_ops l1 []) as [w|]; [|reflexivity]. now rewrite (run_split (OTemplate e t :: l)), (run_split (l ++ [OTemplate e t])%list), moved.
Qed.
Lemma template_replaced : forall (L : GoLib) l1 e t t' l l2, Forall edits l -> formatted_first (l1 ++ (OTemplate e t :: l ++ [OTemplate e t']) ++ l2)%list ->
  documents (l1 ++ (OTemplate e t :: l ++ [OTemplate e t']) ++ l2)%list = documents (l1 ++ (l ++ [OTemplate e t']) ++ l2)%list.
Proof.
  intros L l1 e t t' l l2 P F. rewrite (first_documents _ F), (first_documents _ (first_drop _ _ _ F)).
  rewrite !run_split. destruct (run_ops l1 []) as [w|]; [|reflexivity]. now rewrite (run_split (OTemplate e t :: l ++ [OTemplate e t'])%list), (run_split (l ++ [OTemplate e t'])%list), replaced.
Qed.

(** ** SplitByParagraph *)
Definition at_lib : GoLib := {| lib_float := fun _ => None; lib_md5 := fun s => s; lib_imgsize := fun s => None |}.
Definition at_tmpl : tmpl := mk_tmpl "default" (fun _ => FNone) [].
Definition at_start : list op := [ONew; OAddPara 0].
Definition at_split : op := OSplit 0 (fun _ => Ok false).
Lemma split_before : exists (L : GoLib) l1 e t d sep, formatted_first (l1 ++ [OTemplate e t; OSplit d sep])%list /\
  documents (l1 ++ [OTemplate e t; OSplit d sep])%list <> documents (l1 ++ [OSplit d sep; OTemplate e t])%list.
Proof.
  exists at_lib, at_start, 0, at_tmpl, 0, (fun _ => Ok false). split.
  - exists at_start, [OTemplate 0 at_tmpl; at_split]. split; [reflexivity|]. split; intros o I; cbn in I; repeat destruct I as [<-|I]; try reflexivity; destruct I.
  - intros E. apply (f_equal (fun o => match o with Some w => map (fun d => t_name (d_tmpl d)) w | None => [] end)) in E. vm_compute in E. discriminate E.
Qed.
