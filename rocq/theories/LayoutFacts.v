(** Adding paragraphs and tables first and filling them later. *)
From Coq Require Import String Ascii List Bool Arith NArith ZArith Lia.
From Verif Require Import GoStr Num Lib Types Docx Api Keep Copy Pack History Alias SpecAlias SpecSep SpecLast SpecWeave SpecLayout RegFacts HistFacts HistFacts2 SepFacts LastFacts WeaveFacts.
Import ListNotations.
Local Open Scope list_scope.
Local Open Scope string_scope.

(** an update that does the same if something follows *)
Definition stable (f : list item -> option (list item)) : Prop := forall l l' x, f l = Some l' -> f (l ++ [x])%list = Some (l' ++ [x])%list.
Lemma set_nth_front : forall A (l : list A) i x r, i < length l -> set_nth (l ++ r)%list i x = (set_nth l i x ++ r)%list.
Proof. induction l as [|y l IH]; intros [|i] x r K; cbn in *; try lia; [reflexivity|]. f_equal. apply IH. lia. Qed.
Lemma at_stable : forall i g, stable (at_nth i g).
Proof.
  intros i g l l' x E. unfold at_nth, step in *. destruct (nth_error l i) as [y|] eqn:N; [|discriminate]. rewrite (nth_error_app1 l [x] (nth_lt _ _ _ _ N)), N.
  destruct (g y) as [z|]; [|discriminate]. injection E as <-. now rewrite (set_nth_front _ l i z [x] (nth_lt _ _ _ _ N)).
Qed.
Lemma change_stable : forall a f, stable (change_at a f).
Proof. intros [i|i r c k] f; apply at_stable. Qed.
Lemma run_fill : forall (L : GoLib) o t, sets o = Some t -> exists d f, stable f /\ forall w, run_ops [o] w = at_nth d (in_items f) w.
Proof.
  intros L o t E. destruct (run_change L o t [] E) as (d & f & C & _). exists d, f. split.
  + destruct o; try discriminate C; injection C as <- <-; first [apply at_stable|apply change_stable].
  + intros w. destruct (run_change L o t w E) as (d' & f' & C' & ->). rewrite C in C'. injection C' as <- <-. reflexivity.
Qed.
(** the item that is added; None is a panic *)
Definition new_item (o : op) : nat * option item :=
  match o with
  | OAddPara d => (d, Some (IPara (mk_para None [] (Some d))))
  | OTable d r c width col => (d, match add_table d r c width col new_docx with Ok (x, _) => nth_error (d_items x) 0 | _ => None end)
  | OTwips d rh cw width col => (d, nth_error (d_items (fst (add_table_twips d rh cw width col new_docx))) 0)
  | OPage d a3 => (d, nth_error (d_items ((if a3 then with_a3 else with_a4) new_docx)) 0)
  | _ => (0, None)
  end.
Definition append (x : option item) (l : list item) : option (list item) := step x (fun y => Some (l ++ [y])%list).
Lemma run_add : forall (L : GoLib) o, adds_item o = true -> forall w, run_ops [o] w = at_nth (fst (new_item o)) (in_items (append (snd (new_item o)))) w.
Proof.
  intros L o A w. destruct o; try discriminate A; cbn [run_ops exec new_item fst snd]; unfold on_doc, at_nth, in_items, append; destruct (nth_error w d) as [x|]; try reflexivity.
  - cbn [step]. unfold add_table. destruct (Z.ltb (iv r) 0); [reflexivity|]. destruct (Z.ltb (iv c) 0 && Z.ltb 0 (iv r))%bool; [reflexivity|]. destruct (use_colors col). reflexivity.
  - cbn [step]. unfold add_table_twips. destruct (use_colors col). reflexivity.
  - destruct a3; reflexivity.
Qed.
Lemma set_add : forall (L : GoLib) o o' t w w', sets o = Some t -> adds_item o' = true -> run_ops [o; o'] w = Some w' -> run_ops [o'; o] w = Some w'.
Proof.
  intros L o o' t w w' F A. destruct (run_fill L o t F) as (d & f & S & R). pose proof (run_add L o' A) as R'. destruct (new_item o') as [e x]. cbn [fst snd] in R'.
  change [o; o'] with ([o] ++ [o'])%list. change [o'; o] with ([o'] ++ [o])%list. rewrite !run_split, R, R'.
  destruct (Nat.eq_dec d e) as [<-|N].
  - unfold at_nth at 1 2. destruct (nth_error w d) as [y|] eqn:E; [|discriminate]. cbn [step]. unfold in_items at 1 2. destruct (f (d_items y)) as [l'|] eqn:G; [|discriminate]. cbn [step]. rewrite R'.
    unfold at_nth at 1. rewrite (set_nth_same _ _ _ _ (nth_lt _ _ _ _ E)). cbn [step]. unfold in_items at 1. rewrite items_set. unfold append at 1 2. destruct x as [z|]; [|discriminate]. cbn [step]. rewrite R.
    unfold at_nth. rewrite (set_nth_same _ _ _ _ (nth_lt _ _ _ _ E)). cbn [step]. unfold in_items. rewrite items_set, (S _ _ z G). cbn [step]. now rewrite !set_nth_twice, !items_twice.
  - assert (K : comm (at_nth d (in_items f)) (at_nth e (in_items (append x)))) by (apply at_comm; intros; now destruct N). specialize (K w). unfold step in K.
    intros Q. destruct (at_nth d (in_items f) w) as [w1|]; [|discriminate]. rewrite R' in Q. rewrite K in Q. destruct (at_nth e (in_items (append x)) w); [|discriminate]. now rewrite R.
Qed.
(** *** calls on paragraphs that take numbers from the document *)
Definition push (e : nat) (z : item) (w : world) : world :=
  match nth_error w e with Some y => set_nth w e (set_d_items (d_items y ++ [z])%list y) | None => w end.
Lemma push_nth : forall e z w i, nth_error (push e z w) i =
  match nth_error w i with Some y => Some (if Nat.eqb i e then set_d_items (d_items y ++ [z])%list y else y) | None => None end.
Proof.
  intros e z w i. unfold push. destruct (nth_error w e) as [y|] eqn:E.
  - destruct (Nat.eqb i e) eqn:Q.
    + apply Nat.eqb_eq in Q. subst. now rewrite (set_nth_same _ _ _ _ (nth_lt _ _ _ _ E)), E.
    + apply Nat.eqb_neq in Q. rewrite set_nth_other by congruence. now destruct (nth_error w i).
  - destruct (nth_error w i) as [y|] eqn:N; [|reflexivity]. destruct (Nat.eqb i e) eqn:Q; [|reflexivity]. apply Nat.eqb_eq in Q. congruence.
Qed.
(** a change of one document that lets the added item be *)
Lemma push_set : forall e z w i y y', nth_error w i = Some y -> y' = (if Nat.eqb i e then set_d_items (d_items y ++ [z])%list y else y) -> forall x x',
  x' = (if Nat.eqb i e then set_d_items (d_items x ++ [z])%list x else x) -> set_nth (push e z w) i x' = push e z (set_nth w i x).
Proof.
  intros e z w i y y' N _ x x' ->. unfold push at 1. destruct (Nat.eqb i e) eqn:Q.
  - apply Nat.eqb_eq in Q. subst. rewrite N, set_nth_twice. unfold push. now rewrite (set_nth_same _ _ _ _ (nth_lt _ _ _ _ N)), set_nth_twice.
  - apply Nat.eqb_neq in Q. unfold push. rewrite set_nth_other by congruence. destruct (nth_error w e); [|reflexivity]. apply set_nth_swap. congruence.
Qed.
Lemma on_file_push : forall A e z w f (k : reg -> A * reg), on_file (push e z w) f k = bind (on_file w f k) (fun '(x, w') => Ok (x, push e z w')).
Proof.
  intros A e z w [i|] k; [|reflexivity]. unfold on_file. rewrite push_nth. destruct (nth_error w i) as [y|] eqn:N; [|reflexivity].
  replace (d_reg (if Nat.eqb i e then set_d_items (d_items y ++ [z])%list y else y)) with (d_reg y) by (destruct (Nat.eqb i e), y; reflexivity).
  destruct (k (d_reg y)) as [x g]. cbn [bind]. do 2 f_equal. eapply push_set; [exact N|reflexivity|]. destruct (Nat.eqb i e), y; reflexivity.
Qed.
Lemma pop_push : forall (L : GoLib) e z o w p, exec_pop o (push e z w) p = bind (exec_pop o w p) (fun '(w', p') => Ok (push e z w', p')).
Proof.
  intros L e z o w p. destruct o; try reflexivity; cbn [exec_pop].
  - unfold add_link. rewrite on_file_push. destruct (on_file w (para_file p) _) as [[x w']| |]; reflexivity.
  - unfold add_drawing. destruct (lib_imgsize data) as [[[sw sh] fm]|]; [|reflexivity]. rewrite on_file_push. destruct (on_file w (para_file p) _) as [[[[idn id] r] w']| |]; try reflexivity.
    cbn [bind]. destruct (pic_size sw sh) as [[ew eh]| |]; reflexivity.
  - unfold add_shape. rewrite on_file_push. destruct (on_file w (para_file p) _) as [[[idn ids] w']| |]; reflexivity.
  - destruct (nth_error (para_children p) k) as [[r|id r|r]|]; try reflexivity; destruct (exec_rop o r); reflexivity.
Qed.
Lemma get_front : forall l a p z, get_para l a = Some p -> get_para (l ++ [z])%list a = Some p /\ forall q, put_para (l ++ [z])%list a q = (put_para l a q ++ [z])%list.
Proof.
  intros l a p z G.
  assert (K : forall q, change_at a (fun _ => Some q) (l ++ [z])%list = Some (put_para l a q ++ [z])%list).
  { intros q. apply change_stable. rewrite change_at_spec, G. reflexivity. }
  assert (G' : get_para (l ++ [z])%list a = Some p).
  { destruct a as [i|i r c k]; cbn [get_para] in *; unfold get_cell in *; destruct (nth_error l i) eqn:N; try discriminate; rewrite (nth_error_app1 l [z] (nth_lt _ _ _ _ N)), N; exact G. }
  split; [exact G'|]. intros q. specialize (K q). rewrite change_at_spec, G' in K. cbn [step] in K. congruence.
Qed.
Lemma para_push : forall (L : GoLib) d a o e z w, exec (OPara d a o) w <> Panic ->
  exec (OPara d a o) (push e z w) = bind (exec (OPara d a o) w) (fun w' => Ok (push e z w')).
Proof.
  intros L d a o e z w NP. cbn [exec] in *. rewrite push_nth. destruct (nth_error w d) as [x|] eqn:N; [|now destruct NP].
  destruct (get_para (d_items x) a) as [p|] eqn:G; [|now destruct NP].
  assert (G1 : get_para (d_items (if Nat.eqb d e then set_d_items (d_items x ++ [z])%list x else x)) a = Some p).
  { destruct (Nat.eqb d e); [|exact G]. rewrite items_set. now apply get_front. }
  rewrite G1, pop_push. destruct (exec_pop o w p) as [[w' p']|s|] eqn:E; try reflexivity. cbn [bind].
  destruct (exec_pop_items o w p w' p' E) as (SI & LE & _). unfold on_doc. rewrite push_nth. destruct (nth_error w' d) as [y|] eqn:N'.
  2:{ apply nth_error_None in N'. apply nth_lt in N. lia. }
  cbn [bind]. f_equal. eapply push_set; [exact N'|reflexivity|]. destruct (Nat.eqb d e); [|reflexivity]. rewrite !items_set, items_twice, items_twice.
  assert (I : d_items y = d_items x) by (specialize (SI d); unfold items_at in SI; rewrite N, N' in SI; cbn [option_map] in SI; congruence). f_equal. rewrite I. now apply (get_front (d_items x) a p z G).
Qed.
Lemma run_add_push : forall (L : GoLib) o w w', adds_item o = true -> run_ops [o] w = Some w' -> exists z, snd (new_item o) = Some z /\ nth_error w (fst (new_item o)) <> None.
Proof.
  intros L o w w' A R. rewrite (run_add L o A) in R. unfold at_nth in R. destruct (nth_error w (fst (new_item o))); [|discriminate]. cbn [step] in R. unfold in_items, append in R.
  destruct (snd (new_item o)) as [z|]; [|discriminate]. exists z. split; [reflexivity|discriminate].
Qed.
Lemma add_is_push : forall (L : GoLib) o z w, adds_item o = true -> snd (new_item o) = Some z -> nth_error w (fst (new_item o)) <> None -> run_ops [o] w = Some (push (fst (new_item o)) z w).
Proof.
  intros L o z w A S N. rewrite (run_add L o A), S. unfold at_nth, push. destruct (nth_error w (fst (new_item o))); [reflexivity|now destruct N].
Qed.
Lemma para_same_length : forall (L : GoLib) d a o w w', exec (OPara d a o) w = Ok w' -> length w' = length w.
Proof.
  intros L d a o w w' E. cbn [exec] in E. destruct (nth_error w d) as [x|]; [|discriminate]. destruct (get_para (d_items x) a) as [p|]; [|discriminate].
  destruct (exec_pop o w p) as [[w1 p']| |] eqn:X; try discriminate. cbn [bind] in E. destruct (exec_pop_items o w p w1 p' X) as (_ & LE & _). unfold on_doc in E.
  destruct (nth_error w1 d); [|discriminate]. cbn in E. injection E as <-. now rewrite set_nth_length.
Qed.
Lemma para_add : forall (L : GoLib) d a o o' w w', adds_item o' = true -> run_ops [OPara d a o; o'] w = Some w' -> run_ops [o'; OPara d a o] w = Some w'.
Proof.
  intros L d a o o' w w' A R.
  set (w1 := match exec (OPara d a o) w with Ok x => x | _ => w end).
  assert (NP : exec (OPara d a o) w <> Panic). { intros K. change [OPara d a o; o'] with ([OPara d a o] ++ [o'])%list in R. cbn [app run_ops] in R. rewrite K in R. discriminate. }
  assert (R1 : run_ops [o'] w1 = Some w').
  { unfold w1. cbn [run_ops] in R |- *. destruct (exec (OPara d a o) w); [exact R|exact R|now destruct NP]. }
  assert (LE : length w1 = length w). { unfold w1. destruct (exec (OPara d a o) w) eqn:E; [eapply para_same_length; exact E|reflexivity|reflexivity]. }
  destruct (run_add_push L o' w1 w' A R1) as (z & S & N1).
  assert (N : nth_error w (fst (new_item o')) <> None). { apply nth_error_Some. rewrite <- LE. now apply nth_error_Some. }
  rewrite (add_is_push L o' z w1 A S N1) in R1. injection R1 as <-.
  change [o'; OPara d a o] with ([o'] ++ [OPara d a o])%list. rewrite run_split, (add_is_push L o' z w A S N). cbn [run_ops]. rewrite para_push by assumption. unfold w1.
  destruct (exec (OPara d a o) w); [reflexivity|reflexivity|now destruct NP].
Qed.
Lemma fill_add : forall (L : GoLib) o o' w w', fills o -> adds_item o' = true -> run_ops [o; o'] w = Some w' -> run_ops [o'; o] w = Some w'.
Proof.
  intros L o o' w w' F A. destruct o; try destruct F; [now apply para_add|eapply set_add; [reflexivity|assumption]..].
Qed.
Lemma fill_later : forall (L : GoLib) o A F w w', fills o -> Forall (fun x => adds_item x = true) A -> run_ops (o :: A ++ F)%list w = Some w' -> run_ops (A ++ o :: F)%list w = Some w'.
Proof.
  intros L o A F w w' P Q. revert w. induction Q as [|x A Px Q IH]; intros w R; [exact R|].
  change (o :: (x :: A) ++ F)%list with ([o; x] ++ (A ++ F))%list in R. rewrite run_split in R. destruct (run_ops [o; x] w) as [w1|] eqn:E; [|discriminate].
  apply (fill_add L o x w w1 P Px) in E. assert (T : run_ops ([x; o] ++ (A ++ F))%list w = Some w') by now rewrite run_split, E.
  change ([x; o] ++ (A ++ F))%list with ([x] ++ (o :: A ++ F))%list in T. rewrite run_split in T. destruct (run_ops [x] w) as [w2|] eqn:E2; [|discriminate].
  change ((x :: A) ++ o :: F)%list with ([x] ++ (A ++ o :: F))%list. rewrite run_split, E2. now apply IH.
Qed.
Definition layout_first (l : list op) : list op := (filter adds_item l ++ filter (fun o => negb (adds_item o)) l)%list.
Lemma run_layout : forall (L : GoLib) l w w', Forall (fun o => adds_item o = true \/ fills o) l -> run_ops l w = Some w' -> run_ops (layout_first l) w = Some w'.
Proof.
  intros L l w w' P. revert w. induction P as [|x l Px P IH]; intros w R; [exact R|]. change (x :: l) with ([x] ++ l)%list in R. rewrite run_split in R.
  destruct (run_ops [x] w) as [w1|] eqn:E; [|discriminate]. specialize (IH w1 R). unfold layout_first in *. cbn [filter]. destruct (adds_item x) eqn:A; cbn [negb].
  - change ((x :: filter adds_item l) ++ filter (fun o => negb (adds_item o)) l)%list with ([x] ++ (filter adds_item l ++ filter (fun o => negb (adds_item o)) l))%list. now rewrite run_split, E.
  - destruct Px as [Px|Px]; [congruence|]. apply fill_later; [assumption|apply Forall_forall; intros y I; apply filter_In in I; tauto|].
    change (x :: filter adds_item l ++ filter (fun o => negb (adds_item o)) l)%list with ([x] ++ (filter adds_item l ++ filter (fun o => negb (adds_item o)) l))%list. now rewrite run_split, E.
Qed.

(** ** in memory *)
Lemma first_reordered : forall l1 l l' l2, (forall o, In o l' -> In o l /\ copies o = false) -> formatted_first (l1 ++ l ++ l2)%list -> formatted_first (l1 ++ l' ++ l2)%list.
Proof.
  intros l1 l l' l2 P (a & b & E & A & B). destruct (app_cases _ _ _ _ _ E) as [(e & -> & E2)|(e & -> & E2)].
  - destruct (app_cases _ _ _ _ _ E2) as [(e' & -> & ->)|(e' & -> & ->)].
    + exists (l1 ++ l' ++ e')%list, b. split; [now rewrite <- !app_assoc|]. split; [|exact B]. intros o I. rewrite !in_app_iff in I.
      destruct I as [I|[I|I]]; [apply A; rewrite !in_app_iff; auto|now apply P|apply A; rewrite !in_app_iff; auto].
    + exists (l1 ++ l')%list, l2. split; [now rewrite <- !app_assoc|]. split; intros o I.
      * apply in_app_iff in I. destruct I as [I|I]; [apply A; rewrite in_app_iff; auto|now apply P].
      * apply B. rewrite in_app_iff. auto.
  - exists a, (e ++ l' ++ l2)%list. split; [now rewrite <- !app_assoc|]. split; [exact A|]. intros o I. apply B. rewrite E2. rewrite !in_app_iff in *.
    destruct I as [I|[I|I]]; auto. right. left. now apply P.
Qed.
Lemma layout_in : forall l o, In o (layout_first l) -> In o l.
Proof. intros l o I. unfold layout_first in I. rewrite in_app_iff, !filter_In in I. tauto. Qed.
Lemma fills_copies : forall o, adds_item o = true \/ fills o -> copies o = false.
Proof. intros [] [K|K]; cbn in K; try discriminate; try destruct K; reflexivity. Qed.
Lemma laid_out : forall (L : GoLib) l1 l l2 w, Forall (fun o => adds_item o = true \/ fills o) l -> formatted_first (l1 ++ l ++ l2)%list -> documents (l1 ++ l ++ l2)%list = Some w ->
  documents (l1 ++ (filter adds_item l ++ filter (fun o => negb (adds_item o)) l) ++ l2)%list = Some w.
Proof.
  intros L l1 l l2 w P F D. rewrite first_documents in D by assumption. rewrite first_documents.
  - rewrite !run_split in D |- *. destruct (run_ops l1 []) as [w0|]; [|discriminate]. rewrite run_split in D. destruct (run_ops l w0) as [w1|] eqn:E; [|discriminate].
    pose proof (run_layout L l w0 w1 P E) as K. unfold layout_first in K. rewrite run_split in K. now rewrite run_split, run_split, K.
  - eapply first_reordered; [|exact F]. intros o I. apply layout_in in I. split; [assumption|]. rewrite Forall_forall in P. now apply fills_copies, P.
Qed.
