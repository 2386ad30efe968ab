(** Everything in a document refers to that document: the file pointers of
    paragraphs, cells and pictures, through histories of calls. *)
From Coq Require Import String Ascii List Bool Arith NArith ZArith Lia.
From Verif Require Import GoStr Num Lib Types XmlTok Unmarshal Docx Api Keep Copy Lex Pack History Reload SpecStable RegFacts HistFacts HistFacts2 DrawIds HistInv CopyFacts StableFacts PackFacts5.
Import ListNotations.
Local Open Scope list_scope.
Local Open Scope string_scope.

Definition shows_pic (og : option graphic) : Prop := exists g d, og = Some g /\ graphicR_data g = Some d /\ gdataR_pic d <> None.
Definition home_file (i : nat) (f : option nat) : Prop := f = Some i \/ f = None.
Definition home_rchild (i : nat) (c : rchild) : Prop :=
  match c with
  | RDraw io ao =>
      match io with Some x => shows_pic (inlineR_graphic x) -> home_file i (inlineR_file x) | None => True end /\
      match ao with Some x => shows_pic (anchorR_graphic x) -> home_file i (anchorR_file x) | None => True end
  | _ => True
  end.
Definition home_run (i : nat) (r : run) : Prop := Forall (home_rchild i) (runR_children r).
Definition home_pchild (i : nat) (c : pchild) : Prop := match c with PRun r | PLink _ r => home_run i r | PRPr _ => True end.
Definition home_para (i : nat) (p : para) : Prop := para_file p = Some i /\ Forall (home_pchild i) (para_children p).
Definition home_cell (i : nat) (c : cell) : Prop := cell_file c = Some i /\ Forall (home_para i) (cell_paras c).
Definition home_row (i : nat) (r : row) : Prop := Forall (home_cell i) (row_cells r).
Definition home_item (i : nat) (x : item) : Prop :=
  match x with IPara p => home_para i p | ITable t => Forall (home_row i) (table_rows t) | ISect _ => True end.
Definition home (w : world) : Prop := forall i x, nth_error w i = Some x -> Forall (home_item i) (d_items x).

Section H.
Context `{GoLib}.

(** ** runs *)
Lemma line_home : forall i l b, Forall (home_rchild i) (line_children b l).
Proof.
  induction l as [|k l IH]; intros b; cbn [line_children]; [constructor|]. apply Forall_app. split; [destruct b; repeat constructor|].
  apply Forall_app. split; [destruct (String.eqb k ""); repeat constructor|apply IH].
Qed.
Lemma texts_home : forall i l b, Forall (home_rchild i) (text_children b l).
Proof.
  induction l as [|k l IH]; intros b; cbn [text_children]; [constructor|]. apply Forall_app. split; [destruct b; repeat constructor|].
  apply Forall_app. split; [apply line_home|apply IH].
Qed.
Lemma size_pic : forall sw sh og, shows_pic (option_map (graphic_size sw sh) og) -> shows_pic og.
Proof.
  intros sw sh [g|] (g' & d' & A & B & C); [|discriminate]. cbn in A. injection A as <-. exists g. unfold graphic_size in B.
  destruct (graphicR_data g) as [d|] eqn:D; [|rewrite D in B; discriminate]. exists d. split; [reflexivity|]. split; [reflexivity|].
  destruct (gdataR_pic d) as [p|] eqn:P; [discriminate|]. rewrite D in B. injection B as <-. contradiction.
Qed.
Lemma size_home : forall i anch sw sh c c', child_size anch sw sh c = Ok c' -> home_rchild i c -> home_rchild i c'.
Proof.
  intros i anch sw sh [t|t|t|[x|] [y|]] c' E S; destruct anch; cbn in E; try discriminate; injection E as <-; cbn in *; destruct S as [S1 S2]; split; auto; intros P;
    (apply S1 || apply S2); eapply size_pic; exact P.
Qed.
Lemma rop_home : forall i o r r', exec_rop o r = Ok r' -> home_run i r -> home_run i r'.
Proof.
  intros i o r r' E Q. destruct o; cbn [exec_rop] in E;
    try (unfold run_color, run_size, run_sizecs, run_shade, run_spacing, run_bold, run_italic, run_underline, run_highlight, run_strike, run_font, on_rpr in E;
         destruct (runR_rpr r); inversion E; subst; exact Q).
  - inversion E; subst. unfold home_run in *. cbn. apply Forall_app. split; auto. repeat constructor.
  - inversion E; subst. unfold home_run in *. cbn. now apply keep_all.
  - destruct (nth_error (runR_children r) k) as [c|] eqn:K; [|discriminate]. bok E. inversion E; subst. unfold home_run in *. cbn.
    apply set_nth_all; auto. eapply size_home; eauto. eapply nth_all; eauto.
Qed.
Lemma add_home : forall i c p, home_pchild i c -> home_para i p -> home_para i (add_child c p).
Proof. intros i c [[pp ch f]] C [F S]. unfold add_child. split; cbn in *; auto. apply Forall_app. auto. Qed.
Lemma para_drop_home : forall i n p, home_para i p -> home_para i (para_drop n p).
Proof.
  intros i n [[pp ch f]] [F S]. unfold para_drop. destruct (drop_test n) as [t|]; [|split; auto]. split; [exact F|]. cbn in *.
  eapply map_all; [|exact S]. intros [r|id r|r] K; cbn in *; auto. unfold home_run in *. cbn. now apply filter_all.
Qed.
Lemma pop_home : forall i o w p w' p', exec_pop o w p = Ok (w', p') -> home_para i p -> home_para i p'.
Proof.
  intros i o w p w' p' E Q. destruct Q as [F Q2]. assert (Q : home_para i p) by (split; auto).
  assert (S : forall q, para_file q = para_file p -> para_children q = para_children p -> home_para i q) by (intros q K1 K2; split; [congruence|now rewrite K2]).
  destruct o; cbn [exec_pop] in E; try (match type of E with Ok _ = Ok _ => inversion E; subst; clear E end).
  - unfold add_text. destruct (String.eqb t _); apply add_home; auto; cbn; unfold home_run; cbn; [repeat constructor|apply texts_home].
  - apply add_home; auto. cbn. unfold home_run. cbn. repeat constructor.
  - apply add_home; auto. cbn. unfold home_run. cbn. repeat constructor.
  - unfold add_link in E. bok E. destruct v as [id w1]. inversion E; subst. apply add_home; auto. constructor.
  - unfold add_drawing in E. destruct (lib_imgsize data) as [[[sw sh] fmt]|]; [|discriminate]. bok E. destruct v as [[[idn id] r] w1]. bok E. destruct v as [ew eh].
    inversion E; subst. apply add_home; auto. cbn. unfold home_run. cbn. constructor; [|constructor]. destruct anch; split; auto; intros _; right; reflexivity.
  - unfold add_shape in E. bok E. destruct v as [[idn ids] w1]. inversion E; subst. apply add_home; auto. cbn. unfold home_run. cbn. constructor; [|constructor].
    destruct anch; split; auto; intros _; right; reflexivity.
  - apply S; now destruct p as [[pp ch f]].
  - apply S; now destruct p as [[pp ch f]].
  - apply S; now destruct p as [[pp ch f]].
  - apply S; now destruct p as [[pp ch f]].
  - apply S; now destruct p as [[pp ch f]].
  - destruct p as [[pp ch f]]. split; [exact F|]. cbn in *. now apply keep_all.
  - now apply para_drop_home.
  - destruct (nth_error (para_children p) k) as [[r|id r|r]|] eqn:K; try discriminate.
    + bok E. inversion E; subst. destruct p as [[pp ch f]]. split; [exact F|]. cbn in *. apply set_nth_all; auto.
      eapply rop_home; eauto. exact (nth_all _ _ _ _ _ Q2 K).
    + bok E. inversion E; subst. destruct p as [[pp ch f]]. split; [exact F|]. cbn in *. apply set_nth_all; auto.
      eapply rop_home; eauto. exact (nth_all _ _ _ _ _ Q2 K).
Qed.

(** ** copies are at home in the document they are copied to *)
Lemma copy_rchild_home : forall to c w w' c', copy_rchild to c w = Ok (w', c') -> home_rchild to c'.
Proof.
  intros to c w w' c' E. destruct c as [t|t|t|[x|] a]; cbn [copy_rchild] in E; try (inversion E; subst; exact I).
  - bok E. destruct v as [w1 r]. inversion E; subst. split; [|exact I]. destruct r as [| |dp g]; [exact I| |intros _; left; reflexivity].
    intros (g & d & A & B & C). exfalso. rewrite A in E0. unfold copy_graphic in E0. rewrite B in E0. destruct (gdataR_pic d) as [p|]; [|contradiction].
    destruct (pic_blip p) as [b|]; [|discriminate]. bok E0. destruct (refer_target v _); try discriminate. bok E0. destruct v0 as [idn w2]. bok E0. destruct v0 as [idu w3].
    destruct (drop 6 x0); [|discriminate]. bok E0. bok E0. destruct v1 as [[? ?]|]; [|discriminate]. bok E0. destruct v1. destruct (pic_nvpic p); discriminate.
  - destruct a as [x|]; [|inversion E; subst; split; exact I].
    bok E. destruct v as [w1 r]. inversion E; subst. split; [exact I|]. destruct r as [| |dp g]; [exact I| |intros _; left; reflexivity].
    intros (g & d & A & B & C). exfalso. rewrite A in E0. unfold copy_graphic in E0. rewrite B in E0. destruct (gdataR_pic d) as [p|]; [|contradiction].
    destruct (pic_blip p) as [b|]; [|discriminate]. bok E0. destruct (refer_target v _); try discriminate. bok E0. destruct v0 as [idn w2]. bok E0. destruct v0 as [idu w3].
    destruct (drop 6 x0); [|discriminate]. bok E0. bok E0. destruct v1 as [[? ?]|]; [|discriminate]. bok E0. destruct v1. destruct (pic_nvpic p); discriminate.
Qed.
Lemma copy_list_any : forall A B (R : B -> Prop) (f : A -> world -> res (world * B)), (forall x w w' y, f x w = Ok (w', y) -> R y) ->
  forall l w w' l', copy_list f l w = Ok (w', l') -> Forall R l'.
Proof. intros A B R f K l w w' l' E. eapply (copy_list_all A B (fun _ => True) R f); [intros; eauto|exact E|]. clear. induction l; auto. Qed.
Lemma copy_run_home : forall to r w w' r', copy_run to r w = Ok (w', r') -> home_run to r'.
Proof. intros to r w w' r' E. unfold copy_run in E. bok E. destruct v as [w1 c]. inversion E; subst. unfold home_run. cbn. eapply copy_list_any; [|exact E0]. intros; eapply copy_rchild_home; eauto. Qed.
Lemma copy_pchild_home : forall to f c w w' c', copy_pchild to f c w = Ok (w', c') -> opt_all (home_pchild to) c'.
Proof.
  intros to f c w w' c' E. destruct c as [r|id r|r]; cbn [copy_pchild] in E.
  - bok E. destruct v as [w1 y]. inversion E; subst. eapply copy_run_home; eauto.
  - bok E. destruct (refer_target v id); try discriminate; [|inversion E; subst; exact I].
    bok E. destruct v0 as [rid w1]. bok E. destruct v0 as [w2 y]. inversion E; subst. eapply copy_run_home; eauto.
  - inversion E; subst. exact I.
Qed.
Lemma copy_para_home : forall to c w w' c', copy_para to c w = Ok (w', c') -> home_para to c'.
Proof.
  intros to c w w' c' E. unfold copy_para in E. bok E. destruct v as [w1 l]. inversion E; subst. split; [reflexivity|]. cbn.
  apply somes_all. eapply copy_list_any; [|exact E0]. intros; eapply copy_pchild_home; eauto.
Qed.
Lemma copy_cell_home : forall to c w w' c', copy_cell to c w = Ok (w', c') -> home_cell to c'.
Proof. intros to c w w' c' E. unfold copy_cell in E. bok E. destruct v as [w1 l]. inversion E; subst. split; [reflexivity|]. cbn. eapply copy_list_any; [|exact E0]. intros; eapply copy_para_home; eauto. Qed.
Lemma copy_row_home : forall to c w w' c', copy_row to c w = Ok (w', c') -> home_row to c'.
Proof. intros to c w w' c' E. unfold copy_row in E. bok E. destruct v as [w1 l]. inversion E; subst. unfold home_row. cbn. eapply copy_list_any; [|exact E0]. intros; eapply copy_cell_home; eauto. Qed.
Lemma copy_item_home : forall to c w w' c', copy_item to c w = Ok (w', c') -> home_item to c'.
Proof.
  intros to c w w' c' E. destruct c as [p|t|s]; cbn [copy_item] in E.
  - bok E. destruct v as [w1 p']. inversion E; subst. eapply copy_para_home; eauto.
  - bok E. destruct v as [w1 t']. inversion E; subst. unfold copy_table in E0. bok E0. destruct v as [w2 l]. inversion E0; subst. cbn.
    eapply copy_list_any; [|exact E1]. intros; eapply copy_row_home; eauto.
  - inversion E; subst. exact I.
Qed.

(** ** worlds *)
Lemma items_home : forall w w', same_items w w' -> home w -> home w'.
Proof.
  intros w w' S Hm i x N. specialize (S i). unfold items_at in S. rewrite N in S. cbn in S. destruct (nth_error w i) as [y|] eqn:E; [|discriminate].
  cbn in S. injection S as S _. rewrite S. eauto.
Qed.
Lemma home_set : forall w d y, home w -> Forall (home_item d) (d_items y) -> home (set_nth w d y).
Proof.
  intros w d y S F k z K. destruct (Nat.eq_dec k d) as [->|D].
  - destruct (Nat.lt_ge_cases d (length w)) as [L|L].
    + rewrite set_nth_same in K by auto. injection K as <-. exact F.
    + assert (nth_error (set_nth w d y) d = None) by (apply nth_error_None; rewrite set_nth_length; auto). congruence.
  - rewrite set_nth_other in K by auto. eauto.
Qed.
Lemma home_app : forall w y, home w -> Forall (home_item (length w)) (d_items y) -> home (w ++ [y])%list.
Proof.
  intros w y S F i x K. destruct (Nat.lt_ge_cases i (length w)) as [L|L].
  - rewrite nth_error_app1 in K by auto. eauto.
  - rewrite nth_error_app2 in K by auto. destruct (i - length w) as [|[|n]] eqn:Q; cbn in K; try discriminate. injection K as <-. replace i with (length w) by lia. exact F.
Qed.
Lemma copy_push_home : forall to x w w', copy_push to x w = Ok w' -> home w -> home w'.
Proof.
  intros to x w w' E F. unfold copy_push in E. bok E. destruct v as [w1 y]. unfold push_item in E. destruct (nth_error w1 to) as [d|] eqn:D; [|discriminate].
  inversion E; subst. assert (F1 : home w1) by (eapply items_home; [|exact F]; exact (proj2 (copy_item_frame _ _ _ _ _ E0))).
  apply home_set; auto. cbn. apply Forall_app. split; [eauto|]. constructor; [|constructor]. eapply copy_item_home; eauto.
Qed.
Lemma append_items_home : forall to l w w', append_items to l w = Ok w' -> home w -> home w'.
Proof. intros to. induction l as [|x l IH]; intros w w' E F; cbn [append_items] in E; [inversion E; subst; auto|]. bok E. eapply IH; eauto. eapply copy_push_home; eauto. Qed.
Lemma new_part_home : forall t w, home w -> home (new_part t w).
Proof. intros t w F. unfold new_part. apply home_app; auto. constructor. Qed.
Lemma split_items_home : forall t sep l cur fresh w w', split_items t sep l cur fresh w = Ok w' -> home w -> home w'.
Proof.
  intros t sep. induction l as [|x l IH]; intros cur fresh w w' E F; cbn [split_items] in E; [inversion E; subst; auto|].
  assert (K : forall c v, bind (copy_push c x v) (fun w1 => split_items t sep l c false w1) = Ok w' -> home v -> home w').
  { intros c v E' V. bok E'. eapply IH; eauto. eapply copy_push_home; eauto. }
  destruct x as [p|tb|s]; try (eapply K; eauto; fail). bok E. destruct (_ && _)%bool; [|eapply K; eauto]. eapply K; eauto. now apply new_part_home.
Qed.
Lemma get_cell_home : forall d l i r c x, Forall (home_item d) l -> get_cell l i r c = Some x -> home_cell d x.
Proof.
  intros d l i r c x F E. unfold get_cell in E. destruct (nth_error l i) as [[p|t|s]|] eqn:K; try discriminate.
  destruct (nth_error (table_rows t) r) as [y|] eqn:R; [|discriminate]. pose proof (nth_all _ _ _ _ _ F K) as T.
  pose proof (nth_all _ _ _ _ _ T R) as C. exact (nth_all _ _ _ _ _ C E).
Qed.
Lemma put_cell_home : forall d l i r c x, Forall (home_item d) l -> home_cell d x -> Forall (home_item d) (put_cell l i r c x).
Proof.
  intros d l i r c x F S. unfold put_cell. destruct (nth_error l i) as [[p|t|s]|] eqn:K; auto.
  destruct (nth_error (table_rows t) r) as [y|] eqn:R; auto. pose proof (nth_all _ _ _ _ _ F K) as T.
  pose proof (nth_all _ _ _ _ _ T R) as C. apply set_nth_all; auto. cbn. apply set_nth_all; auto. unfold home_row. cbn. apply set_nth_all; auto.
Qed.
Lemma get_para_home : forall d l a p, Forall (home_item d) l -> get_para l a = Some p -> home_para d p.
Proof.
  intros d l [i|i r c k] p F E; cbn in E.
  - destruct (nth_error l i) as [[q|t|s]|] eqn:K; try discriminate. injection E as ->. exact (nth_all _ _ _ _ _ F K).
  - destruct (get_cell l i r c) as [x|] eqn:K; [|discriminate]. destruct (get_cell_home _ _ _ _ _ _ F K) as [_ C]. eapply nth_all; eauto.
Qed.
Lemma put_para_home : forall d l a p, Forall (home_item d) l -> home_para d p -> Forall (home_item d) (put_para l a p).
Proof.
  intros d l [i|i r c k] p F S; cbn.
  - now apply set_nth_all.
  - destruct (get_cell l i r c) as [x|] eqn:K; auto. destruct (get_cell_home _ _ _ _ _ _ F K) as [C1 C2].
    apply put_cell_home; auto. split; auto. cbn. now apply set_nth_all.
Qed.
Lemma on_doc_home : forall w d k w', home w -> on_doc w d k = Ok w' ->
  (forall x y, k x = Ok y -> Forall (home_item d) (d_items x) -> Forall (home_item d) (d_items y)) -> home w'.
Proof. intros w d k w' S E K. destruct (on_doc_inv _ _ _ _ E) as [x [y [N [Ky ->]]]]. apply home_set; auto. eapply K; eauto. Qed.

(** ** loading *)
Lemma reload_para_home : forall i p, home_para i (reload_para (Some i) p).
Proof.
  intros i [[pp ch f]]. split; [reflexivity|]. cbn. apply Forall_forall. intros c I. apply in_map_iff in I. destruct I as (c' & <- & _).
  destruct c' as [r|id r|r]; cbn; auto; unfold home_run; cbn; apply Forall_forall; intros x J; apply in_map_iff in J; destruct J as (x' & <- & _);
    destruct x' as [t|t|t|[a|] [b|]]; cbn; auto; split; auto; intros _; (left; reflexivity) || (right; reflexivity).
Qed.
Lemma reload_item_home : forall i x, home_item i (reload_item (Some i) x).
Proof.
  intros i [p|t|s]; cbn; auto; [apply reload_para_home|]. apply Forall_forall. intros r I. apply in_map_iff in I. destruct I as (r' & <- & _).
  unfold home_row. cbn. apply Forall_forall. intros c J. apply in_map_iff in J. destruct J as (c' & <- & _). split; [reflexivity|]. cbn.
  apply Forall_forall. intros p J. apply in_map_iff in J. destruct J as (p' & <- & _). apply reload_para_home.
Qed.
Lemma reflag_home : forall i x, home_item i (reflag_item x) -> home_item i x.
Proof.
  intros i [p|t|s] K; auto. unfold reflag_item in K. cbn in K. destruct (table_props t) as [q|] eqn:Q; auto. destruct (tblpr_look q); auto.
Qed.
Lemma loaded_home : forall f l, loaded_body f l -> Forall (home_item f) l.
Proof.
  intros f l (s & ->). eapply Forall_impl; [|apply (st_parse (Some f) (lex s))]. intros x (E & _). apply reflag_home. rewrite <- E. apply reload_item_home.
Qed.

Definition brings_home (o : op) : Prop := match o with OLoad _ _ => False | OParse a => NoDup (map fst a) | _ => True end.
Lemma exec_home : forall o w w', exec o w = Ok w' -> brings_home o -> home w -> home w'.
Proof.
  intros o w w' E B S. destruct o; cbn [exec] in E.
  - inversion E; subst. apply home_app; auto. constructor.
  - destruct B.
  - destruct (nth_error w d) as [x|] eqn:N; [|discriminate]. destruct (get_para (d_items x) a) as [p|] eqn:G; [|discriminate].
    bok E. destruct v as [w1 p']. pose proof (pop_home _ _ _ _ _ _ E0 (get_para_home _ _ _ _ (S _ _ N) G)) as P1.
    assert (S1 : home w1) by (eapply items_home; [exact (proj1 (exec_pop_items _ _ _ _ _ E0))|exact S]).
    eapply on_doc_home; [exact S1|exact E|]. intros y z K F. injection K as <-. cbn. now apply put_para_home.
  - bok E. destruct v as [w1 p']. inversion E; subst. eapply items_home; [exact (proj1 (exec_pop_items _ _ _ _ _ E0))|exact S].
  - eapply on_doc_home; eauto. intros y z K F. injection K as <-. cbn. apply Forall_app. split; auto. constructor; [|constructor]. split; [reflexivity|constructor].
  - eapply on_doc_home; eauto. intros y z K F. cbv beta in K. destruct (get_cell (d_items y) i r c) as [v|] eqn:G; [|discriminate]. injection K as <-. cbn.
    destruct (get_cell_home _ _ _ _ _ _ F G) as [C2 C3]. apply put_cell_home; auto. split; auto. cbn. apply Forall_app. split; auto.
    constructor; [|constructor]. split; [exact C2|constructor].
  - eapply on_doc_home; eauto. intros y z K F. cbv beta in K. bok K. destruct v as [y' col']. injection K as <-. unfold add_table in E0.
    destruct (Z.ltb (iv r) 0); [discriminate|]. destruct (_ && _)%bool; [discriminate|]. destruct (use_colors col). injection E0 as <- _. cbn. apply Forall_app. split; auto.
    constructor; [|constructor]. cbn. apply repeat_all. unfold home_row. cbn. apply repeat_all. split; [reflexivity|constructor].
  - eapply on_doc_home; eauto. intros y z K F. injection K as <-. unfold add_table_twips. destruct (use_colors col). cbn. apply Forall_app. split; auto.
    constructor; [|constructor]. cbn. apply Forall_forall. intros rw I. apply in_map_iff in I. destruct I as [h [<- _]].
    unfold home_row. cbn. apply Forall_forall. intros ce I. apply in_map_iff in I. destruct I as [u [<- _]]. split; [reflexivity|constructor].
  - eapply on_doc_home; eauto. intros y z K F. cbv beta in K. destruct (nth_error (d_items y) i) as [[p|t|s]|] eqn:G; try discriminate. bok K. injection K as <-.
    pose proof (nth_all _ _ _ _ _ F G) as T2. cbn. apply set_nth_all; auto. unfold table_justification in E0. destruct (table_props t); [|discriminate]. injection E0 as <-. exact T2.
  - eapply on_doc_home; eauto. intros y z K F. cbv beta in K. destruct (nth_error (d_items y) i) as [[p|t|s]|] eqn:G; try discriminate.
    destruct (nth_error (table_rows t) r) as [rw|] eqn:R; [|discriminate]. bok K. injection K as <-.
    pose proof (nth_all _ _ _ _ _ F G) as T2. pose proof (nth_all _ _ _ _ _ T2 R) as R2. cbn. apply set_nth_all; auto. cbn. apply set_nth_all; auto.
    unfold row_justification in E0. destruct (row_props rw); [|discriminate]. injection E0 as <-. exact R2.
  - eapply on_doc_home; eauto. intros y z K F. cbv beta in K. destruct (get_cell (d_items y) i r c) as [q|] eqn:G; [|discriminate]. bok K. injection K as <-.
    destruct (get_cell_home _ _ _ _ _ _ F G) as [C2 C3]. cbn. apply put_cell_home; auto. unfold cell_shade in E0. destruct (cell_props q); [|discriminate]. injection E0 as <-.
    split; auto.
  - eapply on_doc_home; eauto. intros y z K F. injection K as <-. destruct a3; cbn; apply Forall_app; split; auto; repeat constructor.
  - eapply on_doc_home; eauto. intros y z K F. injection K as <-. exact F.
  - eapply on_doc_home; eauto. intros y z K F. injection K as <-. cbn. now apply keep_all.
  - eapply on_doc_home; eauto. intros y z K F. injection K as <-. cbn. eapply map_all; [|exact F]. intros [p|t|s] Q; cbn in *; auto.
    + now apply para_drop_home.
    + eapply map_all; [|exact Q]. intros rw R2. unfold home_row in *. cbn. eapply map_all; [|exact R2].
      intros ce [C2 C3]. split; auto. cbn. eapply map_all; [|exact C3]. intros; now apply para_drop_home.
  - destruct (nth_error w d); [|discriminate]. unfold append_file in E. destruct (nth_error w from) as [x|] eqn:D; [|discriminate]. eapply append_items_home; eauto.
  - unfold split_by_paragraph in E. destruct (nth_error w d) as [x|] eqn:D; [|discriminate].
    destruct (d_items x) as [|y l]; [inversion E; subst; auto|]. eapply split_items_home; eauto. now apply new_part_home.
  - unfold parse in E. bok E. inversion E; subst. apply home_app; auto. apply loaded_home. eapply unpack_loaded; eauto.
Qed.
Lemma run_home : forall l w w', run_ops l w = Some w' -> Forall brings_home l -> home w -> home w'.
Proof.
  induction l as [|o l IH]; intros w w' E F S; cbn in E; [injection E as <-; auto|]. inversion F; subst.
  destruct (exec o w) as [w1|e|] eqn:X; [|eauto|discriminate]. eapply IH; eauto. eapply exec_home; eauto.
Qed.
End H.
