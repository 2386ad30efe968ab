(** Calls on several paragraphs, made in turns. *)
From Coq Require Import String Ascii List Bool Arith NArith ZArith Lia.
From Verif Require Import GoStr Num Lib Types Docx Api Keep Copy Pack History Alias SpecAlias SpecSep SpecLast SpecWeave RegFacts HistFacts2 SepFacts LastFacts.
Import ListNotations.
Local Open Scope list_scope.
Local Open Scope string_scope.

Lemma addr_same : forall a b, same_addr a b = true <-> a = b.
Proof.
  intros [i|i r c k] [j|j r' c' k']; cbn; rewrite ?andb_true_iff, ?Nat.eqb_eq; split; intros K; try discriminate K; try congruence.
  - destruct K as [[[-> ->] ->] ->]. reflexivity.
  - injection K as -> -> -> ->. auto.
Qed.
Lemma on_para_spec : forall d a o, on_para d a o = true <-> exists p, o = OPara d a p.
Proof.
  intros d a o. split.
  - destruct o; cbn; try discriminate. rewrite andb_true_iff, Nat.eqb_eq, addr_same. intros [-> ->]. eauto.
  - intros [p ->]. cbn. rewrite Nat.eqb_refl. cbn. now apply addr_same.
Qed.

Definition plain_upd (o : pop) (p : para) : res para :=
  match o with
  | OText t => Ok (add_text t p) | OTab => Ok (add_tab p) | OBreak => Ok (add_page_breaks p)
  | OJc v => Ok (para_justification v p) | OStyle v => Ok (para_style v p) | ONum n l => Ok (para_numpr n l p)
  | ONumFont a e h t => Ok (para_numfont a e h t p) | ONumSize v => Ok (para_numsize v p)
  | OKeepP names => Ok (para_keep names p) | ODropP name => Ok (para_drop name p)
  | ORun k o =>
      match nth_error (para_children p) k with
      | Some (PRun r) => bind (exec_rop o r) (fun r' => Ok (set_para_children (set_nth (para_children p) k (PRun r')) p))
      | Some (PLink id r) => bind (exec_rop o r) (fun r' => Ok (set_para_children (set_nth (para_children p) k (PLink id r')) p))
      | _ => Panic
      end
  | _ => Panic
  end.
Lemma plain_exec : forall (L : GoLib) d a o w p, plain_call (OPara d a o) -> exec_pop o w p = bind (plain_upd o p) (fun p' => Ok (w, p')).
Proof.
  intros L d a o w p K. destruct o; try destruct K; try reflexivity. cbn [exec_pop plain_upd].
  destruct (nth_error (para_children p) k) as [[r|id r|r]|]; try reflexivity; destruct (exec_rop o r); reflexivity.
Qed.
Lemma rop_no_error : forall o r e, exec_rop o r <> Err e.
Proof.
  intros o r er. destruct o; try (cbn; discriminate); try (cbn; match goal with |- ?f _ <> _ => unfold f | |- ?f _ _ <> _ => unfold f | |- ?f _ _ _ _ <> _ => unfold f | |- ?f _ _ _ _ _ <> _ => unfold f end; unfold on_rpr; destruct (runR_rpr r); discriminate).
  cbn. destruct (nth_error (runR_children r) k) as [c|]; [|discriminate]. destruct c; cbn; try discriminate.
  all: try (destruct anch). all: repeat (match goal with |- context [match ?x with _ => _ end] => destruct x end); cbn; discriminate.
Qed.
Lemma plain_no_error : forall o p e, plain_upd o p <> Err e.
Proof.
  intros o p er. destruct o; cbn; try discriminate. destruct (nth_error (para_children p) k) as [[r|id r|r]|]; try discriminate;
    pose proof (rop_no_error o r) as K; destruct (exec_rop o r) as [x|e|]; try discriminate; now destruct (K e).
Qed.
Definition plain_change (o : pop) (p : para) : option para := match plain_upd o p with Ok p' => Some p' | _ => None end.
Lemma run_plain : forall (L : GoLib) d a o w, plain_call (OPara d a o) -> run_ops [OPara d a o] w = at_nth d (in_items (change_at a (plain_change o))) w.
Proof.
  intros L d a o w K. cbn [run_ops exec]. unfold at_nth, in_items. destruct (nth_error w d) as [x|] eqn:N; [|reflexivity]. cbn [step]. rewrite change_at_spec.
  destruct (get_para (d_items x) a) as [p|]; [|reflexivity]. rewrite (plain_exec L d a) by assumption. cbn [step]. unfold plain_change. pose proof (plain_no_error o p) as NE.
  destruct (plain_upd o p) as [p'|e|]; cbn [bind step]; [|now destruct (NE e)|reflexivity]. unfold on_doc. rewrite N. reflexivity.
Qed.
Lemma change_apart : forall a b f g, a <> b -> comm (change_at a f) (change_at b g).
Proof.
  intros [i|i r c k] [i'|i' r' c' k'] f g N; cbn [change_at]; apply at_comm; intros <-.
  - now destruct N.
  - apply kinds_comm.
  - apply comm_sym, kinds_comm.
  - apply tables_comm, rows_comm, at_comm. intros <-. apply cells_comm, at_comm. intros <-. apply paras_comm, at_comm. intros <-. now destruct N.
Qed.
Lemma plain_swap : forall (L : GoLib) d a o d' a' o' w, plain_call (OPara d a o) -> plain_call (OPara d' a' o') -> on_para d a (OPara d' a' o') = false ->
  run_ops [OPara d a o; OPara d' a' o'] w = run_ops [OPara d' a' o'; OPara d a o] w.
Proof.
  intros L d a o d' a' o' w A B N.
  assert (K : comm (at_nth d (in_items (change_at a (plain_change o)))) (at_nth d' (in_items (change_at a' (plain_change o'))))).
  { apply at_comm. intros <-. apply items_comm, change_apart. intros <-. cbn in N. rewrite Nat.eqb_refl in N. rewrite (proj2 (addr_same a a) eq_refl) in N. discriminate. }
  specialize (K w). change [OPara d a o; OPara d' a' o'] with ([OPara d a o] ++ [OPara d' a' o'])%list. change [OPara d' a' o'; OPara d a o] with ([OPara d' a' o'] ++ [OPara d a o])%list.
  rewrite !run_split, !run_plain by assumption. unfold step in K.
  destruct (at_nth d (in_items (change_at a (plain_change o))) w) as [w1|]; destruct (at_nth d' (in_items (change_at a' (plain_change o'))) w) as [w2|]; rewrite ?run_plain by assumption; exact K.
Qed.

(** ** taking a call to the front *)
Lemma to_front : forall (L : GoLib) d a o A B w, plain_call (OPara d a o) -> Forall plain_call A -> filter (on_para d a) A = [] ->
  run_ops (A ++ OPara d a o :: B)%list w = run_ops (OPara d a o :: A ++ B)%list w.
Proof.
  intros L d a o A B w P F. revert w. induction F as [|x A Px F IH]; intros w N; [reflexivity|].
  cbn [filter] in N. destruct (on_para d a x) eqn:E; [discriminate|].
  change ((x :: A) ++ OPara d a o :: B)%list with ([x] ++ (A ++ OPara d a o :: B))%list. rewrite run_split.
  transitivity (match run_ops [x] w with Some w1 => run_ops (OPara d a o :: A ++ B)%list w1 | None => None end).
  { destruct (run_ops [x] w); [now apply IH|reflexivity]. }
  rewrite <- run_split. destruct x; try destruct Px. cbn [app].
  change (OPara d0 a0 o0 :: OPara d a o :: A ++ B) with ([OPara d0 a0 o0; OPara d a o] ++ (A ++ B))%list.
  change (OPara d a o :: OPara d0 a0 o0 :: A ++ B) with ([OPara d a o; OPara d0 a0 o0] ++ (A ++ B))%list.
  now rewrite (run_split [OPara d0 a0 o0; OPara d a o]), (run_split [OPara d a o; OPara d0 a0 o0]), (plain_swap L d a o d0 a0 o0).
Qed.
Lemma first_found : forall (f : op -> bool) l o r, filter f l = o :: r -> exists A B, l = (A ++ o :: B)%list /\ filter f A = [] /\ f o = true.
Proof.
  induction l as [|x l IH]; intros o r E; cbn in E; [discriminate|]. destruct (f x) eqn:F.
  - injection E as -> _. exists [], l. auto.
  - destruct (IH o r E) as (A & B & -> & N & T). exists (x :: A), B. cbn. rewrite F. auto.
Qed.
Lemma plain_place : forall o, plain_call o -> exists d a p, o = OPara d a p.
Proof. intros [] K; try destruct K. eauto. Qed.
Lemma run_weaves : forall (L : GoLib) l l' w, Forall plain_call l -> Forall plain_call l' -> weaves l l' -> run_ops l w = run_ops l' w.
Proof.
  intros L l. induction l as [|o l IH]; intros l' w P P' W.
  - destruct l' as [|x l']; [reflexivity|]. exfalso. inversion P' as [|? ? Px _]; subst. destruct (plain_place x Px) as (d & a & p & ->).
    specialize (W d a). cbn [filter] in W. rewrite (proj2 (on_para_spec d a _)) in W by eauto. discriminate W.
  - inversion P as [|? ? Po Pl]; subst. destruct (plain_place o Po) as (d & a & p & ->).
    assert (E : on_para d a (OPara d a p) = true) by (apply on_para_spec; eauto).
    pose proof (W d a) as Wd. cbn [filter] in Wd. rewrite E in Wd. symmetry in Wd. destruct (first_found _ _ _ _ Wd) as (A & B & -> & NA & _).
    apply Forall_app in P'. destruct P' as [PA PB]. inversion PB as [|? ? _ PB']; subst.
    rewrite to_front by assumption. change (OPara d a p :: l) with ([OPara d a p] ++ l)%list. change (OPara d a p :: A ++ B) with ([OPara d a p] ++ (A ++ B))%list.
    rewrite !run_split. destruct (run_ops [OPara d a p] w) as [w1|]; [|reflexivity]. apply IH; [assumption|now apply Forall_app|].
    intros e b. specialize (W e b). rewrite filter_app in *. cbn [filter] in W. destruct (on_para e b (OPara d a p)) eqn:Q; [|exact W].
    apply on_para_spec in Q. destruct Q as [q Q]. injection Q as <- <- _. rewrite NA in *. cbn in W |- *. congruence.
Qed.

(** ** in memory *)
Lemma weaves_in : forall l l' o, Forall plain_call l' -> weaves l l' -> In o l' -> In o l.
Proof.
  intros l l' o P W I. rewrite Forall_forall in P. destruct (plain_place o (P o I)) as (d & a & p & ->).
  assert (K : In (OPara d a p) (filter (on_para d a) l')) by (apply filter_In; split; [assumption|apply on_para_spec; eauto]).
  rewrite <- W in K. apply filter_In in K. tauto.
Qed.
Lemma plain_copies : forall o, plain_call o -> copies o = false.
Proof. intros [] K; try destruct K; reflexivity. Qed.
Lemma app_cases : forall A (a b c d : list A), (a ++ b = c ++ d)%list -> (exists e, c = a ++ e /\ b = e ++ d)%list \/ (exists e, a = c ++ e /\ d = e ++ b)%list.
Proof.
  induction a as [|x a IH]; intros b c d E.
  - left. exists c. auto.
  - destruct c as [|y c]; [right; exists (x :: a); auto|]. cbn in E. injection E as <- E. destruct (IH _ _ _ E) as [(e & -> & ->)|(e & -> & ->)]; [left|right]; exists e; auto.
Qed.
Lemma first_weaves : forall l1 l l' l2, Forall plain_call l -> Forall plain_call l' -> weaves l l' -> formatted_first (l1 ++ l ++ l2)%list -> formatted_first (l1 ++ l' ++ l2)%list.
Proof.
  intros l1 l l' l2 P P' W (a & b & E & A & B). destruct (app_cases _ _ _ _ _ E) as [(e & -> & E2)|(e & -> & E2)].
  - destruct (app_cases _ _ _ _ _ E2) as [(e' & -> & ->)|(e' & -> & ->)].
    + exists (l1 ++ l' ++ e')%list, b. split; [now rewrite <- !app_assoc|]. split; [|exact B]. intros o I. rewrite !in_app_iff in I.
      destruct I as [I|[I|I]]; [apply A; rewrite !in_app_iff; auto| |apply A; rewrite !in_app_iff; auto]. rewrite Forall_forall in P'. now apply plain_copies, P'.
    + exists (l1 ++ l')%list, l2. split; [now rewrite <- !app_assoc|]. split; intros o I.
      * apply in_app_iff in I. destruct I as [I|I]; [apply A; rewrite in_app_iff; auto|]. rewrite Forall_forall in P'. now apply plain_copies, P'.
      * apply B. rewrite in_app_iff. auto.
  - exists a, (e ++ l' ++ l2)%list. split; [now rewrite <- !app_assoc|]. split; [exact A|]. intros o I. apply B. rewrite E2. rewrite !in_app_iff in *.
    destruct I as [I|[I|I]]; auto. right. left. eapply weaves_in; eauto.
Qed.
Lemma woven : forall (L : GoLib) l1 l l' l2, Forall plain_call l -> Forall plain_call l' -> weaves l l' -> formatted_first (l1 ++ l ++ l2)%list ->
  documents (l1 ++ l ++ l2)%list = documents (l1 ++ l' ++ l2)%list.
Proof.
  intros L l1 l l' l2 P P' W F. rewrite !first_documents by (eauto using first_weaves). rewrite !run_split. destruct (run_ops l1 []) as [w|]; [|reflexivity]. rewrite !run_split.
  now rewrite (run_weaves L l l').
Qed.

(** ** hyperlinks in turns *)
Definition wv_lib : GoLib := {| lib_float := fun _ => None; lib_md5 := fun s => s; lib_imgsize := fun s => None |}.
Definition wv_start : list op := [ONew; OAddPara 0; OAddPara 0].
Definition wv_one : op := OPara 0 (ABody 0) (OLink "a" "http://a").
Definition wv_two : op := OPara 0 (ABody 1) (OLink "b" "http://b").
Definition wv_ids (w : option world) : list (list string) :=
  match w with
  | Some [d] => map (fun x => match x with IPara p => map (fun c => match c with PLink id _ => id | _ => "" end) (para_children p) | _ => [] end) (d_items d)
  | _ => []
  end.
Lemma links_differ : exists (L : GoLib) l1 l l', weaves l l' /\ formatted_first (l1 ++ l)%list /\ documents (l1 ++ l)%list <> documents (l1 ++ l')%list.
Proof.
  exists wv_lib, wv_start, [wv_one; wv_two], [wv_two; wv_one]. split; [|split].
  - intros d a. unfold wv_one, wv_two. cbn [filter]. destruct (on_para d a (OPara 0 (ABody 0) (OLink "a" "http://a"))) eqn:A; destruct (on_para d a (OPara 0 (ABody 1) (OLink "b" "http://b"))) eqn:B; try reflexivity.
    apply on_para_spec in A. apply on_para_spec in B. destruct A as [p A]. destruct B as [q B]. congruence.
  - exists (wv_start ++ [wv_one; wv_two])%list, []. split; [now rewrite app_nil_r|]. split; intros o I; cbn in I; repeat destruct I as [<-|I]; try reflexivity; destruct I.
  - intros E. apply (f_equal wv_ids) in E. vm_compute in E. discriminate E.
Qed.
