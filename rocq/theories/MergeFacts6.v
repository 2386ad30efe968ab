(** Consequences: rules that look at the properties, and the objects. *)
From Coq Require Import String Ascii List Bool Arith NArith ZArith Lia.
From Verif Require Import GoStr Num Lib Types Docx Text Merge SpecApi SpecMerge SpecMerge2 MergeFacts MergeFacts2 MergeFacts4 MergeFacts5.
Import ListNotations.
Local Open Scope list_scope.
Local Open Scope string_scope.

Lemma merge_any : forall f p p', merge_text f p = Ok p' -> exists ds, length ds = pred (length (runs p)) /\
  p' = mk_para (para_ppr p) (merged (false :: ds) (para_children p)) (para_file p).
Proof. intros f p p' M. destruct (merge_exactly f p p' M) as (ds & L & E & _). now exists ds. Qed.
Lemma merge_by_props : forall f same p, (forall a b, f a b = Ok (same (runR_rpr a) (runR_rpr b))) ->
  merge_text f p = Ok (mk_para (para_ppr p) (merged (decisions same None (para_children p)) (para_children p)) (para_file p)).
Proof.
  intros f same p P. destruct (loop_total f (fun a b => ex_intro _ _ (P a b)) (para_children p) (mk_mstate [] None [] [])) as [s E].
  assert (M : exists p', merge_text f p = Ok p') by (unfold merge_text; rewrite E; cbn; eauto).
  destruct M as [p' M]. rewrite M. destruct (merge_exactly f p p' M) as (ds & _ & -> & D). f_equal. now rewrite (D same P).
Qed.
Lemma decisions_all : forall q l, decisions (fun _ _ => true) (Some q) l = map (fun _ => true) (flat_map run_of l).
Proof. intros q l. induction l as [|[r|i r|r] l IH]; cbn; auto. now rewrite IH. Qed.
Lemma merged_pad : forall n m l, length (flat_map run_of l) <= n -> length (flat_map run_of l) <= m ->
  joining (repeat true n) l = joining (repeat true m) l /\ merged (repeat true n) l = merged (repeat true m) l.
Proof.
  intros n m l. revert n m. induction l as [|[r|i r|r] l IH]; intros n m Ln Lm; cbn in *; auto.
  - destruct n as [|n], m as [|m]; try lia. cbn. destruct (IH n m) as [A B]; try lia. rewrite A, B. auto.
  - destruct (IH n m) as [A B]; try lia. rewrite A, B. auto.
  - destruct (IH n m) as [A B]; try lia. rewrite A, B. auto.
Qed.
Lemma merge_all_exactly : forall p,
  merge_text merge_all_runs p = Ok (mk_para (para_ppr p) (merged (false :: map (fun _ => true) (runs p)) (para_children p)) (para_file p)).
Proof.
  intros p. rewrite (merge_by_props _ (fun _ _ => true)) by reflexivity. f_equal. f_equal. unfold runs.
  assert (R : forall A (l : list A), map (fun _ => true) l = repeat true (length l)) by (induction l; cbn; congruence).
  induction (para_children p) as [|[r|i r|r] l IH]; cbn [decisions merged hd tl flat_map run_of app map]; auto.
  2:{ now rewrite IH. } 2:{ now rewrite IH. }
  rewrite decisions_all, !R.
  destruct (merged_pad (length (flat_map run_of l)) (S (length (flat_map run_of l))) l) as [A B]; try lia. cbn [repeat] in *.
  now rewrite A, B.
Qed.
Lemma merge_same_exactly : exists same, (forall a b, same a b = true <-> a = b) /\ forall p,
  merge_text merge_same_prop_runs p = Ok (mk_para (para_ppr p) (merged (decisions same None (para_children p)) (para_children p)) (para_file p)).
Proof.
  exists (fun a b => same_prop false (Some (mk_runR "" a "" [])) (Some (mk_runR "" b "" []))). split.
  - intros a b. apply (same_prop_spec false (mk_runR "" a "" []) (mk_runR "" b "" [])). discriminate.
  - intros p. apply merge_by_props. intros a b. reflexivity.
Qed.

(** ** the objects *)
Definition objs (l : list rchild) : list rchild := filter (fun c => negb (is_text c)) l.
Lemma objs_app : forall a b, objs (a ++ b)%list = (objs a ++ objs b)%list.
Proof. intros. apply filter_app. Qed.
Lemma objs_segments : forall l, objs l = map snd (fst (segments l)) /\ Forall (fun x => is_text (snd x) = false) (fst (segments l)).
Proof.
  induction l as [|c l [E F]]; [split; [reflexivity|constructor]|]. destruct (is_text c) eqn:T.
  - destruct c as [x| | |]; try discriminate T. cbn [segments]. unfold objs in *. cbn [filter is_text negb]. rewrite E. clear E.
    destruct (segments l) as [[|[s o] a] z]; cbn in *; split; try reflexivity; try constructor.
    + inversion F; subst. assumption.
    + inversion F; subst. assumption.
  - rewrite (segments_obj _ _ T). destruct (segments l) as [a z]. unfold objs in *. cbn [filter]. rewrite T. cbn in *. rewrite E. split; [reflexivity|].
    constructor; assumption.
Qed.
Lemma objs_text_if : forall s, objs (text_if s) = [].
Proof. intros s. unfold text_if. destruct (s =? "")%string; reflexivity. Qed.
Lemma objs_instead : forall t a, Forall (fun x => is_text (snd x) = false) a -> objs (flat_map (instead t) a) = map snd a.
Proof.
  intros t a F. induction F as [|x a E F IH]; [reflexivity|]. cbn [flat_map map]. rewrite objs_app, IH.
  assert (O : objs [snd x] = [snd x]) by (unfold objs; cbn; rewrite E; reflexivity).
  unfold instead. destruct (fst x =? "")%string; [now rewrite O|]. change (objs [snd x] ++ map snd a = snd x :: map snd a)%list. now rewrite O.
Qed.
Lemma objs_behind : forall rest open, objs (behind open rest) = flat_map (fun r => objs (runR_children r)) rest.
Proof.
  induction rest as [|r rest IH]; intros open; [reflexivity|]. cbn [behind flat_map]. destruct (objs_segments (runR_children r)) as [E F].
  rewrite E. destruct (segments (runR_children r)) as [a z]. cbn [fst] in *. destruct a as [|x a].
  - cbn. destruct open; [apply IH|]. rewrite objs_app, objs_text_if. apply IH.
  - rewrite !objs_app, objs_text_if, IH. inversion F as [|? ? Fx Fa]; subst. rewrite objs_instead by exact Fa.
    assert (O : objs (if open then [snd x] else instead (final z rest) x) = [snd x]).
    { destruct open; [unfold objs; cbn; now rewrite Fx|].
      pose proof (objs_instead (final z rest) [x] (Forall_cons _ Fx (Forall_nil _))) as J. cbn in J. now rewrite app_nil_r in J. }
    rewrite O. cbn [map app]. reflexivity.
Qed.
Lemma objs_joined : forall r rest, objs (runR_children (joined r rest)) = (objs (runR_children r) ++ flat_map (fun r => objs (runR_children r)) rest)%list.
Proof.
  intros r rest. unfold joined. destruct (objs_segments (runR_children r)) as [E F]. rewrite E.
  destruct (segments (runR_children r)) as [a z]. cbn [fst] in *.
  change (objs (flat_map (fun x => text_if (fst x) ++ [snd x]) a ++ text_if (final z rest) ++ behind (negb (z =? "")%string) rest)%list =
    (map snd a ++ flat_map (fun r => objs (runR_children r)) rest)%list).
  rewrite !objs_app, objs_text_if, objs_behind. f_equal. clear E.
  induction F as [|x a Fx F IH]; [reflexivity|]. cbn [flat_map map]. rewrite !objs_app, objs_text_if, IH. unfold objs at 1. cbn. now rewrite Fx.
Qed.
Lemma objs_merged : forall l ds, (flat_map (fun r => objs (runR_children r)) (joining ds l) ++
  flat_map (fun r => objs (runR_children r)) (flat_map run_of (merged ds l)))%list = flat_map (fun r => objs (runR_children r)) (flat_map run_of l).
Proof.
  induction l as [|[r|i r|r] l IH]; intros ds; cbn [joining merged flat_map run_of app]; auto.
  destruct ds as [|[|] ds]; cbn [hd tl flat_map run_of app].
  - rewrite objs_joined, <- app_assoc. f_equal. apply IH.
  - rewrite <- app_assoc. f_equal. apply IH.
  - rewrite objs_joined, <- app_assoc. f_equal. apply IH.
Qed.
Lemma merge_objects : forall f p p', merge_text f p = Ok p' ->
  flat_map (fun r => filter (fun c => negb (is_text c)) (runR_children r)) (runs p') =
  flat_map (fun r => filter (fun c => negb (is_text c)) (runR_children r)) (runs p) /\
  non_runs p' = non_runs p.
Proof.
  intros f p p' M. destruct (merge_any f p p' M) as (ds & _ & ->). unfold runs, non_runs. cbn [para_children]. split.
  - destruct (para_children p) as [|c l] eqn:E; [reflexivity|].
    assert (G : forall l, flat_map (fun r => objs (runR_children r)) (flat_map run_of (merged (false :: ds) l)) = flat_map (fun r => objs (runR_children r)) (flat_map run_of l)).
    { clear. induction l as [|[r|i r|r] l IH]; cbn [merged hd tl flat_map run_of app]; auto.
      rewrite objs_joined, <- app_assoc. f_equal. apply objs_merged. }
    apply G.
  - clear M. generalize (false :: ds). induction (para_children p) as [|[r|i r|r] l IH]; intros ds0; cbn [merged filter is_run negb]; auto.
    + destruct (hd false ds0); [apply IH|]. cbn [filter is_run negb]. apply IH.
    + exact (f_equal (cons (PLink i r)) (IH ds0)).
    + exact (f_equal (cons (PRPr r)) (IH ds0)).
Qed.
