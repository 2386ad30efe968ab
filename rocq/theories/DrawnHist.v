(** Shapes, canvases and groups after DropDrawingOf, for every sequence of calls. *)
From Coq Require Import String Ascii List Bool Arith NArith ZArith.
From Verif Require Import GoStr Num Lib Types XmlTok Docx Api Keep Copy Lex Pack History SpecApi SpecPack SpecDrawn HistFacts HistFacts2 LinkInv DrawnFacts.
Import ListNotations.
Local Open Scope list_scope.
Local Open Scope string_scope.

(** the documents that come from outside have no drawing in a hyperlink *)
Definition plain_op {L : GoLib} (o : op) : Prop :=
  match o with
  | OLoad l _ => links_plain l
  | OParse a => forall n d, unpack n a = Ok d -> links_plain (d_items d)
  | _ => True
  end.
Lemma plain_all : forall l, links_plain l <-> Forall item_all l.
Proof.
  intros l. unfold links_plain. split.
  - intros K. apply Forall_forall. intros x I.
    assert (G : forall p, In p (item_paras x) -> para_all p).
    { intros p J. apply Forall_forall. intros c C. destruct c as [r|id r|r]; cbn; auto. apply Forall_forall. intros c D.
      assert (E : is_drawing c = false) by (eapply K; [apply in_flat_map; exists x; eauto|exact C|exact D]). destruct c; cbn; auto; discriminate. }
    destruct x as [p|t|s]; cbn in *; auto. apply Forall_forall. intros r R. apply Forall_forall. intros c C. apply Forall_forall. intros p J. apply G. unfold table_paras.
    apply in_flat_map. exists r. split; auto. apply in_flat_map. exists c. auto.
  - intros F p id r c I J K. rewrite Forall_forall in F. unfold body_paras in I. apply in_flat_map in I as (x & X & I). specialize (F x X).
    assert (G : para_all p).
    { destruct x as [q|t|s]; cbn in *; [destruct I as [->|[]]; auto| |destruct I]. unfold table_paras in I. apply in_flat_map in I as (y & Y & I). apply in_flat_map in I as (z & Z & I).
      rewrite Forall_forall in F. specialize (F y Y). unfold row_all in F. rewrite Forall_forall in F. specialize (F z Z). unfold cell_all in F. rewrite Forall_forall in F. auto. }
    unfold para_all in G. rewrite Forall_forall in G. specialize (G _ J). cbn in G. unfold run_all in G. rewrite Forall_forall in G. specialize (G _ K). destruct c; auto; destruct G.
Qed.
Lemma plain_undrawn : forall l, links_plain l -> ~ link_drawn l.
Proof. intros l K (p & id & r & c & I & J & C & H). specialize (K p id r c I J C). destruct c; try discriminate; destruct H. Qed.
Theorem history_drawn : forall (L : GoLib) l i w d ar s, Forall plain_op l -> run_ops (l ++ [ODropAll i "ShapeAndCanvasAndGroup"])%list [] = Some w ->
  nth_error w i = Some d -> writes d (Ok ar) -> In (DOC_NAME, Some s) ar -> ~ drawn_in (lex s).
Proof.
  intros L l i w d ar s F E N W I.
  assert (B : Forall brings l).
  { eapply Forall_impl; [|exact F]. intros [] K; cbn in *; auto; [now apply plain_all|]. intros n x U. apply plain_all. eapply K; eauto. }
  assert (R : exists w1, run_ops l [] = Some w1 /\ run_ops [ODropAll i "ShapeAndCanvasAndGroup"] w1 = Some w).
  { clear -E. revert E. generalize (@nil docx) as w0. induction l as [|o l IH]; intros w0 E; [exists w0; split; [reflexivity|exact E]|]. cbn [app run_ops] in *. destruct (exec o w0) as [w1|e|]; [exact (IH _ E)|exact (IH _ E)|discriminate]. }
  destruct R as (w1 & R1 & R2). pose proof (run_all_ops _ _ _ R1 B (Forall_nil _)) as A. cbn [run_ops] in R2.
  destruct (exec (ODropAll i "ShapeAndCanvasAndGroup") w1) as [w2|e|] eqn:X; [| |discriminate].
  - injection R2 as ->. cbn [exec] in X. unfold on_doc in X. destruct (nth_error w1 i) as [d1|] eqn:N1; [|discriminate]. cbn in X. injection X as <-.
    rewrite RegFacts.set_nth_same in N by (apply nth_error_Some; congruence). injection N as <-. rewrite (dropped_drawn d1 ar s W I). apply plain_undrawn. apply plain_all. unfold world_all in A. rewrite Forall_forall in A. apply (A d1). eapply nth_error_In; eauto.
  - injection R2 as ->. cbn [exec] in X. unfold on_doc in X. rewrite N in X. cbn in X. discriminate.
Qed.
