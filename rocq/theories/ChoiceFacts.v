(** The first child of a Choice may as well be left to the loop over the
    content of the run. *)
From Coq Require Import String Ascii List Bool Arith NArith ZArith Lia.
From Verif Require Import GoStr Num Lib Types XmlTok Unmarshal DecLemmas DecFuel.
Import ListNotations.
Local Open Scope string_scope.
Local Open Scope list_scope.

Section Choice.
Context `{GoLib}.
Variable D : decs.
Variable f : option nat.

Definition accepted (v : string) : bool := (String.eqb v "wps" || String.eqb v "wpc" || String.eqb v "wpg")%bool.
(** the loop over AlternateContent, stopping behind the start of the Choice *)
Fixpoint alt2 (n : nat) (s : run) (ts : list token) : out run :=
  match n with
  | O => (s, SFuel, ts)
  | S n' =>
      let skip_on ts' := match skip ts' with
                         | (SOk, ts'') => alt2 n' s ts''
                         | (e, ts'') => (s, e, ts'')
                         end in
      match ts with
      | [] => (s, SAbort XSyntax, [])
      | TErr :: _ => (s, SAbort XSyntax, ts)
      | TEof :: _ => (s, SOk, ts)
      | TStart q a :: ts' =>
          if (String.eqb (snd q) "Choice" && accepted (get_att a "Requires"))%bool
          then match ts' with TEof :: _ => (s, SAbort XEOF, ts') | _ => (s, SOk, ts') end
          else skip_on ts'
      | TEnd q :: ts' => if String.eqb (snd q) "AlternateContent" then (s, SOk, ts') else skip_on ts'
      | _ :: ts' => skip_on ts'
      end
  end.

Definition run_cases (alt : hnd run) : list (string * hnd run) :=
  [("rPr", childo u_rpr set_runR_rpr);
   ("instrText", fun s _ ts => let '(x, st, ts') := str ts in
      match st with SOk | SExp => (set_runR_instr x s, SOk, ts') | _ => (s, st, ts') end);
   ("t", pchildh u_text RText);
   ("drawing", pchildh (u_drawing D f) (fun p => RDraw (fst p) (snd p)));
   ("tab", flat (fun _ => add_child (RTab tab0)));
   ("br", pchildh u_br RBr);
   ("AlternateContent", alt)].
Definition run_step (s : run) (l : string) (a : list attr) (ts : list token) : out run :=
  eswitch (run_cases (fun s _ ts => alt2 (S (size ts)) s ts)) s l a ts.
Definition run_old (s : run) (l : string) (a : list attr) (ts : list token) : out run := run_parse D f (S (size ts)) s l a ts.

Lemma run_other : forall n s l a ts, l <> "AlternateContent" -> run_parse D f (S n) s l a ts = run_step s l a ts.
Proof.
  intros n s l a ts NA. cbn [run_parse]. unfold run_step, run_cases, eswitch. cbn [switch].
  repeat match goal with |- context [String.eqb l ?x] => destruct (String.eqb l x) eqn:? end; auto.
  match goal with K : String.eqb l "AlternateContent" = true |- _ => apply String.eqb_eq in K; congruence end.
Qed.
Lemma run_alt : forall n s a ts, run_parse D f (S n) s "AlternateContent" a ts = alt_loop (S (size ts)) (run_parse D f n) s ts.
Proof. reflexivity. Qed.
Lemma one_alt : forall s a ts, run_step s "AlternateContent" a ts = alt2 (S (size ts)) s ts.
Proof. reflexivity. Qed.

Lemma alt2_ok : forall n s ts, size ts < n -> okr ts (alt2 n s ts).
Proof.
  induction n as [|n IH]; intros s ts L; [lia|]. cbn [alt2].
  assert (SK : forall ts', size ts' < size ts ->
     okr ts (match skip ts' with (SOk, ts'') => alt2 n s ts'' | (e, ts'') => (s, e, ts'') end)).
  { intros ts' L'. destruct (skip ts') as [st ts''] eqn:E. apply skip_size in E. destruct E as [E1 E2].
    destruct st; try congruence; try (split; [discriminate | lia]; fail).
    assert (K : okr ts'' (alt2 n s ts'')) by (apply IH; lia).
    destruct (alt2 n s ts'') as [[x st] t3]. destruct K. split; auto. lia. }
  destruct ts as [|[q a|q|t| | |] ts']; try (split; [discriminate|cbn; lia]); try (apply SK; cbn; lia).
  - destruct (_ && _)%bool; [|apply SK; cbn; lia]. destruct ts' as [|[] ts'']; split; try discriminate; cbn; lia.
  - destruct (String.eqb _ _); [split; [discriminate|cbn; lia]|apply SK; cbn; lia].
Qed.

Variable N : nat.
Hypothesis DP : forall f, ugood N (d_para D f).
Hypothesis DC : forall f, ugood N (d_canvas D f).
Hypothesis DG : forall f, ugood N (d_group D f).

Lemma run_step_ok : forall s l a ts, size ts < N -> okr ts (run_step s l a ts).
Proof.
  intros s l a ts L. destruct (string_dec l "AlternateContent") as [->|NA].
  - rewrite one_alt. apply alt2_ok. lia.
  - rewrite <- (run_other (size ts)) by assumption. apply (run_parse_ok N); auto.
Qed.

(** one handler call, then the loop *)
Definition bind (o : out run) (n : nat) (h : run -> string -> list attr -> list token -> out run) : out run :=
  match o with (s, SOk, ts) => loop_n n h s ts | r => r end.

Lemma loop_start : forall n h s q a t, loop_n (S n) h s (TStart q a :: t) = bind (h s (snd q) a t) n h.
Proof. intros. cbn [loop_n]. destruct (h s (snd q) a t) as [[x []] r]; reflexivity. Qed.

Lemma choice_equiv : forall z,
  (forall t p s l a n n', size t < z -> size t < N -> size t < p -> size t < n -> size t < n' ->
     bind (run_parse D f p s l a t) n run_old = bind (run_step s l a t) n' run_step) /\
  (forall t s n n', size t <= z -> size t <= N -> size t < n -> size t < n' -> loop_n n run_old s t = loop_n n' run_step s t).
Proof.
  induction z as [|z [IHC IHE]].
  { split; [intros; lia|]. intros t s n n' Z LN L L'. destruct n as [|n]; [lia|]. destruct n' as [|n']; [lia|].
    destruct t as [|[] t]; cbn [size] in Z; try lia; reflexivity. }
  assert (C : forall t p s l a n n', size t < S z -> size t < N -> size t < p -> size t < n -> size t < n' ->
     bind (run_parse D f p s l a t) n run_old = bind (run_step s l a t) n' run_step).
  { intros t p s l a n n' Z LN LP L L'. destruct p as [|p]; [lia|]. destruct (string_dec l "AlternateContent") as [->|NA].
    - rewrite run_alt, one_alt.
      enough (A : forall m m' t', size t' <= size t -> size t' < m -> size t' < m' ->
                bind (alt_loop m (run_parse D f p) s t') n run_old = bind (alt2 m' s t') n' run_step) by (apply A; lia).
      induction m as [|m IHm]; intros m' t' LT LM LM'; [lia|]. destruct m' as [|m']; [lia|]. cbn [alt_loop alt2].
      assert (SK : forall t1, size t1 < size t' ->
        bind (match skip t1 with (SOk, t2) => alt_loop m (run_parse D f p) s t2 | (e, t2) => (s, e, t2) end) n run_old =
        bind (match skip t1 with (SOk, t2) => alt2 m' s t2 | (e, t2) => (s, e, t2) end) n' run_step).
      { intros t1 L1. destruct (skip t1) as [st t2] eqn:E. apply skip_size in E. destruct E as [E1 E2].
        destruct st; try reflexivity. apply IHm; lia. }
      destruct t' as [|[q a1|q|t1| | |] t']; try reflexivity.
      + fold (accepted (get_att a1 "Requires")). destruct (String.eqb (snd q) "Choice" && accepted (get_att a1 "Requires"))%bool; [|apply SK; cbn; lia].
        cbn [size] in *. destruct n' as [|n']; [lia|]. destruct t' as [|[q2 a2|q2|t2| | |] t'']; cbn [size] in *; try reflexivity; try (destruct n as [|n]; [lia|]; reflexivity);
          try (cbn [bind loop_n]; apply IHE; lia).
        change (bind (run_parse D f p s (snd q2) a2 t'') n run_old = loop_n (S n') run_step s (TStart q2 a2 :: t'')). rewrite loop_start. apply IHC; lia.
      + destruct (String.eqb (snd q) "AlternateContent"); [|apply SK; cbn; lia]. cbn [size] in *. cbn [bind]. apply IHE; lia.
      + apply SK. cbn. lia.
      + apply SK. cbn. lia.
      + cbn [bind]. destruct n as [|n]; [lia|]. destruct n' as [|n']; [lia|]. reflexivity.
    - rewrite run_other by assumption. pose proof (run_step_ok s l a t LN) as K. destruct (run_step s l a t) as [[s' st] r]. destruct K as [K1 K2].
      destruct st; try reflexivity. cbn [bind]. apply IHE; lia. }
  split; [exact C|].
  intros t s n n' Z LN L L'. destruct n as [|n]; [lia|]. destruct n' as [|n']; [lia|].
  destruct t as [|[q a|q|t1| | |] t]; cbn [size] in *; try reflexivity; try (cbn [loop_n]; apply IHE; lia).
  rewrite !loop_start. apply C; lia.
Qed.

Lemma loop_choice : forall s t, size t <= N -> loop run_old s t = loop run_step s t.
Proof. intros s t L. unfold loop. apply (choice_equiv (size t)); lia. Qed.
End Choice.
