(** What reaches every destination. *)
From Coq Require Import String Ascii List Bool Arith NArith ZArith Lia.
From Verif Require Import GoStr Bufio SpecDest BufioFacts.
Import ListNotations.
Local Open Scope list_scope.
Local Open Scope string_scope.

Lemma deliver_app : forall D a b n, deliver D n (a ++ b)%list =
  if fst (deliver D n a) then (fst (deliver D (n + length a) b), snd (deliver D n a) ++ snd (deliver D (n + length a) b)) else deliver D n a.
Proof.
  induction a as [|p a IH]; intros b n; cbn [deliver app].
  - cbn [fst snd append length]. rewrite Nat.add_0_r. now destruct (deliver D n b).
  - destruct (D n p) as [k|]; [reflexivity|]. rewrite IH. cbn [length]. replace (n + S (length a)) with (S n + length a) by lia.
    destruct (deliver D (S n) a) as [ok o]. cbn [fst snd]. destruct ok; [|reflexivity]. cbn [fst snd]. now rewrite <- sapp_assoc.
Qed.
(** the pieces, without a destination *)
Definition cst := (list string * string)%type.
Definition cflush (c : cst) : list string := if String.eqb (snd c) "" then fst c else (fst c ++ [snd c])%list.
Definition cwrite (c : cst) (p : string) : cst :=
  let (cs, buf) := c in
  let room := SIZE - String.length buf in
  if Nat.leb (String.length p) room then (cs, buf ++ p)
  else if String.eqb buf "" then ((cs ++ [p])%list, "")
  else let p' := sdrop room p in
       if Nat.leb (String.length p') SIZE then ((cs ++ [(buf ++ stake room p)%string])%list, p') else ((cs ++ [(buf ++ stake room p)%string; p'])%list, "").
Definition cwrites (l : list string) (c : cst) : cst := fold_left cwrite l c.
Definition sim (D : dest) (c : cst) (b : bw) : Prop :=
  deliver D 0 (fst c) = (negb (b_err b), b_out b) /\ (b_err b = false -> b_calls b = length (fst c) /\ b_buf b = snd c).
Lemma sconcat_app : forall a b, sconcat (a ++ b)%list = sconcat a ++ sconcat b.
Proof. induction a as [|x a IH]; intros b; [reflexivity|]. cbn [app sconcat]. now rewrite IH, sapp_assoc. Qed.

Section D.
Variable D : dest.
(** one more piece *)
Lemma sim_piece : forall cs p b b', deliver D 0 cs = (true, b_out b) -> b_calls b = length cs ->
  match D (b_calls b) p with
  | None => b_err b' = false /\ b_out b' = b_out b ++ p
  | Some n => b_err b' = true /\ b_out b' = b_out b ++ stake n p
  end -> deliver D 0 (cs ++ [p])%list = (negb (b_err b'), b_out b').
Proof.
  intros cs p b b' E C K. rewrite deliver_app, E. cbn [fst snd deliver Nat.add]. rewrite <- C. destruct (D (b_calls b) p); destruct K as (-> & ->); cbn [fst snd negb]; [reflexivity|]. now rewrite sapp_nil_r.
Qed.
Lemma sim_dead : forall cs more o, deliver D 0 cs = (false, o) -> deliver D 0 (cs ++ more)%list = (false, o).
Proof. intros cs more o E. rewrite deliver_app, E. reflexivity. Qed.
Lemma cwrite_more : forall c p, exists l, fst (cwrite c p) = (fst c ++ l)%list.
Proof.
  intros [cs buf] p. unfold cwrite. destruct (Nat.leb _ _); [exists []; cbn; now rewrite app_nil_r|]. destruct (String.eqb _ _); [eexists; reflexivity|]. destruct (Nat.leb _ _); eexists; reflexivity.
Qed.
Lemma direct_sim : forall cs p b, deliver D 0 cs = (true, b_out b) -> b_calls b = length cs -> sim D ((cs ++ [p])%list, "") (direct D p b).
Proof.
  intros cs p b E C. split; cbn [fst snd].
  - eapply sim_piece; [exact E|exact C|]. unfold direct. destruct (D (b_calls b) p); cbn; auto.
  - unfold direct. destruct (D (b_calls b) p); cbn [b_err b_calls b_buf]; [discriminate|]. intros _. rewrite app_length, C. cbn. split; [lia|reflexivity].
Qed.
Lemma flush_sim : forall cs buf b, sim D (cs, buf) b -> b_err b = false -> buf <> "" -> sim D ((cs ++ [buf])%list, "") (flush D b).
Proof.
  intros cs buf b (E & K) Z NE. destruct (K Z) as (C & B). cbn [fst snd] in *. rewrite Z in E. unfold flush. rewrite Z, B. cbn [orb].
  destruct (String.eqb_spec buf "") as [->|_]; [congruence|]. split; cbn [fst snd].
  - eapply sim_piece; [exact E|exact C|]. destruct (D (b_calls b) buf); cbn; auto.
  - destruct (D (b_calls b) buf); cbn [b_err b_calls b_buf]; [discriminate|]. intros _. rewrite app_length, C. cbn. split; [lia|reflexivity].
Qed.
Lemma bwrite_sim : forall c p b, sim D c b -> sim D (cwrite c p) (bwrite D p b).
Proof.
  intros [cs buf] p b S. pose proof S as (E & K). unfold bwrite. destruct (b_err b) eqn:Z.
  - destruct (cwrite_more (cs, buf) p) as (l & M). split; [|congruence]. rewrite M, Z. cbn [fst negb] in E |- *. now apply sim_dead.
  - destruct (K eq_refl) as (C & B). cbn [fst snd negb] in *. rewrite B. cbn [cwrite]. set (room := SIZE - String.length buf).
    destruct (Nat.leb_spec (String.length p) room) as [LE|GT].
    { split; cbn [fst snd b_err b_out b_calls b_buf negb]; auto. }
    destruct (String.eqb_spec buf "") as [EB|NB].
    { now apply direct_sim. }
    set (b0 := mk_bw (buf ++ stake room p) false (b_calls b) (b_out b)).
    assert (S0 : sim D (cs, buf ++ stake room p) b0) by (split; cbn [fst snd b0 b_err b_out b_calls b_buf negb]; auto).
    assert (NE : buf ++ stake room p <> "") by (destruct buf; [contradiction|discriminate]).
    pose proof (flush_sim _ _ _ S0 eq_refl NE) as S1. pose proof S1 as (E1 & K1). cbn [fst snd] in E1, K1.
    destruct (b_err (flush D b0)) eqn:Z1.
    + destruct (Nat.leb _ _); (split; cbn [fst snd]; [|congruence]); rewrite Z1; [exact E1|].
      change [(buf ++ stake room p)%string; sdrop room p] with ([(buf ++ stake room p)%string] ++ [sdrop room p])%list. rewrite app_assoc. now apply sim_dead.
    + destruct (K1 eq_refl) as (C1 & B1). destruct (Nat.leb _ _).
      * rewrite B1. split; cbn [fst snd b_err b_out b_calls b_buf negb append]; auto.
      * change [(buf ++ stake room p)%string; sdrop room p] with ([(buf ++ stake room p)%string] ++ [sdrop room p])%list. rewrite app_assoc. now apply direct_sim.
Qed.
Lemma bwrites_sim : forall l c b, sim D c b -> sim D (cwrites l c) (bwrites D l b).
Proof. induction l as [|p l IH]; intros c b S; [exact S|]. cbn [cwrites bwrites fold_left]. apply IH. now apply bwrite_sim. Qed.
Lemma end_sim : forall c b, sim D c b -> b_out (flush D b) = snd (deliver D 0 (cflush c)).
Proof.
  intros [cs buf] b S. pose proof S as (E & K). unfold cflush. cbn [fst snd] in *. destruct (b_err b) eqn:Z.
  - unfold flush. rewrite Z. cbn [orb negb] in *. destruct (String.eqb buf ""); [now rewrite E|]. now rewrite (sim_dead _ _ _ E).
  - destruct (String.eqb_spec buf "") as [->|NE].
    + destruct (K eq_refl) as (_ & B). unfold flush. rewrite Z, B. cbn [orb String.eqb]. now rewrite E.
    + destruct (flush_sim _ _ _ S Z NE) as (E1 & _). cbn [fst] in E1. now rewrite E1.
Qed.
End D.
Lemma cwrites_more : forall l c, exists x, fst (cwrites l c) = (fst c ++ x)%list.
Proof.
  induction l as [|p l IH]; intros c; [exists []; cbn; now rewrite app_nil_r|]. cbn [cwrites fold_left]. destruct (IH (cwrite c p)) as (x & X). unfold cwrites in X. rewrite X.
  destruct (cwrite_more c p) as (y & ->). exists (y ++ x)%list. now rewrite app_assoc.
Qed.
Lemma cflush_more : forall c, exists x, cflush c = (fst c ++ x)%list /\ sconcat x = snd c.
Proof.
  intros [cs buf]. unfold cflush. cbn [fst snd]. destruct (String.eqb_spec buf "") as [->|_]; [exists []; now rewrite app_nil_r|]. exists [buf]. cbn. now rewrite sapp_nil_r.
Qed.
Definition cok (all : string) (c : cst) : Prop := all = sconcat (fst c) ++ snd c /\ String.length (snd c) <= SIZE /\ Forall (fun p => p <> "") (fst c).
Lemma cwrite_ok : forall all c p, cok all c -> cok (all ++ p) (cwrite c p).
Proof.
  intros all [cs buf] p (A & L & F). cbn [fst snd] in *. cbn [cwrite]. set (room := SIZE - String.length buf). subst all.
  destruct (Nat.leb_spec (String.length p) room) as [LE|GT].
  { split; [|split]; cbn [fst snd]; [now rewrite <- sapp_assoc|rewrite slength_app; lia|exact F]. }
  destruct (String.eqb_spec buf "") as [->|NB].
  { split; [|split]; cbn [fst snd]; [rewrite sconcat_app; cbn [sconcat]; now rewrite !sapp_nil_r|cbn; unfold SIZE; lia|]. apply Forall_app. split; [exact F|]. constructor; [|constructor].
    intros ->. cbn in GT. lia. }
  assert (NE : buf ++ stake room p <> "") by (destruct buf; [contradiction|discriminate]).
  assert (J : (sconcat cs ++ buf) ++ p = sconcat cs ++ (buf ++ stake room p) ++ sdrop room p) by (rewrite <- !sapp_assoc, stake_drop; reflexivity).
  destruct (Nat.leb_spec (String.length (sdrop room p)) SIZE) as [LE|GE]; (split; [|split]); cbn [fst snd].
  - rewrite sconcat_app. cbn [sconcat]. rewrite sapp_nil_r, J. now rewrite <- !sapp_assoc.
  - exact LE.
  - apply Forall_app. split; [exact F|]. now repeat constructor.
  - rewrite sconcat_app. cbn [sconcat]. rewrite !sapp_nil_r, J. reflexivity.
  - cbn. unfold SIZE. lia.
  - apply Forall_app. split; [exact F|]. repeat constructor; auto. intros E. rewrite E in GE. cbn in GE. lia.
Qed.
Lemma cwrites_ok : forall l all c, cok all c -> cok (all ++ sconcat l) (cwrites l c).
Proof.
  induction l as [|p l IH]; intros all c K; cbn [cwrites fold_left sconcat]; [now rewrite sapp_nil_r|]. rewrite sapp_assoc. apply IH. now apply cwrite_ok.
Qed.
Theorem exactly_arrived : forall body tail, exists before after,
  sconcat before ++ sconcat after = sconcat body ++ sconcat tail /\
  (exists rest, sconcat body = sconcat before ++ rest /\ String.length rest <= 64 * 64) /\
  Forall (fun p => p <> "") (before ++ after)%list /\
  forall D, write_to D body tail = (fst (deliver D 0 before), snd (deliver D 0 (before ++ after)%list)).
Proof.
  intros body tail. set (c1 := cwrites body ([], "")). set (c2 := cwrites tail c1).
  assert (K0 : cok "" ([], "")) by (split; [reflexivity|split; [cbn; unfold SIZE; lia|constructor]]).
  pose proof (cwrites_ok body _ _ K0) as K1. fold c1 in K1. pose proof (cwrites_ok tail _ _ K1) as K2. fold c2 in K2. cbn [append] in K1, K2.
  destruct (cwrites_more tail c1) as (x & X). fold c2 in X. destruct (cflush_more c2) as (y & Y & SY). rewrite X in Y. rewrite <- app_assoc in Y.
  exists (fst c1), (x ++ y)%list. destruct K1 as (A1 & L1 & F1), K2 as (A2 & L2 & F2). repeat split.
  - rewrite <- sconcat_app, app_assoc, sconcat_app, SY, <- X, <- A2. reflexivity.
  - exists (snd c1). auto.
  - rewrite app_assoc. apply Forall_app. split; [now rewrite <- X|]. unfold cflush in Y. destruct (String.eqb_spec (snd c2) "") as [E|NE].
    + rewrite X in Y. rewrite <- (app_nil_r (fst c1 ++ x)%list), app_assoc in Y. apply app_inv_head in Y. subst y. constructor.
    + rewrite X, <- app_assoc in Y. apply app_inv_head in Y. apply app_inv_head in Y. subst y. now repeat constructor.
  - intros D. unfold write_to.
    assert (S0 : sim D ([], "") (mk_bw "" false 0 "")) by (split; [reflexivity|auto]).
    pose proof (bwrites_sim D body _ _ S0) as S1. fold c1 in S1. pose proof (bwrites_sim D tail _ _ S1) as S2. fold c2 in S2. pose proof S1 as (E1 & _).
    destruct (b_err (bwrites D body _)); cbn [negb] in E1; rewrite E1; cbn [negb fst snd].
    + now rewrite (sim_dead _ _ _ _ E1).
    + rewrite (end_sim _ _ _ S2), Y. reflexivity.
Qed.
