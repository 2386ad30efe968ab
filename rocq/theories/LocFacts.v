(** What a decoder makes of an element depends on the tokens of the element
    only: the tokens behind the mark of an enclosing element make no
    difference. *)
From Coq Require Import String Ascii List Bool Arith NArith ZArith Lia.
From Verif Require Import GoStr Num Lib Types XmlTok Unmarshal.
Import ListNotations.
Local Open Scope string_scope.
Local Open Scope list_scope.

(** an end element that closes the [d]th open element stands in [c] *)
Fixpoint cl (d : nat) (c : list token) : Prop :=
  match c with
  | [] => False
  | TStart _ _ :: c' => cl (S d) c'
  | TEnd _ :: c' => match d with O => True | S d' => cl d' c' end
  | _ :: c' => cl d c'
  end.
(** ... as does one for every start element in [c] *)
Fixpoint M (c : list token) : Prop :=
  match c with
  | [] => True
  | TStart _ _ :: c' => cl 0 c' /\ M c'
  | _ :: c' => M c'
  end.
Fixpoint marks (c : list token) : nat :=
  match c with [] => 0 | TEof :: c' => S (marks c') | _ :: c' => marks c' end.

Lemma size_app : forall a b, size (a ++ b) = size a + size b.
Proof. induction a as [|t a IH]; intros b; [reflexivity|]. destruct t; cbn [app size]; rewrite ?IH; reflexivity. Qed.

Lemma cl_push : forall c e d, cl e c -> cl e (push_from d c).
Proof.
  induction c as [|t c IH]; intros e d C; [exact C|]. destruct t; cbn [cl push_from] in *; auto.
  destruct d; destruct e; cbn [cl]; auto.
Qed.
Lemma M_push : forall c d, M c -> M (push_from d c).
Proof.
  induction c as [|t c IH]; intros d H; [exact H|]. destruct t; cbn [M push_from] in *; auto.
  - destruct H. split; [now apply cl_push | auto].
  - destruct d; cbn [M]; auto.
Qed.
Lemma marks_push : forall c d, cl d c -> marks (push_from d c) = S (marks c).
Proof.
  induction c as [|t c IH]; intros d C; [destruct C|]. destruct t; cbn [cl push_from marks] in *; auto.
  destruct d; cbn [marks]; auto.
Qed.
Lemma push_size : forall c d, size (push_from d c) = size c.
Proof.
  induction c as [|t c IH]; intros d; [reflexivity|]. destruct t; cbn [push_from size]; auto.
  destruct d; cbn [size]; auto.
Qed.
Lemma push_app : forall c d r, cl d c -> push_from d (c ++ r) = push_from d c ++ r.
Proof.
  induction c as [|t c IH]; intros d r C; [destruct C|]. destruct t; cbn [cl push_from app] in *; try (f_equal; apply IH; exact C).
  destruct d; cbn [app]; rewrite ?IH by exact C; reflexivity.
Qed.

(** the same outcome on both, and the same is left of [c] *)
Definition same {X} (m N : nat) (r r' : list token) (o o' : out X) : Prop :=
  exists x st c, o = (x, st, c ++ TEof :: r) /\ o' = (x, st, c ++ TEof :: r') /\ M c /\ m <= marks c /\ size c <= N.

Definition hL {X} (B : nat) (h h' : hnd X) : Prop :=
  forall m N s a c r r', N < B -> cl 0 c -> M c -> m <= marks c -> size c <= N ->
    same m N r r' (h s a (c ++ TEof :: r)) (h' s a (c ++ TEof :: r')).
Definition lL {X} (B : nat) (h h' : X -> string -> list attr -> list token -> out X) : Prop :=
  forall m N s l a c r r', N < B -> cl 0 c -> M c -> m <= marks c -> size c <= N ->
    same m N r r' (h s l a (c ++ TEof :: r)) (h' s l a (c ++ TEof :: r')).
Definition uL {X} (B : nat) (u u' : list attr -> list token -> out X) : Prop :=
  forall m N a c r r', N < B -> M c -> m <= marks c -> size c <= N ->
    same m N r r' (u a (c ++ TEof :: r)) (u' a (c ++ TEof :: r')).

Lemma uL_le : forall {X} B B' (u u' : list attr -> list token -> out X), B <= B' -> uL B' u u' -> uL B u u'.
Proof. intros X B B' u u' L H m N a c r r' LN. apply H. lia. Qed.
Lemma same_le : forall {X} m N N' r r' (o o' : out X), N <= N' -> same m N r r' o o' -> same m N' r r' o o'.
Proof. intros X m N N' r r' o o' L (x & st & c & E & E' & K & A & B). exists x, st, c. repeat split; auto. lia. Qed.
Lemma same_refl : forall {X} m N r r' (x : X) st c, M c -> m <= marks c -> size c <= N -> same m N r r' (x, st, c ++ TEof :: r) (x, st, c ++ TEof :: r').
Proof. intros. exists x, st, c. repeat split; auto. Qed.

(** handlers that do not read *)
Lemma still_L : forall {X} B (h : hnd X), (forall s a, exists x st, forall ts, h s a ts = (x, st, ts)) -> hL B h h.
Proof. intros X B h H m N s a c r r' _ _ Mc L S. destruct (H s a) as (x & st & E). rewrite !E. now apply same_refl. Qed.

Lemma skip_from_L : forall c d r r' N m, M c -> m <= marks c -> size c <= N ->
  exists st c', skip_from d (c ++ TEof :: r) = (st, c' ++ TEof :: r) /\ skip_from d (c ++ TEof :: r') = (st, c' ++ TEof :: r') /\
    M c' /\ m <= marks c' /\ size c' <= N.
Proof.
  induction c as [|t c IH]; intros d r r' N m Mc L S.
  - cbn. exists (SAbort XEOF), []. repeat split; auto.
  - destruct t; cbn [app skip_from M marks size] in *.
    + destruct Mc. apply IH; auto; lia.
    + destruct d; [|apply IH; auto; lia]. exists SOk, c. repeat split; auto; lia.
    + apply IH; auto; lia.
    + apply IH; auto; lia.
    + exists (SAbort XSyntax), (TErr :: c). repeat split; auto; cbn; lia.
    + exists (SAbort XEOF), (TEof :: c). repeat split; auto.
Qed.
Lemma skipping_L : forall {X} (s : X) c r r' N m, M c -> m <= marks c -> size c <= N ->
  same m N r r' (skipping s (c ++ TEof :: r)) (skipping s (c ++ TEof :: r')).
Proof.
  intros X s c r r' N m Mc L S. unfold skipping, skip. destruct (skip_from_L c 0 r r' N m Mc L S) as (st & c' & E & E' & K & A & B).
  rewrite E, E'. now apply same_refl.
Qed.

Lemma switch_L : forall {X} B (cs cs' : list (string * hnd X)) (d d' : hnd X) l,
  Forall2 (fun p p' => fst p = fst p' /\ hL B (snd p) (snd p')) cs cs' -> hL B d d' -> hL B (switch cs d l) (switch cs' d' l).
Proof.
  intros X B cs cs' d d' l F Hd. induction F as [|[k h] [k' h'] cs cs' [E H] F IH]; cbn in *; auto.
  subst. destruct (String.eqb l k'); auto.
Qed.
Lemma eswitch_L : forall {X} B (cs cs' : list (string * hnd X)),
  Forall2 (fun p p' => fst p = fst p' /\ hL B (snd p) (snd p')) cs cs' -> lL B (eswitch cs) (eswitch cs').
Proof.
  intros X B cs cs' F m N s l a c r r' LN C Mc L S. unfold eswitch.
  apply (switch_L B cs cs' (fun s _ ts => skipping s ts) (fun s _ ts => skipping s ts) l F); auto.
  intros m' N' s' a' c' x x' _ _ ? ? ?. now apply skipping_L.
Qed.

Lemma loop_n_L : forall {X} B (h h' : X -> string -> list attr -> list token -> out X), lL B h h' ->
  forall N n n' m s c r r', size c <= N -> N <= B -> size c < n -> size c < n' -> M c -> m <= marks c ->
  same m N r r' (loop_n n h s (c ++ TEof :: r)) (loop_n n' h' s (c ++ TEof :: r')).
Proof.
  intros X B h h' Hh. induction N as [N IH] using lt_wf_ind. intros n n' m s c r r' S LB Ln Ln' Mc L.
  revert n n' m s Ln Ln' Mc L. induction c as [|t c IHc]; intros n n' m s Ln Ln' Mc L; (destruct n as [|n]; [lia|]); (destruct n' as [|n']; [lia|]).
  - cbn. apply (same_refl m N r r' s SOk []); auto.
  - destruct t; cbn [app loop_n M marks size] in *.
    + destruct Mc as [C Mc]. assert (LS : size c < N) by lia.
      destruct (Hh m (size c) s (snd q) a c r r') as (x & st & c' & E & E' & K & A & Bd); auto; try lia.
      rewrite E, E'. destruct st; try (apply same_refl; auto; lia).
      eapply (same_le m (size c)); [lia|]. apply (IH (size c)); auto; lia.
    + apply IHc; auto; lia.
    + apply IHc; auto; lia.
    + apply IHc; auto; lia.
    + apply (same_refl m N r r' s (SAbort XSyntax) (TErr :: c)); auto.
    + apply (same_refl m N r r' s SOk (TEof :: c)); auto.
Qed.
Lemma loop_L : forall {X} B (h h' : X -> string -> list attr -> list token -> out X), lL B h h' ->
  forall N m s c r r', size c <= N -> N <= B -> M c -> m <= marks c ->
  same m N r r' (loop h s (c ++ TEof :: r)) (loop h' s (c ++ TEof :: r')).
Proof.
  intros. unfold loop. eapply loop_n_L; eauto; rewrite size_app; cbn [size]; lia.
Qed.

Lemma sub_L : forall {X} B (u u' : list attr -> list token -> out X), uL B u u' ->
  forall m N a c r r', N < B -> cl 0 c -> M c -> m <= marks c -> size c <= N ->
  same m N r r' (sub (u a) (c ++ TEof :: r)) (sub (u' a) (c ++ TEof :: r')).
Proof.
  intros X B u u' Hu m N a c r r' LB C Mc L S. unfold sub, push_eof. rewrite !push_app by assumption.
  destruct (Hu (Datatypes.S m) N a (push_from 0 c) r r') as (x & st & c' & E & E' & K & A & Bd); auto.
  { now apply M_push. } { rewrite marks_push by assumption. lia. } { now rewrite push_size. }
  rewrite E, E'. destruct c' as [|t c']; [cbn in A; lia|].
  destruct t; cbn [app pop_eof marks size M] in *;
    destruct st;
    first [ apply (same_refl m N r r' x _ c'); auto; lia
          | apply (same_refl m N r r' x _ (TStart _ _ :: c')); auto; lia
          | apply (same_refl m N r r' x _ (_ :: c')); cbn; auto; lia ].
Qed.
Lemma decode_L : forall {X A} B (u u' : list attr -> list token -> out A) (set : A -> X -> X), uL B u u' ->
  forall m N s a c r r', N < B -> cl 0 c -> M c -> m <= marks c -> size c <= N ->
  same m N r r' (decode (u a) set s (c ++ TEof :: r)) (decode (u' a) set s (c ++ TEof :: r')).
Proof.
  intros X A B u u' set Hu m N s a c r r' LB C Mc L S. unfold decode.
  destruct (sub_L B u u' Hu m N a c r r' LB C Mc L S) as (x & st & c' & E & E' & K & A' & Bd).
  rewrite E, E'. destruct st; now apply same_refl.
Qed.
Lemma child_L : forall {X A} B (u u' : list attr -> list token -> out A) (set : A -> X -> X), uL B u u' -> hL B (child u set) (child u' set).
Proof. intros X A B u u' set Hu m N s a c r r' LB C Mc L S. unfold child. eapply decode_L; eauto. Qed.
Lemma childo_L : forall {X A} B (u u' : list attr -> list token -> out A) (set : option A -> X -> X), uL B u u' -> hL B (childo u set) (childo u' set).
Proof. intros. now apply child_L. Qed.
Lemma childin_L : forall {X A} B (u u' : A -> list attr -> list token -> out A) (get : X -> A) (set : A -> X -> X),
  (forall x, uL B (u x) (u' x)) -> hL B (childin u get set) (childin u' get set).
Proof. intros X A B u u' get set Hu m N s a c r r' LB C Mc L S. unfold childin. eapply (decode_L B (u (get s)) (u' (get s))); eauto. Qed.
Lemma child_attr_L : forall {X A} B (u u' : list attr -> list token -> out A) (set : list attr -> A -> X -> X),
  uL B u u' -> hL B (fun s a ts => child u (set a) s a ts) (fun s a ts => child u' (set a) s a ts).
Proof. intros X A B u u' set Hu m N s a c r r' LB C Mc L S. now apply (child_L B u u' (set a) Hu). Qed.
Lemma then_skip_L : forall {X} B (h h' : hnd X), hL B h h' -> hL B (then_skip h) (then_skip h').
Proof.
  intros X B h h' Hh m N s a c r r' LB C Mc L S. unfold then_skip.
  destruct (Hh m N s a c r r' LB C Mc L S) as (x & st & c' & E & E' & K & A' & Bd). rewrite E, E'.
  destruct st; try now apply same_refl. now apply skipping_L.
Qed.
Lemma next_tok_L : forall c r r' m N, M c -> m <= marks c -> size c <= N ->
  exists st c', next_tok (c ++ TEof :: r) = (st, c' ++ TEof :: r) /\ next_tok (c ++ TEof :: r') = (st, c' ++ TEof :: r') /\
    M c' /\ m <= marks c' /\ size c' <= N.
Proof.
  intros [|t c] r r' m N Mc L S.
  - exists (SAbort XEOF), []. repeat split; auto.
  - destruct t; cbn [app next_tok M marks size] in *.
    + exists SOk, c. destruct Mc. repeat split; auto; lia.
    + exists SOk, c. repeat split; auto; lia.
    + exists SOk, c. repeat split; auto; lia.
    + exists SOk, c. repeat split; auto; lia.
    + exists (SAbort XSyntax), (TErr :: c). repeat split; auto.
    + exists (SAbort XEOF), (TEof :: c). repeat split; auto.
Qed.
Lemma leafd_L : forall {X} B (cs : list (string * ahnd X)) s, uL B (leafd cs s) (leafd cs s).
Proof.
  intros X B cs s m N a c r r' _ Mc L S. unfold leafd, leaf. destruct (attrs (aswitch cs) s a) as [y st].
  destruct st; try now apply same_refl. destruct (next_tok_L c r r' m N Mc L S) as (st & c' & E & E' & K & A' & Bd).
  rewrite E, E'. now apply same_refl.
Qed.

(** a loop decoder goes one level down *)
Lemma loop_down : forall {X} B (h h' : X -> string -> list attr -> list token -> out X), lL B h h' ->
  forall s, uL (S B) (fun _ ts => loop h s ts) (fun _ ts => loop h' s ts).
Proof. intros X B h h' Hh s m N a c r r' LB Mc L S. eapply loop_L; eauto; lia. Qed.
Definition tabL {X} (B : nat) (cs cs' : list (string * hnd X)) : Prop := Forall2 (fun p p' => fst p = fst p' /\ hL B (snd p) (snd p')) cs cs'.
Lemma loopd_down : forall {X} B (cs cs' : list (string * hnd X)) s, tabL B cs cs' -> uL (S B) (loopd cs s) (loopd cs' s).
Proof. intros X B cs cs' s F. apply (loop_down B (eswitch cs) (eswitch cs')). now apply eswitch_L. Qed.
Lemma loopd_L : forall {X} B (cs cs' : list (string * hnd X)) s, tabL B cs cs' -> uL B (loopd cs s) (loopd cs' s).
Proof. intros. apply (uL_le B (S B)); [lia|]. now apply loopd_down. Qed.
Lemma attrs_loop_L : forall {X} B f (h h' : X -> string -> list attr -> list token -> out X) s, lL B h h' ->
  uL B (attrs_loop f h s) (attrs_loop f h' s).
Proof.
  intros X B f h h' s Hh m N a c r r' LB Mc L S. unfold attrs_loop. destruct (attrs f s a) as [y st].
  destruct st; try now apply same_refl. eapply loop_L; eauto; lia.
Qed.
Lemma nested_L : forall {X} B (ac : list (string * ahnd X)) (cs cs' : list (string * hnd X)) s, tabL B cs cs' ->
  uL B (nested ac cs s) (nested ac cs' s).
Proof. intros. unfold nested. apply attrs_loop_L. now apply eswitch_L. Qed.
Lemma wrap_L : forall {A C} B (u u' : list attr -> list token -> out A) (c : list attr -> A -> C),
  uL B u u' -> uL B (fun a ts => let '(x, st, ts') := u a ts in (c a x, st, ts')) (fun a ts => let '(x, st, ts') := u' a ts in (c a x, st, ts')).
Proof.
  intros A C B u u' w Hu m N a c r r' LB Mc L S. destruct (Hu m N a c r r' LB Mc L S) as (x & st & c' & E & E' & K & A' & Bd).
  rewrite E, E'. now apply same_refl.
Qed.

Lemma str_n_L : forall N n n' m acc c r r', size c <= N -> size c < n -> size c < n' -> M c -> m <= marks c ->
  same m N r r' (str_n n acc (c ++ TEof :: r)) (str_n n' acc (c ++ TEof :: r')).
Proof.
  induction N as [N IH] using lt_wf_ind. intros n n' m acc c r r' S Ln Ln' Mc L.
  revert n n' acc Ln Ln'. induction c as [|t c IHc]; intros n n' acc Ln Ln'; (destruct n as [|n]; [lia|]); (destruct n' as [|n']; [lia|]).
  - cbn. apply (same_refl m N r r' acc (SAbort XEOF) []); auto.
  - destruct t; cbn [app str_n M marks size] in *.
    + destruct Mc as [C Mc]. unfold skip. destruct (skip_from_L c 0 r r' (size c) m Mc L (le_n _)) as (st & c' & E & E' & K & A & Bd).
      rewrite E, E'. destruct st; try (apply same_refl; auto; lia).
      eapply (same_le m (size c)); [lia|]. apply (IH (size c)); auto; lia.
    + apply same_refl; auto; lia.
    + apply IHc; auto; lia.
    + apply IHc; auto; lia.
    + apply (same_refl m N r r' acc (SAbort XSyntax) (TErr :: c)); auto.
    + apply (same_refl m N r r' acc (SAbort XEOF) (TEof :: c)); auto.
Qed.
Lemma str_L : forall N m c r r', size c <= N -> M c -> m <= marks c -> same m N r r' (str (c ++ TEof :: r)) (str (c ++ TEof :: r')).
Proof. intros. unfold str. apply str_n_L; auto; rewrite size_app; cbn [size]; lia. Qed.

Section Dec.
Context `{GoLib}.

Ltac still := apply still_L; intros; cbv beta zeta delta [flat fval fset fnum fattrs fattrs_after];
  repeat (match goal with
          | |- context [match ?x with _ => _ end] => destruct x
          | |- context [let '(_, _) := ?x in _] => destruct x
          end); do 2 eexists; intros; reflexivity.
Ltac tabs tac := repeat (first [apply Forall2_nil | apply Forall2_cons]); cbn [fst snd]; (split; [reflexivity|]); hnd1 tac
with hnd1 tac :=
  lazymatch goal with
  | |- hL _ (then_skip _) _ => apply then_skip_L; hnd1 tac
  | |- hL _ (childo _ _) _ => apply childo_L; tac
  | |- hL _ (childin _ _ _) _ => apply childin_L; intros; tac
  | |- hL _ (child _ _) _ => apply child_L; tac
  | |- _ => still
  end.
Ltac dec tac := lazymatch goal with
  | |- uL _ (leafd _ _) _ => apply leafd_L
  | |- uL _ (loopd _ _) _ => apply loopd_L; tabs tac
  | |- uL _ (nested _ _ _) _ => apply nested_L; tabs tac
  end.

Variable B : nat.
Notation s0 u := (uL B u u).

Lemma l_rfonts : s0 u_rfonts. Proof. unfold u_rfonts. dec idtac. Qed.
Lemma l_spacing : s0 u_spacing. Proof. unfold u_spacing. dec idtac. Qed.
Lemma l_ind : s0 u_ind. Proof. unfold u_ind. dec idtac. Qed.
Lemma l_shade : s0 u_shade. Proof. unfold u_shade. dec idtac. Qed.
Lemma l_rpr : s0 u_rpr.
Proof. unfold u_rpr. dec ltac:(first [apply l_rfonts | apply l_spacing | apply l_shade]). Qed.
Lemma l_tab : s0 u_tab. Proof. unfold u_tab. dec idtac. Qed.
Lemma l_tabs : s0 u_tabs.
Proof.
  intros m N a c r r' LB Mc L S. unfold u_tabs. eapply (loop_L B); eauto; [|lia].
  intros m' N' s l a' c' x x' LB' C M' L' S'. eapply (switch_L B); eauto.
  - constructor; [|constructor]. cbn [fst snd]. split; [reflexivity|]. apply child_L, l_tab.
  - still.
Qed.
Lemma l_ppr : s0 u_ppr.
Proof. unfold u_ppr. dec ltac:(first [apply l_tabs | apply l_spacing | apply l_ind | apply l_shade | apply l_rpr]). Qed.

Lemma text_loop_L : forall c s r r' m N, M c -> m <= marks c -> size c <= N ->
  same m N r r' (text_loop s (c ++ TEof :: r)) (text_loop s (c ++ TEof :: r')).
Proof.
  induction c as [|t c IH]; intros s r r' m N Mc L S.
  - apply (same_refl m N r r' s SOk []); auto.
  - destruct t; cbn [app text_loop M marks size] in *; try (apply IH; intuition; lia).
    + apply (same_refl m N r r' s (SAbort XSyntax) (TErr :: c)); auto.
    + apply (same_refl m N r r' s SOk (TEof :: c)); auto.
Qed.
Lemma l_text : s0 u_text.
Proof. intros m N a c r r' _ Mc L S. now apply text_loop_L. Qed.
Lemma l_br : s0 u_br.
Proof.
  intros m N a c r r' _ Mc L S. unfold u_br. destruct (next_tok_L c r r' m N Mc L S) as (st & c' & E & E' & K & A' & Bd).
  rewrite E, E'. now apply same_refl.
Qed.

Lemma l_extent : s0 u_extent. Proof. unfold u_extent. dec idtac. Qed.
Lemma l_effect : s0 u_effect. Proof. unfold u_effect. dec idtac. Qed.
Lemma l_docpr : s0 u_docpr. Proof. unfold u_docpr. dec idtac. Qed.
Lemma l_nonvis : s0 u_nonvis. Proof. unfold u_nonvis. dec idtac. Qed.
Lemma l_frame : s0 u_frame. Proof. unfold u_frame. dec idtac. Qed.
Lemma l_cnvpicpr : forall s, s0 (u_cnvpicpr s). Proof. intros. unfold u_cnvpicpr. dec idtac. Qed.
Lemma l_nvpic : s0 u_nvpic. Proof. unfold u_nvpic. dec ltac:(apply l_cnvpicpr). Qed.
Lemma l_ablip : forall s, s0 (u_ablip s). Proof. intros. unfold u_ablip. dec idtac. Qed.
Lemma l_stretch : forall s, s0 (u_stretch s). Proof. intros. unfold u_stretch. dec idtac. Qed.
Lemma l_picblip : s0 u_picblip.
Proof. unfold u_picblip. dec ltac:(first [apply l_ablip | apply l_stretch]). Qed.
Lemma l_xfrm : forall s, s0 (u_xfrm s). Proof. intros. unfold u_xfrm. dec idtac. Qed.
Lemma l_geom : s0 u_geom. Proof. unfold u_geom. dec idtac. Qed.
Lemma l_picsp : s0 u_picsp. Proof. unfold u_picsp. dec ltac:(first [apply l_xfrm | apply l_geom]). Qed.
Lemma l_pic : s0 u_pic. Proof. unfold u_pic. dec ltac:(first [apply l_nvpic | apply l_picblip | apply l_picsp]). Qed.
Lemma l_picx : s0 u_picx.
Proof. unfold u_picx. apply (wrap_L B u_pic u_pic (fun a x => set_pic_xmlpic (get_att a "pic") x)). apply l_pic. Qed.
Lemma l_solid : s0 u_solid. Proof. unfold u_solid. dec idtac. Qed.
Lemma l_lend : s0 u_lend. Proof. unfold u_lend. dec idtac. Qed.
Lemma l_aline : s0 u_aline. Proof. unfold u_aline. dec ltac:(first [apply l_solid | apply l_lend]). Qed.
Lemma l_tile : s0 u_tile. Proof. unfold u_tile. dec idtac. Qed.
Lemma l_blipfill : s0 u_blipfill. Proof. unfold u_blipfill. dec ltac:(first [apply l_ablip | apply l_tile]). Qed.
Lemma l_sppr : s0 u_sppr.
Proof. unfold u_sppr. dec ltac:(first [apply l_xfrm | apply l_solid | apply l_blipfill | apply l_aline]). Qed.
Lemma l_cnvcn : s0 u_cnvcn. Proof. unfold u_cnvcn. dec idtac. Qed.
Lemma l_splocks : s0 u_splocks. Proof. unfold u_splocks. dec idtac. Qed.
Lemma l_cnvsp : s0 u_cnvsp. Proof. unfold u_cnvsp. dec ltac:(apply l_splocks). Qed.
Lemma l_bodypr : s0 u_bodypr. Proof. unfold u_bodypr. dec idtac. Qed.
Lemma l_bg : s0 u_bg. Proof. unfold u_bg. dec idtac. Qed.
Lemma l_whole : s0 u_whole. Proof. unfold u_whole. dec ltac:(apply l_aline). Qed.
Lemma l_gcnv : s0 u_gcnv. Proof. unfold u_gcnv. dec idtac. Qed.

Lemma l_wpos : s0 u_wpos.
Proof.
  intros m N a c r r' LB Mc L S. unfold u_wpos. eapply (loop_L B); eauto; [|lia]. apply eswitch_L.
  constructor; [|constructor]. cbn [fst snd]. split; [reflexivity|]. intros m1 N1 s1 a1 c1 r1 r1' _ _ M1 L1 S1. cbn [snd]. unfold xml_int.
  destruct (str_L N1 m1 c1 r1 r1' S1 M1 L1) as (x & st & c' & E & E' & K & A' & Bd). rewrite E, E'.
  destruct st; try now apply same_refl. destruct (String.eqb x ""); [now apply same_refl|].
  destruct (parse_int _); now apply same_refl.
Qed.

(** decoders through which the nesting is unbounded *)
Section Knot.
Variables D D' : decs.
Hypothesis DP : forall f, uL B (d_para D f) (d_para D' f).
Hypothesis DC : forall f, uL B (d_canvas D f) (d_canvas D' f).
Hypothesis DG : forall f, uL B (d_group D f) (d_group D' f).
Variable f : option nat.

Lemma l_txcontent : uL B (u_txcontent D f) (u_txcontent D' f). Proof. unfold u_txcontent. dec ltac:(apply DP). Qed.
Lemma l_txbx : uL B (u_txbx D f) (u_txbx D' f). Proof. unfold u_txbx. dec ltac:(apply l_txcontent). Qed.
Lemma l_shape : uL B (u_shape D f) (u_shape D' f).
Proof.
  unfold u_shape. apply (wrap_L B (u_shapeR D f) (u_shapeR D' f) (fun _ x => Shape x)). unfold u_shapeR.
  dec ltac:(first [apply l_nonvis | apply l_cnvcn | apply l_cnvsp | apply l_sppr | apply l_txbx | apply l_bodypr]).
Qed.
Lemma l_canvasR : uL (S B) (u_canvasR D f) (u_canvasR D' f).
Proof. unfold u_canvasR. apply loopd_down. tabs ltac:(first [apply l_bg | apply l_whole | apply l_shape | apply l_picx | apply DG]). Qed.
Lemma l_gshape : uL B (u_gshape D f) (u_gshape D' f).
Proof. unfold u_gshape. dec ltac:(first [apply l_nonvis | apply l_gcnv | apply l_sppr | apply l_pic | apply l_shape | apply DC]). Qed.
Lemma l_groupR : uL (S B) (u_groupR D f) (u_groupR D' f).
Proof. unfold u_groupR. apply loopd_down. tabs ltac:(first [apply l_gshape | apply l_gcnv | apply l_sppr | apply l_pic | apply l_shape | apply DC]). Qed.
Lemma l_gdata : uL B (u_gdata D f) (u_gdata D' f).
Proof. unfold u_gdata. dec ltac:(first [apply l_picx | apply l_shape | apply DC | apply DG]). Qed.
Lemma l_graphic : uL B (u_graphic D f) (u_graphic D' f).
Proof.
  unfold u_graphic. apply nested_L. constructor; [|constructor]. cbn [fst snd]; split; [reflexivity|].
  apply (child_attr_L B (u_gdata D f) (u_gdata D' f) (fun a x => set_graphicR_data (Some (set_gdataR_uri (get_att a "uri") x)))).
  apply l_gdata.
Qed.
Lemma l_inline : uL B (u_inline D f) (u_inline D' f).
Proof. unfold u_inline. dec ltac:(first [apply l_docpr | apply l_frame | apply l_graphic]). Qed.
Lemma l_anchor : uL B (u_anchor D f) (u_anchor D' f).
Proof.
  unfold u_anchor.
  dec ltac:(first [apply l_docpr | apply l_frame | apply l_graphic | apply l_wpos | apply l_extent | apply l_effect]).
Qed.
Lemma l_drawing : uL B (u_drawing D f) (u_drawing D' f).
Proof. unfold u_drawing. dec ltac:(idtac; lazymatch goal with |- uL _ (u_inline _ _) _ => exact l_inline | |- _ => exact l_anchor end). Qed.

Lemma pchildh_L : forall {A} b (u u' : list attr -> list token -> out A) c, uL b u u' -> hL b (pchildh u c) (pchildh u' c).
Proof.
  intros A b u u' w Hu m N s a c r r' LB C Mc L S. unfold pchildh.
  destruct (sub_L b u u' Hu m N a c r r' LB C Mc L S) as (x & st & c' & E & E' & K & A' & Bd). rewrite E, E'.
  destruct st; now apply same_refl.
Qed.

Lemma alt_loop_L : forall b (rec rec' : run -> string -> list attr -> list token -> out run), lL b rec rec' ->
  forall N n n' m s c r r', size c <= N -> N <= b -> size c < n -> size c < n' -> M c -> m <= marks c ->
  same m N r r' (alt_loop n rec s (c ++ TEof :: r)) (alt_loop n' rec' s (c ++ TEof :: r')).
Proof.
  intros b rec rec' HR. induction N as [N IH] using lt_wf_ind. intros n n' m s c r r' S LB Ln Ln' Mc L.
  destruct n as [|n]; [lia|]. destruct n' as [|n']; [lia|]. cbn [alt_loop].
  assert (SK : forall c0, size c0 < N -> M c0 -> m <= marks c0 -> size c0 < n -> size c0 < n' ->
     same m N r r' (match skip (c0 ++ TEof :: r) with (SOk, ts'') => alt_loop n rec s ts'' | (e, ts'') => (s, e, ts'') end)
       (match skip (c0 ++ TEof :: r') with (SOk, ts'') => alt_loop n' rec' s ts'' | (e, ts'') => (s, e, ts'') end)).
  { intros c0 LN0 M0 L0 S1 S2. unfold skip. destruct (skip_from_L c0 0 r r' (size c0) m M0 L0 (le_n _)) as (st & c' & E & E' & K & A & Bd).
    rewrite E, E'. destruct st; try (apply same_refl; auto; lia).
    eapply (same_le m (size c0)); [lia|]. apply (IH (size c0)); auto; lia. }
  destruct c as [|t c].
  - cbn. apply (same_refl m N r r' s SOk []); auto.
  - destruct t; cbn [app M marks size] in *.
    + destruct Mc as [C Mc].
      destruct (String.eqb (snd q) "Choice" && _)%bool; [|apply SK; auto; lia].
      destruct c as [|t2 c]; [destruct C|]. destruct t2; cbn [app M marks size] in *.
      * destruct Mc as [C2 Mc]. eapply (same_le m (size c)); [lia|]. apply HR; auto; lia.
      * apply same_refl; auto; lia.
      * apply same_refl; auto; lia.
      * apply same_refl; auto; lia.
      * apply (same_refl m N r r' s (SAbort XSyntax) (TErr :: c)); auto; cbn; lia.
      * apply (same_refl m N r r' s (SAbort XEOF) (TEof :: c)); auto; cbn; lia.
    + destruct (String.eqb (snd q) "AlternateContent"); [apply same_refl; auto; lia | apply SK; auto; lia].
    + apply SK; auto; lia.
    + apply SK; auto; lia.
    + apply (same_refl m N r r' s (SAbort XSyntax) (TErr :: c)); auto.
    + apply (same_refl m N r r' s SOk (TEof :: c)); auto.
Qed.

Lemma run_parse_L : forall b n n', b <= B -> b <= n -> b <= n' -> lL b (run_parse D f n) (run_parse D' f n').
Proof.
  induction b as [|b IH]; intros n n' LB Ln Ln' m N s l a c r r' LN C Mc L S; [lia|].
  destruct n as [|n]; [lia|]. destruct n' as [|n']; [lia|]. cbn [run_parse].
  apply (eswitch_L (Datatypes.S b)); auto.
  repeat (first [apply Forall2_nil | apply Forall2_cons]); cbn [fst snd]; (split; [reflexivity|]).
  - apply childo_L. apply (uL_le _ B); [lia|]. apply l_rpr.
  - intros m1 N1 s1 a1 c1 r1 r1' _ _ M1 L1 S1.
    destruct (str_L N1 m1 c1 r1 r1' S1 M1 L1) as (x & st & c' & E & E' & K & A' & Bd). rewrite E, E'.
    destruct st; now apply same_refl.
  - apply pchildh_L. apply (uL_le _ B); [lia|]. apply l_text.
  - apply pchildh_L. apply (uL_le _ B); [lia|]. apply l_drawing.
  - still.
  - apply pchildh_L. apply (uL_le _ B); [lia|]. apply l_br.
  - intros m1 N1 s1 a1 c1 r1 r1' LN1 C1 M1 L1 S1. apply (alt_loop_L b); auto; try (rewrite size_app; cbn [size]; lia); [|lia].
    apply IH; lia.
Qed.

Lemma l_run : forall s, uL B (u_run D f s) (u_run D' f s).
Proof.
  intros s. unfold u_run. apply attrs_loop_L. intros m N s1 l a c r r' LN C Mc L S.
  apply (same_le m (size c)); [exact S|]. apply (run_parse_L (Datatypes.S (size c))); auto; try lia; rewrite size_app; cbn [size]; lia.
Qed.
End Knot.

Lemma l_link : forall D D', (forall f, uL B (d_para D f) (d_para D' f)) -> (forall f, uL B (d_canvas D f) (d_canvas D' f)) ->
  (forall f, uL B (d_group D f) (d_group D' f)) -> uL B (u_link D) (u_link D').
Proof.
  intros D D' DP DC DG. unfold u_link. apply loopd_L. constructor; [|constructor]. cbn [fst snd]; split; [reflexivity|].
  apply childin_L. intros. now apply l_run.
Qed.

Lemma l_paraR : forall D D', (forall f, uL B (d_para D f) (d_para D' f)) -> (forall f, uL B (d_canvas D f) (d_canvas D' f)) ->
  (forall f, uL B (d_group D f) (d_group D' f)) -> forall f, uL (S B) (u_paraR D f) (u_paraR D' f).
Proof.
  intros D D' DP DC DG f m N a c r r' LB Mc L S. unfold u_paraR.
  match goal with |- context [loop ?h ?s (c ++ TEof :: r)] => match goal with |- context [loop ?h' ?s' (c ++ TEof :: r')] =>
    assert (G : same m N r r' (loop h s (c ++ TEof :: r)) (loop h' s' (c ++ TEof :: r'))) end end.
  { eapply (loop_L B); eauto; [|lia]. apply eswitch_L.
    repeat (first [apply Forall2_nil | apply Forall2_cons]); cbn [fst snd]; (split; [reflexivity|]).
    - intros m1 N1 s1 a1 c1 r1 r1' LB1 C1 M1 L1 S1.
      apply (child_L B (u_link D) (u_link D') (fun x s2 => (fst s2, snd s2 ++ [PLink (if String.eqb (get_att a1 "anchor") "" then get_att a1 "id" else get_att a1 "anchor") x]))); auto.
      now apply l_link.
    - apply child_L. now apply l_run.
    - apply child_L, l_rpr.
    - apply child_L, l_ppr. }
  destruct G as (x & st & c' & E & E' & K & A' & Bd). rewrite E, E'. destruct st; now apply same_refl.
Qed.
End Dec.

Section Items.
Context `{GoLib}.

Lemma tie_L : forall B n n' f, B <= n -> B <= n' ->
  uL B (d_para (tie n) f) (d_para (tie n') f) /\ uL B (d_canvas (tie n) f) (d_canvas (tie n') f) /\ uL B (d_group (tie n) f) (d_group (tie n') f).
Proof.
  induction B as [|B IH]; intros n n' f Ln Ln'; [split; [|split]; intros m N a c r r' LN; lia|].
  destruct n as [|n]; [lia|]. destruct n' as [|n']; [lia|].
  assert (DP : forall f, uL B (d_para (tie n) f) (d_para (tie n') f)) by (intros; apply IH; lia).
  assert (DC : forall f, uL B (d_canvas (tie n) f) (d_canvas (tie n') f)) by (intros; apply IH; lia).
  assert (DG : forall f, uL B (d_group (tie n) f) (d_group (tie n') f)) by (intros; apply IH; lia).
  cbn [tie d_para d_canvas d_group]. split; [|split].
  - now apply l_paraR.
  - apply (wrap_L (S B) (u_canvasR (tie n) f) (u_canvasR (tie n') f) (fun _ x => Canvas x)). now apply l_canvasR.
  - apply (wrap_L (S B) (u_groupR (tie n) f) (u_groupR (tie n') f) (fun _ x => Group x)). now apply l_groupR.
Qed.

Variable B : nat.
Lemma l_para : forall f, uL B (u_para f) (u_para f).
Proof.
  intros f m N a c r r' LN Mc L S. unfold u_para. apply (same_le m (size c)); [exact S|].
  apply (tie_L (Datatypes.S (size c))); auto; rewrite size_app; cbn [size]; lia.
Qed.

Ltac still := apply still_L; intros; cbv beta zeta delta [flat fval fset fnum fattrs fattrs_after];
  repeat (match goal with
          | |- context [match ?x with _ => _ end] => destruct x
          | |- context [let '(_, _) := ?x in _] => destruct x
          end); do 2 eexists; intros; reflexivity.
Ltac tabs tac := repeat (first [apply Forall2_nil | apply Forall2_cons]); cbn [fst snd]; (split; [reflexivity|]); hnd1 tac
with hnd1 tac :=
  lazymatch goal with
  | |- hL _ (then_skip _) _ => apply then_skip_L; hnd1 tac
  | |- hL _ (childo _ _) _ => apply childo_L; tac
  | |- hL _ (childin _ _ _) _ => apply childin_L; intros; tac
  | |- hL _ (child _ _) _ => apply child_L; tac
  | |- _ => still
  end.
Ltac dec tac := lazymatch goal with
  | |- uL _ (leafd _ _) _ => apply leafd_L
  | |- uL _ (loopd _ _) _ => apply loopd_L; tabs tac
  | |- uL _ (nested _ _ _) _ => apply nested_L; tabs tac
  end.
Notation s0 u := (uL B u u).

Lemma l_border : s0 u_border. Proof. unfold u_border. dec idtac. Qed.
Lemma l_borders : s0 u_borders. Proof. unfold u_borders. dec ltac:(apply l_border). Qed.
Lemma l_tblpos : s0 u_tblpos. Proof. unfold u_tblpos. dec idtac. Qed.
Lemma l_tblstyle : s0 u_tblstyle. Proof. unfold u_tblstyle. dec idtac. Qed.
Lemma l_tblw : s0 u_tblw. Proof. unfold u_tblw. dec idtac. Qed.
Lemma l_look : s0 u_look. Proof. unfold u_look. dec idtac. Qed.
Lemma l_tblpr : s0 u_tblpr.
Proof. unfold u_tblpr. dec ltac:(first [apply l_tblpos | apply l_tblstyle | apply l_tblw | apply l_look | apply l_borders]). Qed.
Lemma l_gridcol : s0 u_gridcol. Proof. unfold u_gridcol. dec idtac. Qed.
Lemma l_grid : s0 u_grid. Proof. unfold u_grid. dec ltac:(apply l_gridcol). Qed.
Lemma l_trpr : s0 u_trpr. Proof. unfold u_trpr. dec idtac. Qed.
Lemma l_tcpr : s0 u_tcpr. Proof. unfold u_tcpr. dec ltac:(first [apply l_borders | apply l_shade]). Qed.
Lemma l_cell : forall f, s0 (u_cell f). Proof. intros. unfold u_cell. dec ltac:(first [apply l_para | apply l_tcpr]). Qed.
Lemma l_row : forall f, s0 (u_row f). Proof. intros. unfold u_row. dec ltac:(first [apply l_trpr | apply l_cell]). Qed.
Lemma l_table : forall f, s0 (u_table f). Proof. intros. unfold u_table. dec ltac:(first [apply l_row | apply l_tblpr | apply l_grid]). Qed.
Lemma l_pgsz : s0 u_pgsz. Proof. unfold u_pgsz. dec idtac. Qed.
Lemma l_pgmar : s0 u_pgmar. Proof. unfold u_pgmar. dec idtac. Qed.
Lemma l_cols : s0 u_cols. Proof. unfold u_cols. dec idtac. Qed.
Lemma l_docgrid : s0 u_docgrid. Proof. unfold u_docgrid. dec idtac. Qed.
Lemma l_sect : s0 u_sect.
Proof. unfold u_sect. dec ltac:(first [apply l_pgsz | apply l_pgmar | apply l_cols | apply l_docgrid]). Qed.
Lemma l_body : forall f s, s0 (u_body f s).
Proof. intros. unfold u_body. dec ltac:(first [apply l_para | apply l_table | apply l_sect]). Qed.
Lemma l_document : forall f, s0 (u_document f).
Proof. intros. unfold u_document. dec ltac:(apply l_body). Qed.
End Items.
