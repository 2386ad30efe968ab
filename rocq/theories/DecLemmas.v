(** Generic facts about the decoding combinators. *)
From Coq Require Import String Ascii List Bool Arith NArith ZArith Lia.
From Verif Require Import GoStr Num Lib Types XmlTok Unmarshal.
Import ListNotations.
Local Open Scope string_scope.
Local Open Scope list_scope.

(** ** sizes *)

Lemma size_app : forall a b, size (a ++ b) = size a + size b.
Proof. induction a as [|t a IH]; intros; simpl; auto. destruct t; simpl; rewrite IH; lia. Qed.

Lemma push_from_size : forall ts d, size (push_from d ts) = size ts.
Proof.
  induction ts as [|t ts IH]; intros; simpl; auto.
  destruct t; simpl; try (rewrite IH; lia).
  destruct d; simpl; try rewrite IH; lia.
Qed.

Lemma push_eof_size : forall ts, size (push_eof ts) = size ts.
Proof. intros. apply push_from_size. Qed.

Lemma skip_from_size : forall ts d st ts', skip_from d ts = (st, ts') -> size ts' <= size ts /\ st <> SFuel.
Proof.
  induction ts as [|t ts IH]; intros d st ts' E; simpl in E.
  - inversion E; subst; split; [auto | discriminate].
  - destruct t; try (apply IH in E; simpl; destruct E; split; [lia | assumption]).
    + destruct d.
      * inversion E; subst. simpl. split; [lia | discriminate].
      * apply IH in E. simpl. destruct E; split; [lia | assumption].
    + inversion E; subst; split; [simpl; lia | discriminate].
    + inversion E; subst; split; [simpl; lia | discriminate].
Qed.

Lemma skip_size : forall ts st ts', skip ts = (st, ts') -> size ts' <= size ts /\ st <> SFuel.
Proof. intros. eapply skip_from_size; eauto. Qed.

(** ** never out of fuel *)

Definition okr {X} (ts : list token) (r : out X) : Prop :=
  let '(_, st, ts') := r in st <> SFuel /\ size ts' <= size ts.

(** good for inputs shorter than [N] *)
Definition hgood {X} (N : nat) (h : hnd X) : Prop := forall s a ts, size ts < N -> okr ts (h s a ts).
Definition ugood {X} (N : nat) (u : list attr -> list token -> out X) : Prop :=
  forall a ts, size ts < N -> okr ts (u a ts).
Definition agood {X} (h : ahnd X) : Prop := forall s v, snd (h s v) <> SFuel.

Lemma switch_P : forall {A} (P : A -> Prop) cs d l,
  Forall (fun c => P (snd c)) cs -> P d -> P (switch cs d l).
Proof.
  induction cs as [|[k x] cs IH]; intros d l F Hd; simpl; auto.
  inversion F; subst. destruct (String.eqb l k); auto.
Qed.

Lemma skipping_ok : forall {X} (s : X) ts, okr ts (skipping s ts).
Proof.
  intros. unfold skipping. destruct (skip ts) as [st ts'] eqn:E.
  apply skip_size in E. destruct E. split; auto.
Qed.

Lemma eswitch_ok : forall {X} N (cs : list (string * hnd X)),
  Forall (fun c => hgood N (snd c)) cs ->
  forall s l a ts, size ts < N -> okr ts (eswitch cs s l a ts).
Proof.
  intros X N cs F s l a ts L. unfold eswitch.
  apply (switch_P (fun h => okr ts (h s a ts))).
  - eapply Forall_impl; [|exact F]. intros c Hc. apply Hc. exact L.
  - apply skipping_ok.
Qed.

Lemma loop_n_ok : forall {X} (h : X -> string -> list attr -> list token -> out X) N,
  (forall s l a ts, size ts < N -> okr ts (h s l a ts)) ->
  forall n s ts, size ts < n -> size ts <= N -> okr ts (loop_n n h s ts).
Proof.
  intros X h N Hh. induction n as [|n IH]; intros s ts L LN; [lia|].
  simpl. destruct ts as [|t ts]; [split; [discriminate | auto]|].
  destruct t; simpl in L, LN.
  - specialize (Hh s (snd q) a ts ltac:(lia)).
    destruct (h s (snd q) a ts) as [[s' st] ts'] eqn:E. destruct Hh as [H1 H2].
    destruct st.
    + specialize (IH s' ts' ltac:(lia) ltac:(lia)).
      destruct (loop_n n h s' ts') as [[s2 st2] ts2]. destruct IH. split; [auto | simpl; lia].
    + split; [auto | simpl; lia].
    + split; [auto | simpl; lia].
    + congruence.
  - specialize (IH s ts ltac:(lia) ltac:(lia)). destruct (loop_n n h s ts) as [[s2 st2] ts2].
    destruct IH. split; [auto | simpl; lia].
  - specialize (IH s ts ltac:(lia) ltac:(lia)). destruct (loop_n n h s ts) as [[s2 st2] ts2].
    destruct IH. split; [auto | simpl; lia].
  - specialize (IH s ts ltac:(lia) ltac:(lia)). destruct (loop_n n h s ts) as [[s2 st2] ts2].
    destruct IH. split; [auto | simpl; lia].
  - split; [discriminate | auto].
  - split; [discriminate | auto].
Qed.

Lemma loop_ok : forall {X} (h : X -> string -> list attr -> list token -> out X) N,
  (forall s l a ts, size ts < N -> okr ts (h s l a ts)) ->
  forall s ts, size ts <= N -> okr ts (loop h s ts).
Proof. intros. unfold loop. eapply loop_n_ok; eauto. Qed.

Lemma sub_ok : forall {X} N (u : list attr -> list token -> out X), ugood N u ->
  forall a ts, size ts < N -> okr ts (sub (u a) ts).
Proof.
  intros X N u Hu a ts L. unfold sub.
  specialize (Hu a (push_eof ts)). rewrite push_eof_size in Hu. specialize (Hu L).
  unfold okr in Hu. rewrite push_eof_size in Hu.
  destruct (u a (push_eof ts)) as [[x st] ts'].
  destruct Hu as [H1 H2].
  destruct st, ts' as [|t ts'']; simpl; try congruence; try (split; [discriminate | simpl in *; lia]);
    destruct t; simpl in *; split; try discriminate; lia.
Qed.

Lemma decode_ok : forall {X A} N (u : list attr -> list token -> out A) (set : A -> X -> X), ugood N u ->
  forall s a ts, size ts < N -> okr ts (decode (u a) set s ts).
Proof.
  intros X A N u set Hu s a ts L. unfold decode.
  pose proof (sub_ok N u Hu a ts L) as S.
  destruct (sub (u a) ts) as [[x st] ts']. destruct S as [S1 S2].
  destruct st; try congruence; split; try discriminate; auto.
Qed.

Lemma child_ok : forall {X A} N (u : list attr -> list token -> out A) (set : A -> X -> X),
  ugood N u -> hgood N (child u set).
Proof. intros X A N u set Hu s a ts L. apply (decode_ok N); auto. Qed.

Lemma childo_ok : forall {X A} N (u : list attr -> list token -> out A) (set : option A -> X -> X),
  ugood N u -> hgood N (childo u set).
Proof. intros. apply child_ok. assumption. Qed.

Lemma childin_ok : forall {X A} N (u : A -> list attr -> list token -> out A) (get : X -> A) (set : A -> X -> X),
  (forall x, ugood N (u x)) -> hgood N (childin u get set).
Proof. intros X A N u get set Hu s a ts L. unfold childin. apply (decode_ok N (u (get s))); auto. Qed.

Lemma flat_ok : forall {X} N (g : list attr -> X -> X), hgood N (flat g).
Proof. intros X N g s a ts _. split; [discriminate | auto]. Qed.

Lemma fval_ok : forall {X} N (g : option string -> X -> X), hgood N (fval g).
Proof. intros. apply flat_ok. Qed.
Lemma fset_ok : forall {X} N (g : bool -> X -> X), hgood N (fset g).
Proof. intros. apply flat_ok. Qed.

Lemma st_of_ok : forall g, snd (st_of g) <> SFuel.
Proof. destruct g; discriminate. Qed.

Lemma fnum_ok : forall `{GoLib} {X} N n (g : option i64 -> X -> X), hgood N (fnum n g).
Proof.
  intros L X N n g s a ts _. unfold fnum. destruct (String.eqb _ _); [split; [discriminate | auto]|].
  destruct (get_int _); split; try discriminate; auto.
Qed.

Lemma attrs_ok : forall {X} (f : X -> string -> string -> X * status),
  (forall s l v, snd (f s l v) <> SFuel) -> forall a s, snd (attrs f s a) <> SFuel.
Proof.
  intros X f Hf. induction a as [|[q v] a IH]; intros s; simpl; [discriminate|].
  specialize (Hf s (snd q) v). destruct (f s (snd q) v) as [s' st]. destruct st; simpl in *; auto.
Qed.

Lemma aswitch_ok : forall {X} (cs : list (string * ahnd X)),
  Forall (fun c => agood (snd c)) cs -> forall s l v, snd (aswitch cs s l v) <> SFuel.
Proof.
  intros X cs F s l v. unfold aswitch. apply (switch_P (fun h : ahnd X => snd (h s v) <> SFuel)).
  - eapply Forall_impl; [|exact F]. intros c Hc. apply Hc.
  - discriminate.
Qed.

Lemma fattrs_ok : forall {X Y} N (cs : list (string * ahnd Y)) (get : X -> Y) set,
  Forall (fun c => agood (snd c)) cs -> hgood N (fattrs (aswitch cs) get set).
Proof.
  intros X Y N cs get set F s a ts _. unfold fattrs.
  pose proof (attrs_ok (aswitch cs) (aswitch_ok cs F) a (get s)) as K.
  destruct (attrs (aswitch cs) (get s) a) as [y st]. split; auto.
Qed.

Lemma fattrs_after_ok : forall {X Y} N (cs : list (string * ahnd Y)) y0 (set : Y -> X -> X),
  Forall (fun c => agood (snd c)) cs -> hgood N (fattrs_after (aswitch cs) y0 set).
Proof.
  intros X Y N cs y0 set F s a ts _. unfold fattrs_after.
  pose proof (attrs_ok (aswitch cs) (aswitch_ok cs F) a y0) as K.
  destruct (attrs (aswitch cs) y0 a) as [y st]. simpl in K. destruct st; try congruence; split; auto; discriminate.
Qed.

Lemma then_skip_ok : forall {X} N (h : hnd X), hgood N h -> hgood N (then_skip h).
Proof.
  intros X N h Hh s a ts L. unfold then_skip. specialize (Hh s a ts L).
  destruct (h s a ts) as [[s' st] ts']. destruct Hh as [H1 H2].
  destruct st; try congruence; try (split; auto; discriminate).
  pose proof (skipping_ok s' ts') as K. unfold skipping in *. destruct (skip ts'). destruct K. split; auto. lia.
Qed.

Lemma next_tok_ok : forall ts, let '(st, ts') := next_tok ts in st <> SFuel /\ size ts' <= size ts.
Proof. destruct ts as [|[] ts]; simpl; split; try discriminate; auto. Qed.

Lemma leafd_ok : forall {X} N (cs : list (string * ahnd X)) s,
  Forall (fun c => agood (snd c)) cs -> ugood N (leafd cs s).
Proof.
  intros X N cs s F a ts L. unfold leafd, leaf.
  pose proof (attrs_ok (aswitch cs) (aswitch_ok cs F) a s) as K.
  destruct (attrs (aswitch cs) s a) as [y st]. simpl in K.
  destruct st; try congruence; try (split; auto; discriminate).
  pose proof (next_tok_ok ts) as T. destruct (next_tok ts). exact T.
Qed.

Lemma loopd_ok : forall {X} N (cs : list (string * hnd X)) s,
  Forall (fun c => hgood N (snd c)) cs -> ugood N (loopd cs s).
Proof.
  intros X N cs s F a ts L. unfold loopd. apply (loop_ok _ (size ts)); auto.
  intros. apply (eswitch_ok N); auto. lia.
Qed.

Lemma nested_ok : forall {X} N (ac : list (string * ahnd X)) (cs : list (string * hnd X)) s,
  Forall (fun c => agood (snd c)) ac -> Forall (fun c => hgood N (snd c)) cs -> ugood N (nested ac cs s).
Proof.
  intros X N ac cs s Fa F a ts L. unfold nested, attrs_loop.
  pose proof (attrs_ok (aswitch ac) (aswitch_ok ac Fa) a s) as K.
  destruct (attrs (aswitch ac) s a) as [y st]. simpl in K.
  destruct st; try congruence; try (split; auto; discriminate).
  apply (loop_ok _ (size ts)); auto. intros. apply (eswitch_ok N); auto. lia.
Qed.

Lemma av_ok : forall {X} (set : string -> X -> X), agood (av set).
Proof. intros X set s v. discriminate. Qed.
Lemma ai_ok : forall `{GoLib} {X} (set : i64 -> X -> X), agood (ai set).
Proof. intros L X set s v. unfold ai. destruct (get_int v); discriminate. Qed.
Lemma ain_ok : forall `{GoLib} {X} (set : i64 -> X -> X), agood (ain set).
Proof. intros L X set s v. unfold ain. destruct (get_int v); discriminate. Qed.
Lemma aig_ok : forall `{GoLib} {X} (set : i64 -> X -> X), agood (aig set).
Proof. intros L X set s v. discriminate. Qed.
Lemma aatoi_ok : forall {X} (set : i64 -> X -> X), agood (aatoi set).
Proof. intros X set s v. unfold aatoi. destruct (parse_int v); discriminate. Qed.
Lemma adig_ok : forall {X} (set : i64 -> X -> X), agood (adig set).
Proof. intros X set s v. unfold adig. destruct v; discriminate. Qed.
Lemma ane_ok : forall {X} (h : ahnd X), agood h -> agood (ane h).
Proof. intros X h Hh s v. unfold ane. destruct (String.eqb v ""); [discriminate | apply Hh]. Qed.

Lemma str_n_ok : forall n acc ts, size ts < n -> okr ts (str_n n acc ts).
Proof.
  induction n as [|n IH]; intros acc ts L; [lia|]. simpl.
  destruct ts as [|t ts]; [split; [discriminate | auto]|].
  destruct t; simpl in L.
  - destruct (skip ts) as [st ts'] eqn:E. apply skip_size in E. destruct E as [E1 E2].
    destruct st; try congruence; try (split; [discriminate | simpl; lia]).
    specialize (IH acc ts' ltac:(lia)). destruct (str_n n acc ts') as [[x y] z]. destruct IH.
    split; [auto | simpl; lia].
  - split; [discriminate | simpl; lia].
  - specialize (IH (acc ++ s)%string ts ltac:(lia)). destruct (str_n n (acc ++ s)%string ts) as [[x y] z]. destruct IH.
    split; [auto | simpl; lia].
  - specialize (IH acc ts ltac:(lia)). destruct (str_n n acc ts) as [[x y] z]. destruct IH.
    split; [auto | simpl; lia].
  - split; [discriminate | auto].
  - split; [discriminate | auto].
Qed.

Lemma str_ok : forall ts, okr ts (str ts).
Proof. intros. apply str_n_ok. lia. Qed.

(** ** the loop, as a relation *)

(** [loops h s ts r]: started with [s] on [ts] the loop ends with [r]. *)
Inductive loops {X} (h : X -> string -> list attr -> list token -> out X) : X -> list token -> out X -> Prop :=
| l_eof : forall s ts, loops h s (TEof :: ts) (s, SOk, TEof :: ts)
| l_start : forall s q a ts s' ts' r,
    h s (snd q) a ts = (s', SOk, ts') -> size ts' <= size ts -> loops h s' ts' r -> loops h s (TStart q a :: ts) r
| l_fail : forall s q a ts s' st ts',
    h s (snd q) a ts = (s', st, ts') -> st <> SOk -> loops h s (TStart q a :: ts) (s', st, ts')
| l_end : forall s q ts r, loops h s ts r -> loops h s (TEnd q :: ts) r
| l_chr : forall s c ts r, loops h s ts r -> loops h s (TChar c :: ts) r
| l_misc : forall s ts r, loops h s ts r -> loops h s (TMisc :: ts) r.

Lemma loops_sound_n : forall {X} (h : X -> string -> list attr -> list token -> out X) s ts r,
  loops h s ts r -> forall n, size ts < n -> loop_n n h s ts = r.
Proof.
  intros X h s ts r HL. induction HL; intros n L; (destruct n as [|n]; [lia|]); cbn [loop_n]; simpl in L.
  - reflexivity.
  - rewrite H. apply IHHL. lia.
  - rewrite H. destruct st; congruence.
  - apply IHHL. lia.
  - apply IHHL. lia.
  - apply IHHL. lia.
Qed.

Lemma loops_sound : forall {X} (h : X -> string -> list attr -> list token -> out X) s ts r,
  loops h s ts r -> loop h s ts = r.
Proof. intros. unfold loop. eapply loops_sound_n; eauto. Qed.

(** [steps h s ts s' ts']: the loop gets from [s, ts] to [s', ts'] *)
Definition steps {X} (h : X -> string -> list attr -> list token -> out X) (s : X) (ts : list token) (s' : X) (ts' : list token) : Prop :=
  forall r, loops h s' ts' r -> loops h s ts r.

Lemma steps_refl : forall {X} h (s : X) ts, steps h s ts s ts.
Proof. intros X h s ts r Hr. exact Hr. Qed.
Lemma steps_trans : forall {X} h (s1 s2 s3 : X) t1 t2 t3, steps h s1 t1 s2 t2 -> steps h s2 t2 s3 t3 -> steps h s1 t1 s3 t3.
Proof. intros X h s1 s2 s3 t1 t2 t3 A B r Hr. apply A, B, Hr. Qed.

(** ** the tokens of a tree *)

Lemma ftoks_app : forall a b, ftoks (a ++ b) = ftoks a ++ ftoks b.
Proof. intros. unfold ftoks. apply flat_map_app. Qed.

Lemma ftoks_cons : forall t l, ftoks (t :: l) = toks t ++ ftoks l.
Proof. reflexivity. Qed.

Fixpoint tsz (t : tree) : nat :=
  match t with Elem _ _ c => S (S (fold_right (fun t n => tsz t + n) 0 c)) | _ => 1 end.
Definition szs (c : list tree) : nat := fold_right (fun t n => tsz t + n) 0 c.

Section TreeInd.
Variable P : tree -> Prop.
Hypothesis HE : forall q a c, Forall P c -> P (Elem q a c).
Hypothesis HC : forall s, P (Chr s).
Hypothesis HM : P Cmt.
Fixpoint tree_ind' (t : tree) : P t :=
  match t with
  | Elem q a c => HE q a c ((fix go l : Forall P l := match l with [] => Forall_nil P | x :: l' => Forall_cons x (tree_ind' x) (go l') end) c)
  | Chr s => HC s
  | Cmt => HM
  end.
End TreeInd.

Lemma szs_app : forall a b, szs (a ++ b) = szs a + szs b.
Proof. induction a; intros; simpl; auto. rewrite IHa. lia. Qed.
Lemma szs_cons : forall a b, szs (a :: b) = tsz a + szs b.
Proof. reflexivity. Qed.
Lemma tsz_elem : forall q a c, tsz (Elem q a c) = S (S (szs c)).
Proof. reflexivity. Qed.
Lemma szs_in : forall t c, In t c -> tsz t <= szs c.
Proof. induction c; simpl; intros; [easy|]. destruct H; [subst; unfold szs; simpl; lia|]. apply IHc in H. unfold szs in *. simpl. lia. Qed.

Lemma toks_elem : forall q a c k, toks (Elem q a c) ++ k = TStart q a :: ftoks c ++ TEnd q :: k.
Proof. intros. simpl. rewrite <- app_assoc. reflexivity. Qed.

(** skipping the rest of the trees of a forest, at any depth *)
Lemma skip_from_tree : forall t d k, skip_from d (toks t ++ k) = skip_from d k.
Proof.
  induction t as [q a c F|s|] using tree_ind'; intros d k; [|reflexivity|reflexivity].
  rewrite toks_elem. simpl.
  assert (G : forall d k, skip_from d (ftoks c ++ k) = skip_from d k).
  { clear -F. induction F as [|t c Ht F IH]; intros d k; [reflexivity|].
    rewrite ftoks_cons, <- app_assoc, Ht, IH. reflexivity. }
  rewrite G. reflexivity.
Qed.

Lemma skip_from_forest : forall c d k, skip_from d (ftoks c ++ k) = skip_from d k.
Proof.
  induction c as [|t c IH]; intros; [reflexivity|].
  rewrite ftoks_cons, <- app_assoc, skip_from_tree, IH. reflexivity.
Qed.

Lemma skip_forest : forall c q k, skip (ftoks c ++ TEnd q :: k) = (SOk, k).
Proof. intros. unfold skip. rewrite skip_from_forest. reflexivity. Qed.

Lemma push_from_tree : forall t d k, push_from d (toks t ++ k) = toks t ++ push_from d k.
Proof.
  induction t as [q a c F|s|] using tree_ind'; intros d k; [|reflexivity|reflexivity].
  rewrite !toks_elem. simpl.
  assert (G : forall d k, push_from d (ftoks c ++ k) = ftoks c ++ push_from d k).
  { clear -F. induction F as [|t c Ht F IH]; intros d k; [reflexivity|].
    rewrite ftoks_cons, <- !app_assoc, Ht, IH. reflexivity. }
  rewrite G. reflexivity.
Qed.

Lemma push_eof_forest : forall c q k, push_eof (ftoks c ++ TEnd q :: k) = ftoks c ++ TEnd q :: TEof :: k.
Proof.
  intros. unfold push_eof.
  assert (G : forall d k, push_from d (ftoks c ++ k) = ftoks c ++ push_from d k).
  { induction c as [|t c IH]; intros d k'; [reflexivity|].
    rewrite ftoks_cons, <- !app_assoc, push_from_tree, IH. reflexivity. }
  rewrite G. reflexivity.
Qed.

Lemma size_forest_end : forall c q k, size k <= size (ftoks c ++ TEnd q :: k).
Proof. intros. rewrite size_app. simpl. lia. Qed.

(** ** decoding a tree *)

(** The decoder [u] turns the element [t] into [x]. *)
Definition Dec {A} (u : list attr -> list token -> out A) (t : tree) (x : A) : Prop :=
  match t with
  | Elem q a c => forall k, u a (ftoks c ++ TEnd q :: TEof :: k) = (x, SOk, TEof :: k)
  | _ => False
  end.

Lemma sub_dec : forall {A} (u : list attr -> list token -> out A) q a c x, Dec u (Elem q a c) x ->
  forall k, sub (u a) (ftoks c ++ TEnd q :: k) = (x, SOk, k).
Proof.
  intros A u q a c x HD k. unfold sub. rewrite push_eof_forest. rewrite HD. reflexivity.
Qed.

Lemma decode_dec : forall {A X} (u : list attr -> list token -> out A) (set : A -> X -> X) q a c x, Dec u (Elem q a c) x ->
  forall s k, decode (u a) set s (ftoks c ++ TEnd q :: k) = (set x s, SOk, k).
Proof. intros. unfold decode. erewrite sub_dec by eauto. reflexivity. Qed.

(** [Act h s t s']: on the element [t] the handler [h] changes the state from [s] to
    [s'] and has read the element *)
Definition Act {X} (h : hnd X) (s : X) (t : tree) (s' : X) : Prop :=
  match t with
  | Elem q a c =>
      (forall k, h s a (ftoks c ++ TEnd q :: k) = (s', SOk, k)) \/
      (c = [] /\ forall k, h s a (TEnd q :: k) = (s', SOk, TEnd q :: k))
  | _ => False
  end.

Definition tname (t : tree) : string := match t with Elem q _ _ => snd q | _ => "" end.

Lemma act_steps : forall {X} (cs : list (string * hnd X)) d s t s' k,
  Act (switch cs d (tname t)) s t s' ->
  steps (fun s l a ts => switch cs d l s a ts) s (toks t ++ k) s' k.
Proof.
  intros X cs d s t s' k HA. destruct t as [q a c| |]; [|contradiction|contradiction].
  rewrite toks_elem. simpl in HA. intros r Hr.
  destruct HA as [HA | [-> HA]].
  - eapply l_start; [apply HA | apply size_forest_end | exact Hr].
  - simpl. eapply l_start; [apply HA | simpl; lia |]. apply l_end. exact Hr.
Qed.

Lemma act_esteps : forall {X} (cs : list (string * hnd X)) s t s' k,
  Act (switch cs (fun s _ ts => skipping s ts) (tname t)) s t s' ->
  steps (eswitch cs) s (toks t ++ k) s' k.
Proof. intros. unfold eswitch. apply act_steps. assumption. Qed.

(** The loop over the children [c] takes [s] to [s']. *)
Definition Kids {X} (h : X -> string -> list attr -> list token -> out X) (s : X) (c : list tree) (s' : X) : Prop :=
  forall k, steps h s (ftoks c ++ k) s' k.

Lemma kids_nil : forall {X} h (s : X), Kids h s [] s.
Proof. intros X h s k. apply steps_refl. Qed.
Lemma kids_app : forall {X} h (s1 s2 s3 : X) a b, Kids h s1 a s2 -> Kids h s2 b s3 -> Kids h s1 (a ++ b) s3.
Proof.
  intros X h s1 s2 s3 a b A B k. rewrite ftoks_app, <- app_assoc.
  eapply steps_trans; [apply A | apply B].
Qed.
Lemma kids_one : forall {X} (cs : list (string * hnd X)) s t s',
  Act (switch cs (fun s _ ts => skipping s ts) (tname t)) s t s' -> Kids (eswitch cs) s [t] s'.
Proof.
  intros X cs s t s' HA k. rewrite ftoks_cons. simpl. rewrite app_nil_r. apply act_esteps. exact HA.
Qed.
Lemma kids_cons : forall {X} (cs : list (string * hnd X)) s1 s2 s3 t c,
  Act (switch cs (fun s _ ts => skipping s ts) (tname t)) s1 t s2 -> Kids (eswitch cs) s2 c s3 -> Kids (eswitch cs) s1 (t :: c) s3.
Proof. intros. change (t :: c) with ([t] ++ c). eapply kids_app; [apply kids_one|]; eauto. Qed.

Lemma kids_loop : forall {X} h (s s' : X) c q k, Kids h s c s' ->
  loop h s (ftoks c ++ TEnd q :: TEof :: k) = (s', SOk, TEof :: k).
Proof. intros X h s s' c q k HK. apply loops_sound. apply HK. apply l_end. apply l_eof. Qed.

Lemma loopd_dec : forall {X} (cs : list (string * hnd X)) s q a c s',
  Kids (eswitch cs) s c s' -> Dec (loopd cs s) (Elem q a c) s'.
Proof. intros X cs s q a c s' HK k. unfold loopd. apply kids_loop. exact HK. Qed.

Lemma nested_dec : forall {X} (ac : list (string * ahnd X)) (cs : list (string * hnd X)) s q a c s1 s',
  attrs (aswitch ac) s a = (s1, SOk) -> Kids (eswitch cs) s1 c s' -> Dec (nested ac cs s) (Elem q a c) s'.
Proof. intros X ac cs s q a c s1 s' HA HK k. unfold nested, attrs_loop. rewrite HA. apply kids_loop. exact HK. Qed.

Lemma leafd_dec : forall {X} (ac : list (string * ahnd X)) s q a s',
  attrs (aswitch ac) s a = (s', SOk) -> Dec (leafd ac s) (Elem q a []) s'.
Proof. intros X ac s q a s' HA k. unfold leafd, leaf. rewrite HA. reflexivity. Qed.

(** handlers on elements *)
Lemma child_act : forall {X A} (u : list attr -> list token -> out A) (set : A -> X -> X) s t x,
  Dec u t x -> Act (child u set) s t (set x s).
Proof. intros X A u set s t x HD. destruct t as [q a c| |]; [|contradiction|contradiction]. left. intros k. unfold child. now apply decode_dec. Qed.
Lemma childo_act : forall {X A} (u : list attr -> list token -> out A) (set : option A -> X -> X) s t x,
  Dec u t x -> Act (childo u set) s t (set (Some x) s).
Proof. intros. now apply (child_act u (fun x => set (Some x))). Qed.
Lemma childin_act : forall {X A} (u : A -> list attr -> list token -> out A) (get : X -> A) (set : A -> X -> X) s t x,
  Dec (u (get s)) t x -> Act (childin u get set) s t (set x s).
Proof. intros X A u get set s t x HD. destruct t as [q a c| |]; [|contradiction|contradiction]. left. intros k. unfold childin. now apply decode_dec. Qed.
Lemma flat_act : forall {X} (g : list attr -> X -> X) s q a, Act (flat g) s (Elem q a []) (g a s).
Proof. intros. right. split; [reflexivity | reflexivity]. Qed.
Lemma then_skip_act : forall {X} (g : list attr -> X -> X) s q a c, Act (then_skip (flat g)) s (Elem q a c) (g a s).
Proof. intros. left. intros k. unfold then_skip, flat, skipping. now rewrite skip_forest. Qed.
Lemma skip_act : forall {X} (s : X) q a c, Act (fun s _ ts => skipping s ts) s (Elem q a c) s.
Proof. intros. left. intros k. unfold skipping. now rewrite skip_forest. Qed.
Lemma fnum_act : forall `{GoLib} {X} n (set : option i64 -> X -> X) s q a v,
  get_att a n = itoa (iv v) -> Act (fnum n set) s (Elem q a []) (set (Some v) s).
Proof.
  intros L X n set s q a v HA. right. split; [reflexivity|]. intros k. unfold fnum. rewrite HA, get_int_itoa.
  destruct (String.eqb (itoa (iv v)) "") eqn:E; [|reflexivity].
  apply String.eqb_eq in E. exfalso. revert E. apply itoa_nonempty.
Qed.

(** optional children *)
Lemma kids_el : forall {X A} (cs : list (string * hnd X)) (m : A -> tree) (o : option A) (s s' : X) n,
  (forall v, tname (m v) = n) ->
  (forall v, o = Some v -> Act (switch cs (fun s _ ts => skipping s ts) n) s (m v) s') ->
  (o = None -> s' = s) ->
  Kids (eswitch cs) s (el m o) s'.
Proof.
  intros X A cs m o s s' n Hn HS HN. destruct o as [v|]; simpl.
  - apply kids_one. rewrite Hn. now apply HS.
  - rewrite HN by reflexivity. apply kids_nil.
Qed.

Lemma kids_elb : forall {X} (cs : list (string * hnd X)) q (b : bool) (s s' : X),
  (b = true -> Act (switch cs (fun s _ ts => skipping s ts) (snd q)) s (Elem q [] []) s') ->
  (b = false -> s' = s) ->
  Kids (eswitch cs) s (elb q b) s'.
Proof.
  intros X cs q b s s' HT HF. destruct b; simpl.
  - apply kids_one. now apply HT.
  - rewrite HF by reflexivity. apply kids_nil.
Qed.

Lemma kids_map : forall {X A} (cs : list (string * hnd X)) (m : A -> tree) (add : A -> X -> X) l s,
  (forall v s, In v l -> Act (switch cs (fun s _ ts => skipping s ts) (tname (m v))) s (m v) (add v s)) ->
  Kids (eswitch cs) s (map m l) (fold_left (fun s v => add v s) l s).
Proof.
  intros X A cs m add. induction l as [|v l IH]; intros s HA; simpl.
  - apply kids_nil.
  - eapply kids_cons.
    + apply HA. now left.
    + apply IH. intros. apply HA. now right.
Qed.

(** attributes *)
Lemma attrs_app : forall {X} (f : X -> string -> string -> X * status) a b s s',
  attrs f s a = (s', SOk) -> attrs f s (a ++ b) = attrs f s' b.
Proof.
  induction a as [|[q v] a IH]; intros b s s' HA; simpl in *.
  - inversion HA. reflexivity.
  - destruct (f s (snd q) v) as [s1 []]; try discriminate. now apply IH.
Qed.
