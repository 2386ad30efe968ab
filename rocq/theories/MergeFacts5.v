(** What MergeText does to every paragraph: from the heap of cells to [merged]. *)
From Coq Require Import String Ascii List Bool Arith NArith ZArith Lia.
From Verif Require Import GoStr Num Lib Types Docx Text Merge SpecApi SpecMerge SpecMerge2 MergeFacts MergeFacts2.
Import ListNotations.
Local Open Scope list_scope.
Local Open Scope string_scope.

(** ** collecting the children of a run *)
Inductive lay (h : heap) (b n t : nat) : list mchild -> list (string * rchild) -> Prop :=
  | lay_nil : lay h b n t [] []
  | lay_obj : forall o ch a, lay h b n t ch a -> lay h b n t (MRest o :: ch) (("", o) :: a)
  | lay_cell : forall c s o ch a, hget h c = s -> s <> "" -> b <= c < n -> c <> t -> lay h b n t ch a ->
      lay h b n t (MCell c :: MRest o :: ch) ((s, o) :: a).
Definition prepend (s : string) (x : list (string * rchild) * string) : list (string * rchild) * string :=
  match x with
  | ((s', o) :: a, z) => ((s ++ s', o) :: a, z)
  | ([], z) => ([], s ++ z)
  end.
Lemma prepend_prepend : forall s t x, prepend s (prepend t x) = prepend (s ++ t) x.
Proof. intros s t [[|[s' o] a] z]; cbn; now rewrite sapp_assoc. Qed.
Lemma prepend_nil : forall x, prepend "" x = x.
Proof. intros [[|[s o] a] z]; reflexivity. Qed.
Lemma segments_text : forall t l, segments (RText t :: l) = prepend (text_text t) (segments l).
Proof. intros. cbn. destruct (segments l) as [[|[s o] a] z]; reflexivity. Qed.
Lemma segments_obj : forall o l, is_text o = false -> segments (o :: l) = (let (a, z) := segments l in (("", o) :: a, z)).
Proof. intros o l E. destruct o; try discriminate E; reflexivity. Qed.
Lemma lay_ext : forall h h' b n t ch a, lay h b n t ch a ->
  (forall c, b <= c < n -> c <> t -> hget h' c = hget h c) -> lay h' b n t ch a.
Proof.
  intros h h' b n t ch a L K. induction L as [|o ch a L IH|c s o ch a E N B D L IH]; [constructor|constructor; auto|].
  constructor; auto. now rewrite K.
Qed.

Definition cell_if (z : string) (t : nat) : list mchild := if empty z then [] else [MCell t].
Lemma collect_exactly : forall l b h t acc h' t' ch,
  b <= t < length h -> collect l h t acc = (h', t', ch) ->
  exists ch0 a z, prepend (hget h t) (segments l) = (a, z) /\ lay h' b (length h') t' ch0 a /\
  ch = (acc ++ ch0 ++ cell_if z t')%list /\ hget h' t' = z /\ b <= t' < length h' /\ length h <= length h' /\ (t' = t \/ length h <= t') /\
  (forall c, c < length h -> c <> t -> hget h' c = hget h c).
Proof.
  induction l as [|c l IH]; intros b h t acc h' t' ch Lt C.
  - cbn [collect] in C. exists [], [], (hget h t). cbn [segments prepend]. rewrite sapp_nil_r.
    unfold cell_if. destruct (empty (hget h t)) eqn:E; injection C as <- <- <-; (split; [reflexivity|]); (split; [constructor|]).
    + cbn. rewrite app_nil_r. repeat split; auto; lia.
    + repeat split; auto; lia.
  - destruct (is_text c) eqn:T.
    + destruct c as [x| | |]; try discriminate T. rewrite collect_text in C.
      apply (IH b) in C; [|now rewrite happ_length].
      destruct C as (ch0 & a & z & P & La & Ec & Ez & Lt' & Le & Et & K).
      rewrite happ_same in P by lia. rewrite happ_length in *.
      exists ch0, a, z. rewrite segments_text, prepend_prepend. split; [exact P|]. split; [exact La|].
      split; [exact Ec|]. split; [exact Ez|]. split; [exact Lt'|]. split; [exact Le|]. split; [exact Et|].
      intros c Lc Nc. rewrite K by assumption. apply happ_other. congruence.
    + rewrite collect_rest in C by exact T. rewrite (segments_obj _ _ T).
      destruct (empty (hget h t)) eqn:E.
      * apply empty_true in E. rewrite E.
        apply (IH b) in C; [|exact Lt]. rewrite E in C. destruct C as (ch0 & a & z & P & La & Ec & R).
        rewrite prepend_nil in P. rewrite P. exists (MRest c :: ch0), (("", c) :: a), z. cbn [prepend append].
        split; [reflexivity|]. split; [now constructor|]. split; [|exact R].
        rewrite Ec. now rewrite <- app_assoc.
      * apply empty_false in E. apply (IH b) in C; [|rewrite app_length; cbn; lia].
        destruct C as (ch0 & a & z & P & La & Ec & Ez & Lt' & Le & Et & K).
        rewrite halloc_get, hget_over in P by lia. rewrite prepend_nil in P. rewrite P.
        rewrite app_length in *. cbn [length] in *.
        assert (Kt : hget h' t = hget h t). { rewrite K by lia. apply halloc_get. }
        assert (Nt : t' <> t).
        { lia. }
        exists (MCell t :: MRest c :: ch0), ((hget h t, c) :: a), z. cbn [prepend]. rewrite sapp_nil_r.
        split; [reflexivity|]. split.
        { constructor; auto; lia. }
        split. { rewrite Ec. now rewrite <- app_assoc. }
        split; [exact Ez|]. split; [exact Lt'|]. split; [lia|]. split; [lia|].
        intros d Ld Nd. rewrite K by lia. apply halloc_get.
Qed.

(** ** adding them to a run that ends with an object, and to one that ends with text *)
Definition misplaced (t : nat) (x : string * rchild) : list mchild :=
  if empty (fst x) then [MRest (snd x)] else [MCell t; MRest (snd x)].
Definition mbody (t : nat) (a : list (string * rchild)) (z : string) : list mchild :=
  (flat_map (misplaced t) a ++ cell_if z t)%list.

Lemma into_fresh : forall b n t ch0 a h pt z acc h' acc', lay h b n t ch0 a ->
  b <= t < n -> n <= pt < length h -> hget h pt = "" -> hget h t = z ->
  merge_into (ch0 ++ cell_if z t)%list h pt false t acc = (h', acc') ->
  acc' = (acc ++ mbody t a z)%list /\ length h <= length h' /\ (forall c, c < n -> hget h' c = hget h c).
Proof.
  intros b n t ch0 a h pt z acc h' acc' La. revert pt acc h' acc'.
  assert (G : forall hh pt acc h' acc', (forall c, c < n -> hget hh c = hget h c) -> b <= t < n -> n <= pt < length hh ->
    hget hh pt = "" -> hget h t = z -> merge_into (ch0 ++ cell_if z t)%list hh pt false t acc = (h', acc') ->
    acc' = (acc ++ mbody t a z)%list /\ length hh <= length h' /\ (forall c, c < n -> hget h' c = hget hh c)).
  2:{ intros. eapply G; eauto. }
  induction La as [|o ch a La IH|c s o ch a E N B D La IH]; intros hh pt acc h' acc' F Lt Lp Ep Ez M.
  - unfold mbody, cell_if in *. cbn [flat_map app] in *. destruct (empty z) eqn:E; cbn [app merge_into] in M.
    + rewrite Ep in M. cbn in M. injection M as <- <-. rewrite app_nil_r. auto.
    + assert (Et : hget hh t = z) by (rewrite F by lia; exact Ez). rewrite Et, E in M.
      rewrite happ_same in M by lia. rewrite Ep in M. cbn [append] in M. rewrite E in M.
      injection M as <- <-. rewrite happ_length. split; [reflexivity|]. split; [lia|].
      intros c Lc. apply happ_other. lia.
  - cbn [app merge_into] in M. rewrite Ep in M. cbn in M. apply IH in M; auto.
    destruct M as (-> & Le & K). unfold mbody. cbn. rewrite <- app_assoc. auto.
  - cbn [app merge_into] in M. assert (Ec : hget hh c = s) by (rewrite F by lia; exact E).
    rewrite Ec in M. rewrite (not_empty_false s N) in M. rewrite happ_same in M by lia. rewrite Ep in M. cbn [append] in M.
    rewrite (not_empty_false s N) in M. cbn [halloc] in M. unfold halloc in M. rewrite happ_length in M.
    apply IH in M.
    + destruct M as (-> & Le & K). rewrite app_length, happ_length in Le. cbn [length] in Le.
      unfold mbody, misplaced. cbn [flat_map fst snd]. rewrite (not_empty_false s N). split; [now rewrite <- !app_assoc|].
      split; [lia|]. intros d Ld. rewrite K by exact Ld. rewrite halloc_get. apply happ_other. lia.
    + intros d Ld. rewrite halloc_get, happ_other by lia. now apply F.
    + exact Lt.
    + rewrite app_length, happ_length. cbn. lia.
    + rewrite halloc_get, hget_over; [reflexivity|]. rewrite happ_length. lia.
    + exact Ez.
Qed.

Lemma into_open : forall b n t ch0 a h pt z acc h' acc', lay h b n t ch0 a ->
  b <= t < n -> pt < b -> n <= length h -> hget h pt <> "" -> hget h t = z ->
  merge_into (ch0 ++ cell_if z t)%list h pt true t acc = (h', acc') ->
  length h <= length h' /\ (forall c, c < n -> c <> pt -> hget h' c = hget h c) /\
  match a with
  | [] => acc' = acc /\ hget h' pt = hget h pt ++ z
  | x :: a' => acc' = (acc ++ MRest (snd x) :: mbody t a' z)%list /\ hget h' pt = hget h pt ++ fst x
  end.
Proof.
  intros b n t ch0 a h pt z acc h' acc' La Lt Lp Ln Np Ez M.
  assert (Rest : forall o ch a' hh, lay h b n t ch a' -> (forall c, c < n -> c <> pt -> hget hh c = hget h c) -> hget hh pt <> "" ->
    length hh = length h -> merge_into (MRest o :: (ch ++ cell_if z t))%list hh pt true t acc = (h', acc') ->
    length h <= length h' /\ (forall c, c < n -> c <> pt -> hget h' c = hget h c) /\
    acc' = (acc ++ MRest o :: mbody t a' z)%list /\ hget h' pt = hget hh pt).
  { intros o ch a' hh La' F Nh Lh Mh. cbn [merge_into] in Mh. rewrite (not_empty_false _ Nh) in Mh. cbn in Mh.
    apply (into_fresh b n t ch a') in Mh.
    - destruct Mh as (-> & Le & K). rewrite app_length in Le. cbn in Le. split; [lia|].
      split. { intros c Lc Nc. rewrite K by exact Lc. rewrite halloc_get. now apply F. }
      split. { now rewrite <- app_assoc. }
      rewrite K by lia. apply halloc_get.
    - apply (lay_ext h); auto. intros c B _. rewrite halloc_get. apply F; lia.
    - exact Lt.
    - rewrite app_length. cbn. lia.
    - rewrite halloc_get. apply hget_over. lia.
    - rewrite halloc_get, F by lia. exact Ez. }
  destruct La as [|o ch a La|c s o ch a E N B D La].
  - unfold cell_if in M. cbn [app] in M. destruct (empty z) eqn:E; cbn [merge_into] in M.
    + rewrite (not_empty_false _ Np) in M. injection M as <- <-. apply empty_true in E. rewrite E, sapp_nil_r. auto.
    + rewrite Ez, E in M. destruct (empty (hget (happ h pt z) pt)) eqn:E2.
      { apply empty_true in E2. rewrite happ_same in E2 by lia. now apply app_not_empty_l in E2. }
      injection M as <- <-. rewrite happ_length. split; [lia|]. split; [intros; now apply happ_other; auto|].
      split; [reflexivity|]. apply happ_same. lia.
  - apply (Rest o ch a h) in M; auto. destruct M as (Le & K & -> & E). cbn [fst snd]. rewrite E, sapp_nil_r. auto.
  - cbn [app] in M. change (merge_into (MCell c :: (MRest o :: (ch ++ cell_if z t)))%list h pt true t acc = (h', acc')) in M.
    cbn [merge_into] in M. rewrite E, (not_empty_false _ N) in M.
    apply (Rest o ch a) in M; auto.
    + destruct M as (Le & K & -> & Eh). cbn [fst snd]. rewrite Eh, happ_same by lia. auto.
    + intros d Ld Nd. apply happ_other. auto.
    + rewrite happ_same by lia. now apply app_not_empty_l.
    + apply happ_length.
Qed.

(** ** a run under construction: what is settled, and where the open text stands *)
Definition slot := option rchild.
Definition fill (u : string) (tm : list slot) : list rchild :=
  map (fun x => match x with Some c => c | None => plain u end) tm.
Definition settled (h : heap) (t : nat) (m : mchild) (x : slot) : Prop :=
  match x with
  | None => m = MCell t
  | Some c => look_child h m = c /\ (forall a, m = MCell a -> a <> t /\ a < length h)
  end.
Definition not_cell (acc : list mchild) : Prop := match last (map Some acc) None with Some (MCell _) => False | _ => True end.
Definition state (h : heap) (t : nat) (acc : list mchild) (tm : list slot) (u : string) : Prop :=
  Forall2 (settled h t) acc tm /\ hget h t = u /\ t < length h /\
  (u = "" -> not_cell acc) /\ (u <> "" -> last (map Some acc) None = Some (MCell t)).
Definition slot_if (z : string) : list slot := if empty z then [] else [None].
Definition displaced (x : string * rchild) : list slot := if empty (fst x) then [Some (snd x)] else [None; Some (snd x)].
Definition tbody (a : list (string * rchild)) (z : string) : list slot := (flat_map displaced a ++ slot_if z)%list.

Lemma fill_app : forall u a b, fill u (a ++ b)%list = (fill u a ++ fill u b)%list.
Proof. intros. apply map_app. Qed.
Lemma fill_some : forall u l, fill u (map Some l) = l.
Proof. intros u l. unfold fill. rewrite map_map. apply map_id. Qed.
Lemma state_look : forall h t acc tm u, state h t acc tm u -> map (look_child h) acc = fill u tm.
Proof.
  intros h t acc tm u (F & E & _). induction F as [|m x acc tm S F IH]; [reflexivity|]. cbn. f_equal; [|exact IH].
  destruct x as [c|]; cbn in S; [apply S|]. subst m. cbn. now rewrite E.
Qed.
Lemma state_cells : forall h t acc tm u, state h t acc tm u -> forall a, In a (mcells acc) -> a < length h.
Proof.
  intros h t acc tm u (F & E & L & _). induction F as [|m x acc tm S F IH]; intros a I; [destruct I|].
  change (In a (mcell m ++ mcells acc)%list) in I. apply in_app_or in I as [I|I]; [|now apply IH].
  destruct m as [c|c]; [|destruct I]. destruct I as [<-|[]]. destruct x as [x|]; cbn in S; [now apply S|congruence].
Qed.
(** everything settled, the open text included *)
Lemma settle : forall h t acc tm h' t' v, Forall2 (settled h t) acc tm -> t < length h -> length h <= length h' ->
  (forall c, c < length h -> c <> t -> hget h' c = hget h c) -> hget h' t = v -> (forall a, In a (mcells acc) -> a <> t') ->
  Forall2 (settled h' t') acc (map Some (fill v tm)).
Proof.
  intros h t acc tm h' t' v F Lt Le K Ev D. induction F as [|m x acc tm S F IH]; [constructor|]. cbn. constructor.
  - destruct x as [c|]; cbn in S |- *.
    + destruct S as [S A]. split.
      * rewrite <- S. destruct m as [a|]; [|reflexivity]. destruct (A a eq_refl). cbn. rewrite K by assumption. reflexivity.
      * intros a ->. destruct (A a eq_refl). split; [|lia]. apply D. cbn. now left.
    + subst m. split; [cbn; now rewrite Ev|]. intros a E. injection E as <-. split; [|lia]. apply D. cbn. now left.
  - apply IH. intros a I. apply D. cbn. apply in_or_app. now right.
Qed.
Lemma mbody_settled : forall h t a z, t < length h -> Forall2 (settled h t) (mbody t a z) (tbody a z).
Proof.
  intros h t a z L. unfold mbody, tbody. apply Forall2_app.
  - induction a as [|[s o] a IH]; [constructor|]. cbn [flat_map]. apply Forall2_app; [|exact IH].
    assert (O : settled h t (MRest o) (Some o)) by (split; [reflexivity|discriminate]).
    unfold misplaced, displaced. cbn [fst snd]. destruct (empty s); repeat constructor; try exact O; try discriminate.
  - unfold cell_if, slot_if. destruct (empty z); repeat constructor.
Qed.
Lemma last_app1 : forall A (l : list A) x y d, last (l ++ x :: y)%list d = last (x :: y) d.
Proof. induction l as [|a l IH]; intros x y d; [reflexivity|]. rewrite <- (IH x y d). cbn. destruct l; reflexivity. Qed.
Lemma mbody_last : forall acc t a z, z <> "" -> last (map Some (acc ++ mbody t a z)%list) None = Some (MCell t).
Proof.
  intros. unfold mbody, cell_if. rewrite not_empty_false by assumption. rewrite app_assoc, map_app. cbn [map].
  now rewrite last_app1.
Qed.
Lemma mbody_object : forall acc t a, (a = [] -> not_cell acc) -> not_cell (acc ++ mbody t a "")%list.
Proof.
  intros acc t a N. unfold mbody. cbn. rewrite app_nil_r.
  destruct a as [|x a] using rev_ind; [cbn; rewrite app_nil_r; auto|]. clear IHa N.
  rewrite flat_map_app. cbn [flat_map]. rewrite app_nil_r. unfold not_cell. rewrite !map_app, app_assoc.
  unfold misplaced. destruct (empty (fst x)); cbn [map]; rewrite last_app1; exact I.
Qed.
Lemma last_in_cells : forall acc t, last (map Some acc) None = Some (MCell t) -> exists acc', acc = (acc' ++ [MCell t])%list.
Proof.
  intros acc t E. destruct acc as [|m acc] using rev_ind; [discriminate E|]. rewrite map_app in E. cbn [map] in E. rewrite last_app1 in E.
  injection E as ->. now exists acc.
Qed.

(** the template after one more run *)
Definition add (tm : list slot) (u : string) (x : list (string * rchild) * string) : list slot * string :=
  let (a, z) := x in
  if empty u then (map Some (fill u tm) ++ tbody a z, z)%list
  else match a with
       | [] => (tm, u ++ z)
       | y :: a' => (map Some (fill (u ++ fst y) tm) ++ Some (snd y) :: tbody a' z, z)%list
       end.
Lemma merge_step : forall h t acc tm u b ch0 a z t' h1 pt na h2 ch,
  state h t acc tm u -> t < b -> (forall c, In c (mcells acc) -> c < b) -> lay h b (length h) t' ch0 a -> b <= t' < length h -> hget h t' = z ->
  last_cell acc h = (h1, pt, na) -> merge_into (ch0 ++ cell_if z t')%list h1 pt na t' acc = (h2, ch) ->
  exists t2, state h2 t2 ch (fst (add tm u (a, z))) (snd (add tm u (a, z))) /\
  length h <= length h2 /\ (t2 = t \/ b <= t2) /\ (forall c, c < b -> c <> t -> hget h2 c = hget h c).
Proof.
  intros h t acc tm u b ch0 a z t' h1 pt na h2 ch S Lb Lc La Lt Ez C M.
  destruct S as (F & Eu & L & N & O). unfold add. destruct (empty u) eqn:E.
  - apply empty_true in E. specialize (N E). clear O.
    assert (C' : h1 = (h ++ [""])%list /\ pt = length h /\ na = false).
    { unfold last_cell in C. unfold not_cell in N. destruct (last (map Some acc) None) as [[c|c]|]; [destruct N| |];
      unfold halloc in C; injection C as <- <- <-; auto. }
    destruct C' as (-> & -> & ->).
    apply (into_fresh b (length h) t' ch0 a) in M.
    + destruct M as (-> & Le & K). rewrite app_length in Le. cbn in Le.
      assert (K2 : forall c, c < length h -> hget h2 c = hget h c) by (intros; rewrite K by assumption; apply halloc_get).
      exists t'. split; [|split; [lia|split; [right; lia|intros; apply K2; lia]]].
      cbn [fst snd]. split; [|split; [rewrite K2 by lia; exact Ez|split; [lia|split]]].
      * apply Forall2_app; [|apply mbody_settled; lia].
        apply (settle h t acc tm); auto; try lia.
        -- rewrite K2 by lia. exact Eu.
        -- intros c I. specialize (Lc c I). lia.
      * intros ->. apply mbody_object. auto.
      * intros. now apply mbody_last.
    + apply (lay_ext h); auto. intros. apply halloc_get.
    + exact Lt.
    + rewrite app_length. cbn. lia.
    + rewrite halloc_get. now apply hget_over.
    + rewrite halloc_get. exact Ez.
  - apply empty_false in E. specialize (O E). clear N.
    unfold last_cell in C. rewrite O in C. injection C as <- <- <-.
    apply (into_open b (length h) t' ch0 a) in M; auto; [|now rewrite Eu].
    destruct M as (Le & K & M). destruct a as [|y a].
    + destruct M as (-> & Et). exists t. split; [|split; [lia|split; [auto|intros; apply K; lia]]].
      cbn [fst snd]. split; [|split; [rewrite Et, Eu; reflexivity|split; [lia|split]]].
      * clear - F K Le. induction F as [|m x acc tm S F IH]; constructor; auto.
        destruct x as [c|]; cbn in S |- *; [|exact S]. destruct S as [S A]. split.
        -- rewrite <- S. destruct m as [d|]; [|reflexivity]. destruct (A d eq_refl). cbn. now rewrite K.
        -- intros d ->. destruct (A d eq_refl). split; [assumption|lia].
      * intros Z. now apply app_not_empty_l in Z.
      * intros _. exact O.
    + destruct M as (-> & Et). exists t'. split; [|split; [lia|split; [right; lia|intros; apply K; lia]]].
      cbn [fst snd]. split; [|split; [rewrite K by lia; exact Ez|split; [lia|split]]].
      * apply Forall2_app.
        -- apply (settle h t acc tm); auto; try lia.
           ++ now rewrite Et, Eu.
           ++ intros c I. specialize (Lc c I). lia.
        -- constructor; [|apply mbody_settled; lia]. split; [reflexivity|discriminate].
      * intros ->. change (not_cell (acc ++ [MRest (snd y)] ++ mbody t' a "")%list). rewrite app_assoc. apply mbody_object.
        intros _. unfold not_cell. rewrite map_app. cbn [map]. rewrite last_app1. exact I.
      * intros Z. change (last (map Some (acc ++ [MRest (snd y)] ++ mbody t' a z)%list) None = Some (MCell t')).
        rewrite app_assoc. now apply mbody_last.
Qed.

(** ** the runs still to come decide what stands in the open places *)
Definition shown (tm : list slot) (u : string) (rest : list run) : list rchild :=
  (fill (final u rest) tm ++ behind (negb (empty u)) rest)%list.
Lemma final_if : forall z rest, text_if (final z rest) = fill (final z rest) (slot_if z).
Proof.
  intros z rest. unfold text_if, slot_if, final. change ((z =? "")%string) with (empty z). destruct (empty z) eqn:E; [reflexivity|].
  change (((z ++ goes_on rest) =? "")%string) with (empty (z ++ goes_on rest)).
  rewrite not_empty_false; [reflexivity|]. apply app_not_empty_l. now apply empty_false.
Qed.
Lemma tbody_fill : forall t a z, fill t (tbody a z) = (flat_map (instead t) a ++ fill t (slot_if z))%list.
Proof.
  intros t a z. unfold tbody. rewrite fill_app. f_equal. induction a as [|x a IH]; [reflexivity|].
  cbn [flat_map]. rewrite fill_app, IH. f_equal. unfold displaced, instead. change ((fst x =? "")%string) with (empty (fst x)).
  destruct (empty (fst x)); reflexivity.
Qed.
Lemma shown_add : forall tm u r rest,
  shown (fst (add tm u (segments (runR_children r)))) (snd (add tm u (segments (runR_children r)))) rest = shown tm u (r :: rest).
Proof.
  intros tm u r rest. unfold add, shown. cbn [behind goes_on]. unfold final at 2. cbn [goes_on].
  destruct (segments (runR_children r)) as [a z]. change ((u =? "")%string) with (empty u). change ((z =? "")%string) with (empty z).
  destruct (empty u) eqn:E.
  - cbn [fst snd negb]. rewrite fill_app, fill_some, tbody_fill. apply empty_true in E. subst u. rewrite final_if.
    rewrite <- !app_assoc. f_equal. destruct a as [|x a]; [reflexivity|]. cbn [flat_map]. now rewrite <- app_assoc.
  - cbn [negb]. destruct a as [|x a]; cbn [fst snd].
    + unfold final. change ((u ++ z =? "")%string) with (empty (u ++ z)). rewrite not_empty_false by (apply app_not_empty_l; now apply empty_false).
      cbn [negb]. now rewrite sapp_assoc.
    + destruct x as [s o]. cbn [fst snd]. rewrite fill_app, fill_some. change (Some o :: tbody a z) with ([Some o] ++ tbody a z)%list.
      rewrite fill_app, tbody_fill, final_if. cbn [fill map]. rewrite <- !app_assoc. reflexivity.
Qed.

(** ** a new group *)
Definition first_slots (a : list (string * rchild)) : list slot := flat_map (fun x => map Some (text_if (fst x) ++ [snd x])%list) a.
Lemma lay_settled : forall h b n t ch a, n <= length h -> lay h b n t ch a -> Forall2 (settled h t) ch (first_slots a).
Proof.
  intros h b n t ch a Le L. unfold first_slots. induction L as [|o ch a L IH|c s o ch a E N B D L IH]; [constructor| |].
  - constructor; [|exact IH]. split; [reflexivity|discriminate].
  - cbn [flat_map fst snd]. unfold text_if. change ((s =? "")%string) with (empty s). rewrite not_empty_false by exact N.
    constructor; [|constructor; [|exact IH]].
    + split; [cbn; now rewrite E|]. intros d X. injection X as <-. split; [exact D|lia].
    + split; [reflexivity|discriminate].
Qed.
Lemma lay_object : forall h b n t ch a, lay h b n t ch a -> not_cell ch.
Proof.
  intros h b n t ch a L. assert (G : ch = [] \/ exists ch' o, ch = (ch' ++ [MRest o])%list).
  { induction L as [|o ch a L IH|c s o ch a E N B D L IH]; [now left| |]; right.
    - destruct IH as [->|(ch' & o' & ->)]; [exists [], o; reflexivity|exists (MRest o :: ch'), o'; reflexivity].
    - destruct IH as [->|(ch' & o' & ->)]; [exists [MCell c], o; reflexivity|exists (MCell c :: MRest o :: ch'), o'; reflexivity]. }
  destruct G as [->|(ch' & o & ->)]; [exact I|]. unfold not_cell. rewrite map_app. cbn [map]. rewrite last_app1. exact I.
Qed.
Lemma first_state : forall h b t ch a z, lay h b (length h) t ch a -> t < length h -> hget h t = z ->
  state h t (ch ++ cell_if z t)%list (first_slots a ++ slot_if z)%list z.
Proof.
  intros h b t ch a z L Lt Ez. split; [|split; [exact Ez|split; [exact Lt|split]]].
  - apply Forall2_app; [apply (lay_settled h b (length h)); auto|]. unfold cell_if, slot_if. destruct (empty z); repeat constructor.
  - intros ->. cbn. rewrite app_nil_r. eapply lay_object; eassumption.
  - intros N. unfold cell_if. rewrite not_empty_false by exact N. rewrite map_app. cbn [map]. now rewrite last_app1.
Qed.
Lemma shown_first : forall r rest, let (a, z) := segments (runR_children r) in
  joined r rest = mk_runR (runR_space r) (runR_rpr r) (runR_instr r) (shown (first_slots a ++ slot_if z)%list z rest).
Proof.
  intros r rest. unfold joined. destruct (segments (runR_children r)) as [a z]. f_equal. unfold shown.
  rewrite fill_app, final_if, <- app_assoc. f_equal. unfold first_slots. induction a as [|x a IH]; [reflexivity|].
  cbn [flat_map]. rewrite fill_app, fill_some, IH. reflexivity.
Qed.

(** ** the loop *)
Lemma look_items_ext : forall h h' l, (forall c, In c (icells l) -> hget h' c = hget h c) -> map (look_item h') l = map (look_item h) l.
Proof.
  intros h h' l E. apply map_ext_in. intros [r|c] I; [|reflexivity]. cbn. unfold look_run. f_equal. f_equal.
  apply map_ext_in. intros [a|c] J; [|reflexivity]. cbn. rewrite E; [reflexivity|].
  unfold icells. apply in_flat_map. exists (MRun r). split; [exact I|]. cbn. apply in_flat_map. exists (MCell a). split; [exact J|now left].
Qed.
Lemma merged_other : forall ds c l, is_run c = false -> merged ds (c :: l) = c :: merged ds l.
Proof. intros ds c l E. destruct c; try discriminate E; reflexivity. Qed.
Lemma joining_other : forall ds c l, is_run c = false -> joining ds (c :: l) = joining ds l.
Proof. intros ds c l E. destruct c; try discriminate E; reflexivity. Qed.
Lemma decisions_other : forall s q c l, is_run c = false -> decisions s q (c :: l) = decisions s q l.
Proof. intros s q c l E. destruct c; try discriminate E; reflexivity. Qed.
Lemma loop_other : forall f c l s, is_run c = false -> merge_loop f (c :: l) s =
  merge_loop f l (mk_mstate (ms_before s) (ms_prev s) (ms_after s ++ [MPass c])%list (ms_heap s)).
Proof. intros f c l s E. destruct c; try discriminate E; reflexivity. Qed.
Lemma shown_nil : forall tm u, shown tm u [] = fill u tm.
Proof. intros. unfold shown, final. cbn. rewrite app_nil_r. change ((u =? "")%string) with (empty u). destruct (empty u) eqn:E; [apply empty_true in E; now subst|now rewrite sapp_nil_r]. Qed.

Definition by_props (f : rule) (same : option rpr -> option rpr -> bool) : Prop :=
  forall a b, f a b = Ok (same (runR_rpr a) (runR_rpr b)).
Lemma loop_exactly : forall f l bef pr aft h t tm u s',
  state h t (runR_children pr) tm u -> (forall c, In c (icells bef) -> c < length h /\ c <> t) ->
  merge_loop f l (mk_mstate bef (Some pr) (map MPass aft) h) = Ok s' ->
  exists ds, map (look_item (ms_heap s')) (ms_items s') =
    (map (look_item h) bef ++ PRun (mk_runR (runR_space pr) (runR_rpr pr) (runR_instr pr) (shown tm u (joining ds l))) :: aft ++ merged ds l)%list /\
  length ds = length (flat_map run_of l) /\
  forall same, by_props f same -> ds = decisions same (Some (runR_rpr pr)) l.
Proof.
  intros f l. induction l as [|c l IH]; intros bef pr aft h t tm u s' S B M.
  - injection M as <-. exists []. cbn [ms_heap ms_items ms_prev ms_before ms_after joining merged]. rewrite shown_nil, app_nil_r.
    split; [|split; reflexivity]. rewrite map_app. f_equal. cbn [map look_item]. unfold look_run at 1. rewrite (state_look _ _ _ _ _ S). f_equal.
    rewrite map_map. cbn. apply map_id.
  - destruct (is_run c) eqn:R.
    2:{ rewrite loop_other in M by exact R. cbn [ms_before ms_prev ms_after ms_heap] in M.
        change [MPass c] with (map MPass [c]) in M. rewrite <- map_app in M.
        destruct (IH _ _ _ _ _ _ _ _ S B M) as (ds & E & Ln & D). exists ds.
        rewrite E, merged_other, joining_other by exact R. split; [now rewrite <- app_assoc|].
        split. { rewrite Ln. destruct c; try discriminate R; reflexivity. }
        intros same P. rewrite decisions_other by exact R. now apply D. }
    destruct c as [o| |]; try discriminate R. clear R.
    cbn [merge_loop] in M. destruct (merge_run f o _) as [s1| |] eqn:M1; cbn [bind] in M; try discriminate M.
    unfold merge_run in M1. cbn [ms_before ms_prev ms_after ms_heap halloc] in M1. unfold halloc in M1.
    destruct (collect (runR_children o) (h ++ [""])%list (length h) []) as [[h1 t1] ch] eqn:C.
    apply (collect_exactly _ (length h)) in C; [|rewrite app_length; cbn; lia].
    destruct C as (ch0 & a & z & P & La & Ec & Ez & Lt & Le & _ & K).
    rewrite halloc_get, hget_over, prepend_nil in P by lia. cbn [app] in Ec. rewrite app_length in *. cbn [length] in *.
    assert (K1 : forall c, c < length h -> hget h1 c = hget h c) by (intros; rewrite K by lia; apply halloc_get).
    pose proof (state_cells _ _ _ _ _ S) as Cs.
    assert (S1 : state h1 t (runR_children pr) tm u).
    { destruct S as (F & Eu & L & N). split; [|split; [rewrite K1 by exact L; exact Eu|split; [lia|exact N]]].
      clear - F K1 Le. induction F as [|m x acc tm S F IH]; constructor; auto.
      destruct x as [c|]; cbn in S |- *; [|exact S]. destruct S as [S A]. split.
      - rewrite <- S. destruct m as [d|]; [|reflexivity]. destruct (A d eq_refl). cbn. now rewrite K1.
      - intros d ->. destruct (A d eq_refl). split; [assumption|lia]. }
    assert (Lth : t < length h) by apply S.
    pose proof (first_state _ _ _ _ _ _ La (proj2 Lt) Ez) as S2.
    destruct (f (look_run h1 pr) (look_run h1 (mk_runR (runR_space o) (runR_rpr o) (runR_instr o) ch))) as [[|]| |] eqn:Ef; try discriminate M1.
    + destruct (last_cell (runR_children pr) h1) as [[h2 pt] na] eqn:Lc.
      destruct (merge_into ch h2 pt na t1 (runR_children pr)) as [h3 ch'] eqn:Mi. injection M1 as <-.
      rewrite Ec in Mi.
      destruct (merge_step h1 t (runR_children pr) tm u (length h) ch0 a z t1 h2 pt na h3 ch' S1 Lth Cs La Lt Ez Lc Mi) as (t2 & S3 & Le3 & T2 & K3).
      destruct (add tm u (a, z)) as [tm' u'] eqn:Ea. cbn [fst snd] in S3.
      assert (Bb : forall c, In c (icells bef) -> c < length h3 /\ c <> t2).
      { intros c I. destruct (B c I). split; [lia|]. destruct T2 as [->|T2]; [assumption|lia]. }
      destruct (IH bef (set_runR_children ch' pr) aft h3 t2 tm' u' s' S3 Bb M) as (ds & E & Ln & D). exists (true :: ds).
      rewrite E. cbn [joining merged hd tl]. destruct pr as [sp rp ins chs]. cbn [set_runR_children runR_space runR_rpr runR_instr runR_children] in *.
      split; [|split].
      * rewrite (look_items_ext h h3).
        { f_equal. f_equal. f_equal. f_equal. rewrite <- shown_add, P, Ea. reflexivity. }
        intros c I. destruct (B c I). rewrite K3 by assumption. now apply K1.
      * cbn. now rewrite Ln.
      * intros same Q. cbn [decisions]. rewrite (D same Q). rewrite (Q _ _) in Ef. cbn in Ef. injection Ef as ->. reflexivity.
    + injection M1 as <-. cbn [ms_items ms_prev ms_before ms_after] in M.
      change (@nil mitem) with (map MPass []) in M.
      rewrite Ec in M.
      assert (Bb : forall c, In c (icells (ms_items (mk_mstate bef (Some pr) (map MPass aft) h))) -> c < length h1 /\ c <> t1).
      { intros c I. unfold ms_items in I. cbn [ms_prev ms_before ms_after] in I. rewrite icells_app in I. apply in_app_or in I as [I|I].
        - destruct (B c I). split; lia.
        - change (In c (mcells (runR_children pr) ++ icells (map MPass aft))%list) in I. apply in_app_or in I as [I|I].
          + specialize (Cs c I). split; lia.
          + exfalso. clear - I. induction aft as [|x aft IH]; [exact I|]. apply IH, I. }
      specialize (IH _ (mk_runR (runR_space o) (runR_rpr o) (runR_instr o) (ch0 ++ cell_if z t1)%list) [] h1 t1 _ _ s' S2 Bb M).
      destruct IH as (ds & E & Ln & D). exists (false :: ds).
      rewrite E. cbn [joining merged hd tl runR_space runR_rpr runR_instr]. split; [|split].
      * rewrite shown_nil. unfold ms_items. cbn [ms_prev ms_before ms_after]. rewrite map_app. cbn [map look_item]. unfold look_run at 1.
        rewrite (state_look _ _ _ _ _ S1). rewrite (look_items_ext h h1) by (intros c I; destruct (B c I); now apply K1).
        rewrite <- app_assoc. cbn [app]. f_equal. f_equal. rewrite map_map. cbn [look_item]. rewrite map_id. f_equal. f_equal.
        pose proof (shown_first o (joining ds l)) as J. rewrite P in J. now rewrite J.
      * cbn. now rewrite Ln.
      * intros same Q. cbn [decisions]. rewrite (D same Q). rewrite (Q _ _) in Ef. cbn in Ef. injection Ef as ->. reflexivity.
Qed.

Definition runs_of (l : list pchild) : list run := flat_map run_of l.
Lemma head_exactly : forall f l aft s', merge_loop f l (mk_mstate [] None (map MPass aft) []) = Ok s' ->
  exists ds, map (look_item (ms_heap s')) (ms_items s') = (aft ++ merged (false :: ds) l)%list /\
  length ds = pred (length (runs_of l)) /\
  forall same, by_props f same -> merged (false :: ds) l = merged (decisions same None l) l.
Proof.
  intros f l. induction l as [|c l IH]; intros aft s' M.
  - injection M as <-. exists []. cbn. rewrite map_map. cbn. rewrite map_id, app_nil_r. auto.
  - destruct (is_run c) eqn:R.
    2:{ rewrite loop_other in M by exact R. cbn [ms_before ms_prev ms_after ms_heap] in M.
        change [MPass c] with (map MPass [c]) in M. rewrite <- map_app in M.
        destruct (IH _ _ M) as (ds & E & Ln & D). exists ds.
        rewrite E, merged_other by exact R. split; [now rewrite <- app_assoc|].
        split. { rewrite Ln. destruct c; try discriminate R; reflexivity. }
        intros same P. rewrite merged_other, decisions_other by exact R. f_equal. now apply D. }
    destruct c as [o| |]; try discriminate R. clear R.
    cbn [merge_loop] in M. destruct (merge_run f o _) as [s1| |] eqn:M1; cbn [bind] in M; try discriminate M.
    unfold merge_run in M1. cbn [ms_before ms_prev ms_after ms_heap halloc] in M1. unfold halloc in M1.
    destruct (collect (runR_children o) ([] ++ [""])%list (@length string []) []) as [[h1 t1] ch] eqn:C.
    apply (collect_exactly _ 0) in C; [|cbn; lia].
    destruct C as (ch0 & a & z & P & La & Ec & Ez & Lt & Le & _ & K).
    cbn [app length hget nth] in P. rewrite prepend_nil in P. cbn [app] in Ec.
    injection M1 as <-. rewrite Ec in M.
    pose proof (first_state _ _ _ _ _ _ La (proj2 Lt) Ez) as S2.
    change (@nil mitem) with (map MPass []) in M at 2.
    assert (Bb : forall c, In c (icells (ms_items (mk_mstate [] None (map MPass aft) []))) -> c < length h1 /\ c <> t1).
    { intros c I. exfalso. unfold ms_items in I. cbn in I. clear - I. induction aft as [|x aft IH]; [exact I|]. apply IH, I. }
    destruct (loop_exactly f l _ (mk_runR (runR_space o) (runR_rpr o) (runR_instr o) (ch0 ++ cell_if z t1)%list) [] h1 t1 _ _ s' S2 Bb M) as (ds & E & Ln & D).
    exists ds. rewrite E. cbn [merged hd tl runR_space runR_rpr runR_instr]. split; [|split].
    + unfold ms_items. cbn [ms_prev ms_before ms_after app]. rewrite map_map. cbn [look_item]. rewrite map_id. f_equal. f_equal. f_equal.
      pose proof (shown_first o (joining ds l)) as J. rewrite P in J. now rewrite J.
    + exact Ln.
    + intros same Q. cbn [decisions hd tl]. now rewrite (D same Q).
Qed.

Lemma merge_exactly : forall f p p', merge_text f p = Ok p' -> exists ds, length ds = pred (length (runs p)) /\
  p' = mk_para (para_ppr p) (merged (false :: ds) (para_children p)) (para_file p) /\
  forall same, by_props f same -> merged (false :: ds) (para_children p) = merged (decisions same None (para_children p)) (para_children p).
Proof.
  intros f p p' M. unfold merge_text in M.
  destruct (merge_loop f (para_children p) (mk_mstate [] None [] [])) as [s'| |] eqn:E; cbn [bind] in M; try discriminate M. injection M as <-.
  change (@nil mitem) with (map MPass []) in E at 2. destruct (head_exactly f _ _ _ E) as (ds & L & Ln & D). exists ds. rewrite L. auto.
Qed.
