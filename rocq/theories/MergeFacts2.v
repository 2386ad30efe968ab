(** What MergeText keeps: the text cells are never shared in harmless paragraphs. *)
From Coq Require Import String Ascii List Bool Arith NArith ZArith Lia.
From Verif Require Import GoStr Num Lib Types Docx Text Merge SpecApi SpecMerge MergeFacts.
Import ListNotations.
Local Open Scope list_scope.
Local Open Scope string_scope.

(** ** the heap of cells *)
Lemma happ_length : forall h a s, length (happ h a s) = length h.
Proof. induction h; intros [|a'] s; simpl; auto. Qed.
Lemma happ_same : forall h a s, a < length h -> hget (happ h a s) a = hget h a ++ s.
Proof. unfold hget. induction h as [|x h IH]; intros [|a] s L; simpl in *; try lia; auto. apply IH. lia. Qed.
Lemma happ_other : forall h a b s, a <> b -> hget (happ h a s) b = hget h b.
Proof. unfold hget. induction h as [|x h IH]; intros [|a] [|b] s N; simpl; auto; congruence. Qed.
Lemma halloc_get : forall h a, hget (h ++ [""])%list a = hget h a.
Proof.
  intros h a. unfold hget. destruct (lt_dec a (length h)).
  - now rewrite app_nth1.
  - rewrite app_nth2 by lia. rewrite (nth_overflow h) by lia.
    destruct (a - length h) as [|[|]]; reflexivity.
Qed.
Lemma hget_over : forall h a, length h <= a -> hget h a = "".
Proof. intros. apply nth_overflow. lia. Qed.
Lemma chars_app : forall a b, chars (a ++ b) = (chars a ++ chars b)%list.
Proof. induction a; intros; simpl; congruence. Qed.
Lemma empty_true : forall s, empty s = true -> s = "".
Proof. intros s H. now apply String.eqb_eq. Qed.
Lemma empty_false : forall s, empty s = false -> s <> "".
Proof. intros s H. now apply String.eqb_neq. Qed.
Lemma app_not_empty : forall a b, b <> "" -> a ++ b <> "".
Proof. intros [|c a] b N; simpl; [auto|discriminate]. Qed.
Lemma app_not_empty_l : forall a b, a <> "" -> a ++ b <> "".
Proof. intros [|c a] b N; simpl; [congruence|discriminate]. Qed.
Lemma not_empty_false : forall s, s <> "" -> empty s = false.
Proof. intros. now apply String.eqb_neq. Qed.

Definition mcell (c : mchild) : list nat := match c with MCell a => [a] | MRest _ => [] end.
Definition mcells (l : list mchild) : list nat := flat_map mcell l.
Definition icell (i : mitem) : list nat := match i with MRun r => mcells (runR_children r) | MPass _ => [] end.
Definition icells (l : list mitem) : list nat := flat_map icell l.
Definition mpieces (h : heap) (l : list mchild) : list piece := flat_map (fun c => child_pieces (look_child h c)) l.
Definition ipieces (h : heap) (l : list mitem) : list piece := flat_map (fun i => pchild_pieces (look_item h i)) l.

Lemma mcells_app : forall a b, mcells (a ++ b)%list = (mcells a ++ mcells b)%list.
Proof. intros. apply flat_map_app. Qed.
Lemma icells_app : forall a b, icells (a ++ b)%list = (icells a ++ icells b)%list.
Proof. intros. apply flat_map_app. Qed.
Lemma mpieces_app : forall h a b, mpieces h (a ++ b)%list = (mpieces h a ++ mpieces h b)%list.
Proof. intros. apply flat_map_app. Qed.
Lemma ipieces_app : forall h a b, ipieces h (a ++ b)%list = (ipieces h a ++ ipieces h b)%list.
Proof. intros. apply flat_map_app. Qed.
Lemma mcells_rest : forall os, mcells (map MRest os) = [].
Proof. induction os; simpl; auto. Qed.
Lemma mpieces_ext : forall h h' l, (forall a, In a (mcells l) -> hget h' a = hget h a) -> mpieces h' l = mpieces h l.
Proof.
  intros h h' l. induction l as [|c l IH]; intros E; [reflexivity|].
  unfold mpieces, mcells in *. cbn [flat_map] in *. rewrite IH.
  - f_equal. destruct c as [a|c]; [|reflexivity]. cbn. rewrite E; [reflexivity|now left].
  - intros a I. apply E. apply in_or_app. now right.
Qed.
Lemma ipieces_run : forall h r, pchild_pieces (look_item h (MRun r)) = mpieces h (runR_children r).
Proof. intros. cbn. unfold run_pieces, mpieces. cbn. rewrite flat_map_concat_map, map_map, <- flat_map_concat_map. reflexivity. Qed.
Lemma ipieces_ext : forall h h' l, (forall a, In a (icells l) -> hget h' a = hget h a) -> ipieces h' l = ipieces h l.
Proof.
  intros h h' l. induction l as [|i l IH]; intros E; [reflexivity|].
  unfold ipieces, icells in *. cbn [flat_map] in *. rewrite IH.
  - f_equal. destruct i as [r|c]; [|reflexivity]. rewrite !ipieces_run. apply mpieces_ext.
    intros a I. apply E. apply in_or_app. now left.
  - intros a I. apply E. apply in_or_app. now right.
Qed.
Lemma mpieces_rest : forall h os, mpieces h (map MRest os) = flat_map child_pieces os.
Proof. intros. unfold mpieces. rewrite flat_map_concat_map, map_map, <- flat_map_concat_map. reflexivity. Qed.

(** ** collecting the children of a run *)
Lemma collect_text : forall x l h t acc, collect (RText x :: l) h t acc = collect l (happ h t (text_text x)) t acc.
Proof.
  intros. cbn [collect]. destruct (empty (text_text x)) eqn:E; [|reflexivity].
  apply empty_true in E. rewrite E. f_equal.
  clear. revert t. induction h as [|y h IH]; intros t; destruct t; simpl; auto.
  - f_equal. induction y; simpl; congruence.
  - f_equal. apply IH.
Qed.
Lemma collect_rest : forall c l h t acc, is_text c = false ->
  collect (c :: l) h t acc =
  if empty (hget h t) then collect l h t (acc ++ [MRest c])%list
  else collect l (h ++ [""])%list (length h) (acc ++ [MCell t] ++ [MRest c])%list.
Proof. intros c l h t acc E; destruct c; try discriminate E; reflexivity. Qed.

Lemma collect_spec : forall l h t acc h' t' ch,
  t < length h -> ~ In t (mcells acc) -> NoDup (mcells acc) ->
  (forall a, In a (mcells acc) -> a < length h /\ hget h a <> "") ->
  collect l h t acc = (h', t', ch) ->
  mpieces h' ch = (mpieces h acc ++ chars (hget h t) ++ flat_map child_pieces l)%list /\
  NoDup (mcells ch) /\
  (forall a, In a (mcells ch) -> a < length h' /\ hget h' a <> "" /\ (In a (mcells acc) \/ a = t \/ length h <= a)) /\
  length h <= length h' /\ t' < length h' /\ (t' = t \/ length h <= t') /\
  (forall a, a < length h -> a <> t -> hget h' a = hget h a).
Proof.
  induction l as [|c l IH]; intros h t acc h' t' ch Lt Nt ND A C.
  - cbn [collect] in C. destruct (empty (hget h t)) eqn:E.
    + injection C as <- <- <-. apply empty_true in E. rewrite E. cbn. rewrite !app_nil_r.
      split; [reflexivity|]. split; [exact ND|]. split.
      { intros a I. destruct (A a I). auto. }
      split; [lia|]. split; [lia|]. split; [auto|]. auto.
    + injection C as <- <- <-. apply empty_false in E.
      rewrite mpieces_app, mcells_app. cbn. rewrite !app_nil_r.
      split; [reflexivity|]. split.
      { apply NoDup_Add with (a := t) (l := mcells acc).
        - apply Add_app_inv || (rewrite <- (app_nil_r (mcells acc)) at 1; apply Add_app).
        - split; [exact ND|exact Nt]. }
      split.
      { intros a I. apply in_app_or in I as [I|[<-|[]]]; [destruct (A a I); auto|auto]. }
      split; [lia|]. split; [lia|]. split; [auto|]. auto.
  - destruct (is_text c) eqn:T.
    + destruct c as [x| | |]; try discriminate T. rewrite collect_text in C.
      apply IH in C.
      * destruct C as (P & N & F & L & Lt' & Et & K). rewrite happ_length in *.
        rewrite happ_same in P by exact Lt. rewrite chars_app in P.
        split.
        { rewrite P. rewrite (mpieces_ext h (happ h t (text_text x)) acc).
          - cbn [flat_map child_pieces]. now rewrite <- app_assoc.
          - intros a I. apply happ_other. intros ->. contradiction. }
        split; [exact N|]. split; [exact F|]. split; [exact L|]. split; [exact Lt'|]. split; [exact Et|].
        intros a La Na. rewrite K by assumption. apply happ_other. congruence.
      * now rewrite happ_length.
      * exact Nt.
      * exact ND.
      * intros a I. rewrite happ_length. destruct (A a I). split; [assumption|].
        rewrite happ_other; [assumption|]. intros ->. contradiction.
    + rewrite collect_rest in C by exact T.
      assert (CP : child_pieces c = [Obj c]) by (destruct c; try discriminate T; reflexivity).
      destruct (empty (hget h t)) eqn:E.
      * apply empty_true in E. rewrite E. cbn [chars app].
        apply IH in C; try assumption.
        -- destruct C as (P & N & F & L & Lt' & Et & K).
           split.
           { rewrite P, E, mpieces_app. cbn [flat_map chars app]. unfold mpieces at 2. cbn [flat_map look_child].
             rewrite app_nil_r. now rewrite <- app_assoc. }
           split; [exact N|]. split.
           { intros a I. destruct (F a I) as (? & ? & O). rewrite mcells_app in O. cbn in O. rewrite app_nil_r in O. auto. }
           auto.
        -- rewrite mcells_app. cbn. now rewrite app_nil_r.
        -- rewrite mcells_app. cbn. now rewrite app_nil_r.
        -- intros a I. rewrite mcells_app in I. cbn in I. rewrite app_nil_r in I. auto.
      * apply empty_false in E.
        assert (Ec : mcells (acc ++ [MCell t] ++ [MRest c])%list = (mcells acc ++ [t])%list).
        { rewrite !mcells_app. reflexivity. }
        assert (B : forall a, In a (mcells acc ++ [t])%list -> a < length h /\ hget h a <> "").
        { intros a I. apply in_app_or in I as [I|[<-|[]]]; auto. }
        apply IH in C.
        -- destruct C as (P & N & F & L & Lt' & Et & K). rewrite Ec in F. rewrite app_length in *. cbn [length] in *.
           split.
           { rewrite P, halloc_get. rewrite (hget_over h (length h)) by lia.
             cbn [chars app]. rewrite (mpieces_ext h (h ++ [""])%list) by (intros; apply halloc_get).
             rewrite !mpieces_app. cbn [flat_map]. unfold mpieces at 2 3. cbn [flat_map look_child child_pieces text_text].
             rewrite !app_nil_r. rewrite <- !app_assoc. reflexivity. }
           split; [exact N|]. split.
           { intros a I. destruct (F a I) as (? & ? & O). split; [assumption|]. split; [assumption|].
             destruct O as [O|[->|O]]; [|right; right; lia|right; right; lia].
             apply in_app_or in O as [O|[<-|[]]]; auto. }
           split; [lia|]. split; [exact Lt'|]. split; [right; lia|].
           intros a La Na. rewrite K by lia. apply halloc_get.
        -- rewrite app_length. cbn. lia.
        -- rewrite Ec. intros I. destruct (B _ I). lia.
        -- rewrite Ec. apply NoDup_Add with (a := t) (l := mcells acc).
           ++ rewrite <- (app_nil_r (mcells acc)) at 1. apply Add_app.
           ++ split; [exact ND|exact Nt].
        -- rewrite Ec. intros a I. rewrite app_length. cbn. destruct (B a I). rewrite halloc_get. split; [lia|assumption].
Qed.

Lemma blank_text : forall c, blank c = true -> exists x, c = RText x /\ text_text x = "".
Proof. intros [x| | |] B; try discriminate B. exists x. split; [reflexivity|]. now apply String.eqb_eq. Qed.
Lemma not_blank_text : forall x, blank (RText x) = false -> text_text x <> "".
Proof. intros x B. now apply String.eqb_neq. Qed.

Lemma collect_ends : forall l h t acc h' t' ch, t < length h ->
  ends_text (negb (empty (hget h t))) l = true -> collect l h t acc = (h', t', ch) -> exists c0, ch = (c0 ++ [MCell t'])%list.
Proof.
  induction l as [|c l IH]; intros h t acc h' t' ch Lt E C.
  - cbn [ends_text collect] in *. destruct (empty (hget h t)); [discriminate|]. injection C as <- <- <-. eauto.
  - destruct (is_text c) eqn:T.
    + destruct c as [x| | |]; try discriminate T. rewrite collect_text in C. cbn [ends_text] in E.
      eapply IH; [| |exact C]; [now rewrite happ_length|]. rewrite happ_same by exact Lt.
      destruct (blank (RText x)) eqn:B.
      * apply String.eqb_eq in B. rewrite B. replace (hget h t ++ "") with (hget h t); [exact E|]. clear. induction (hget h t); simpl; congruence.
      * apply not_blank_text in B. rewrite (not_empty_false (hget h t ++ text_text x)) by (now apply app_not_empty). exact E.
    + rewrite collect_rest in C by exact T. cbn [ends_text] in E.
      assert (B : blank c = false) by (destruct c; try discriminate T; reflexivity). rewrite B, T in E.
      destruct (empty (hget h t)) eqn:X.
      * eapply IH; [| |exact C]; [exact Lt|]. rewrite X. exact E.
      * eapply IH; [| |exact C]; [rewrite app_length; cbn; lia|]. rewrite halloc_get, hget_over by lia. exact E.
Qed.

Lemma collect_texts : forall l h t acc h' t' ch, forallb is_text l = true -> collect l h t acc = (h', t', ch) ->
  t' = t /\ (ch = acc \/ ch = (acc ++ [MCell t])%list).
Proof.
  induction l as [|c l IH]; intros h t acc h' t' ch F C.
  - cbn [collect] in C. destruct (empty (hget h t)); injection C as <- <- <-; auto.
  - cbn [forallb] in F. apply andb_prop in F as [T F].
    destruct c as [x| | |]; try discriminate T. rewrite collect_text in C. eauto.
Qed.

Lemma collect_late : forall l h t acc h' t' ch, hget h t = "" -> late_text l = true -> collect l h t acc = (h', t', ch) ->
  t' = t /\ exists os, ch = (acc ++ map MRest os)%list \/ ch = (acc ++ map MRest os ++ [MCell t])%list.
Proof.
  induction l as [|c l IH]; intros h t acc h' t' ch E F C.
  - cbn [collect] in C. rewrite E in C. cbn in C. injection C as <- <- <-. split; [reflexivity|].
    exists []. left. now rewrite app_nil_r.
  - cbn [late_text] in F. destruct (is_text c) eqn:T.
    + destruct c as [x| | |]; try discriminate T. rewrite collect_text in C.
      destruct (blank (RText x)) eqn:B.
      * cbn [orb] in F. apply String.eqb_eq in B. rewrite B in C. eapply IH; [|exact F|exact C].
        destruct (lt_dec t (length h)); [rewrite happ_same by assumption; now rewrite E|].
        apply hget_over. rewrite happ_length. lia.
      * cbn [orb is_text negb] in F. destruct (collect_texts _ _ _ _ _ _ _ F C) as [-> K].
        split; [reflexivity|]. exists []. cbn. rewrite app_nil_r. tauto.
    + rewrite collect_rest in C by exact T. rewrite E in C. cbn in C.
      cbn [negb] in F. rewrite orb_true_r in F.
      destruct (IH _ _ _ _ _ _ E F C) as (-> & os & K). split; [reflexivity|]. exists (c :: os).
      rewrite <- !app_assoc in K. exact K.
Qed.

(** the children collected from a harmless run: perhaps a text, other children,
    perhaps a text, which is the last cell *)
Lemma collect_shape : forall l h t acc h' t' ch, late_text (drop_text l) = true -> collect l h t acc = (h', t', ch) ->
  exists lead os tail, ch = (acc ++ lead ++ map MRest os ++ tail)%list /\
    (tail = [] \/ tail = [MCell t']) /\
    (lead = [] \/ os <> [] /\ lead = [MCell t]).
Proof.
  induction l as [|c l IH]; intros h t acc h' t' ch F C.
  - exists [], []. cbn [collect] in C. destruct (empty (hget h t)); injection C as <- <- <-.
    + exists []. cbn. rewrite app_nil_r. auto.
    + exists [MCell t]. cbn. auto.
  - cbn [drop_text] in F. destruct (is_text c) eqn:T.
    + destruct c as [x| | |]; try discriminate T. rewrite collect_text in C. eauto.
    + rewrite collect_rest in C by exact T.
      cbn [late_text] in F. rewrite T in F. cbn [negb] in F. rewrite orb_true_r in F.
      destruct (empty (hget h t)) eqn:X.
      * apply empty_true in X. destruct (collect_late _ _ _ _ _ _ _ X F C) as (-> & os & K).
        rewrite <- !app_assoc in K. exists [], (c :: os). cbn.
        destruct K as [->| ->]; [exists []|exists [MCell t]]; cbn; rewrite ?app_nil_r; auto.
      * assert (X' : hget (h ++ [""])%list (length h) = "") by (rewrite halloc_get; apply hget_over; lia).
        destruct (collect_late _ _ _ _ _ _ _ X' F C) as (-> & os & K).
        rewrite <- !app_assoc in K. exists [MCell t], (c :: os). cbn in *.
        destruct K as [->| ->]; [exists []|exists [MCell (length h)]]; cbn; rewrite ?app_nil_r;
          (split; [reflexivity|]; split; [auto|right; split; [discriminate|reflexivity]]).
Qed.
Lemma collect_shape_late : forall l h t h' t' ch, hget h t = "" -> late_text l = true -> collect l h t [] = (h', t', ch) ->
  exists os tail, ch = (map MRest os ++ tail)%list /\ (tail = [] \/ tail = [MCell t']).
Proof.
  intros l h t h' t' ch E F C. destruct (collect_late _ _ _ _ _ _ _ E F C) as (-> & os & [->| ->]).
  - exists os, []. rewrite app_nil_r. auto.
  - exists os, [MCell t]. auto.
Qed.

(** ** adding to the previous run *)
Lemma merge_into_fresh : forall os tail h pt t acc,
  pt < length h -> hget h pt = "" -> (tail = [] \/ tail = [MCell t] /\ t <> pt /\ hget h t <> "") ->
  exists h2, merge_into (map MRest os ++ tail) h pt false t acc = (h2, (acc ++ map MRest os ++ tail)%list) /\
    length h2 = length h /\ forall a, a <> pt -> hget h2 a = hget h a.
Proof.
  induction os as [|o os IH]; intros tail h pt t acc L E T; cbn [map app].
  - destruct T as [->|(-> & N & Nt)].
    + cbn [merge_into]. rewrite E. cbn. exists h. rewrite app_nil_r. auto.
    + cbn [merge_into]. rewrite (not_empty_false _ Nt).
      rewrite happ_same by exact L. rewrite E. cbn [append]. rewrite (not_empty_false _ Nt).
      exists (happ h pt (hget h t)). split; [reflexivity|]. split; [apply happ_length|].
      intros a Na. apply happ_other. congruence.
  - cbn [merge_into]. rewrite E. cbn [empty String.eqb].
    destruct (IH tail h pt t (acc ++ [MRest o])%list L E T) as (h2 & M & R). exists h2.
    rewrite M. rewrite <- app_assoc. auto.
Qed.

Lemma last_some : forall (l : list mchild) x, last (map Some (l ++ [x])) None = Some x.
Proof. intros. rewrite map_app. cbn. apply last_last. Qed.

(** with the cell [pt] at the end of the previous run *)
Lemma merge_into_last : forall lead os tail h pt t acc,
  pt < length h -> hget h pt <> "" -> t < length h ->
  (tail = [] \/ tail = [MCell t] /\ t <> pt /\ hget h t <> "") ->
  (lead = [] \/ os <> [] /\ exists a, lead = [MCell a] /\ a <> pt /\ hget h a <> "") ->
  exists h2 x tl, merge_into (lead ++ map MRest os ++ tail) h pt true t acc = (h2, (acc ++ tl)%list) /\
    (tl = (map MRest os ++ tail)%list \/ tl = []) /\ length h <= length h2 /\
    hget h2 pt = hget h pt ++ x /\
    (forall a, a <> pt -> a < length h -> hget h2 a = hget h a) /\
    (chars x ++ mpieces h tl)%list = mpieces h (lead ++ map MRest os ++ tail).
Proof.
  intros lead os tail h pt t acc L E Lt T LD.
  assert (BODY : forall h0 x, length h0 = length h -> hget h0 pt <> "" -> (forall a, a <> pt -> hget h0 a = hget h a) ->
    hget h0 pt = hget h pt ++ x -> os <> [] ->
    exists h2 tl, merge_into (map MRest os ++ tail) h0 pt true t acc = (h2, (acc ++ tl)%list) /\
     tl = (map MRest os ++ tail)%list /\ length h <= length h2 /\ hget h2 pt = hget h pt ++ x /\
     (forall a, a <> pt -> a < length h -> hget h2 a = hget h a)).
  { intros h0 x L0 E0 K X NO. destruct os as [|o os]; [congruence|]. cbn [map app merge_into].
    rewrite (not_empty_false _ E0). cbn [halloc].
    assert (T0 : tail = [] \/ tail = [MCell t] /\ t <> length h0 /\ hget (h0 ++ [""])%list t <> "").
    { destruct T as [->|(-> & N & Nt)]; [auto|]. right. split; [reflexivity|]. split; [lia|]. rewrite halloc_get, K; auto. }
    destruct (merge_into_fresh os tail (h0 ++ [""])%list (length h0) t (acc ++ [MRest o])%list) as (h2 & M & L2 & R).
    - rewrite app_length. cbn. lia.
    - rewrite halloc_get. apply hget_over. lia.
    - exact T0.
    - exists h2, (MRest o :: map MRest os ++ tail). rewrite M. rewrite <- app_assoc. split; [reflexivity|].
      split; [reflexivity|]. rewrite app_length in L2. cbn in L2. split; [lia|]. split.
      + rewrite R by lia. rewrite halloc_get. exact X.
      + intros a Na La. rewrite R by lia. rewrite halloc_get. auto. }
  destruct LD as [->|(NO & a & -> & Na & Ea)].
  - cbn [app]. destruct os as [|o os].
    + cbn [map app]. destruct T as [->|(-> & N & Nt)].
      * cbn [merge_into]. rewrite (not_empty_false _ E). exists h, "", []. rewrite app_nil_r.
        split; [reflexivity|]. split; [auto|]. split; [lia|]. split; [|auto].
        clear. induction (hget h pt); simpl; congruence.
      * cbn [merge_into]. rewrite (not_empty_false _ Nt). rewrite happ_same by exact L.
        rewrite (not_empty_false (hget h pt ++ hget h t)) by (now apply app_not_empty).
        exists (happ h pt (hget h t)), (hget h t), []. rewrite app_nil_r.
        split; [reflexivity|]. split; [auto|]. rewrite happ_length. split; [lia|].
        split; [now apply happ_same|]. split; [intros; apply happ_other; congruence|]. reflexivity.
    + destruct (BODY h "" eq_refl E (fun _ _ => eq_refl)) as (h2 & tl & M & -> & R1 & R2 & R3).
      * clear. induction (hget h pt); simpl; congruence.
      * discriminate.
      * exists h2, "", (map MRest (o :: os) ++ tail)%list. rewrite M. repeat (split; [auto|]). reflexivity.
  - cbn [app merge_into]. rewrite (not_empty_false _ Ea).
    destruct (BODY (happ h pt (hget h a)) (hget h a)) as (h2 & tl & M & -> & R1 & R2 & R3).
    + apply happ_length.
    + rewrite happ_same by exact L. now apply app_not_empty.
    + intros b Nb. apply happ_other. congruence.
    + now apply happ_same.
    + exact NO.
    + exists h2, (hget h a), (map MRest os ++ tail)%list. rewrite M. repeat (split; [auto|]). reflexivity.
Qed.
