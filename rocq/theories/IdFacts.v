(** Numbers, names and lookups in a growing registry. *)
From Coq Require Import String Ascii List Bool Arith NArith ZArith Lia.
From Verif Require Import GoStr Num Lib Types Docx Api Keep Copy History RegFacts.
Import ListNotations.
Local Open Scope list_scope.
Local Open Scope string_scope.

Notation B63 := 9223372036854775808%N.
Notation B64 := 18446744073709551616%N.

Lemma uadd1_small : forall n, (n + 1 < B64)%N -> uadd1 n = (n + 1)%N.
Proof. intros. unfold uadd1. apply N.mod_small. auto. Qed.
Lemma int_of_u_small : forall n, (n < B63)%N -> iv (int_of_u n) = Z.of_N n.
Proof.
  intros. unfold int_of_u, i64_of. cbn [iv]. apply wrap64_id. unfold in64.
  apply andb_true_iff; split; [apply Z.leb_le|apply Z.ltb_lt]; lia.
Qed.
Lemma itoa_u_small : forall n, (n < B63)%N -> itoa_u n = utoa n.
Proof.
  intros. unfold itoa_u. rewrite int_of_u_small by auto.
  destruct n; reflexivity.
Qed.

(** consecutive relationship ids *)
Definition rid_name (n : N) : string := "rId" ++ utoa n.
Fixpoint ids_from (n : N) (k : nat) : list string :=
  match k with O => [] | S k' => rid_name (n + 1) :: ids_from (n + 1) k' end.

Lemma rid_name_inj : forall a b, rid_name a = rid_name b -> a = b.
Proof. unfold rid_name; intros a b H. apply sapp_inv_head in H. now apply utoa_inj. Qed.
Lemma ids_from_in : forall k n x, In x (ids_from n k) -> exists m, x = rid_name m /\ (n < m <= n + N.of_nat k)%N.
Proof.
  induction k as [|k IH]; cbn [ids_from In]; intros n x H; [easy|]. destruct H as [<-|H].
  - exists (n + 1)%N. split; auto. lia.
  - destruct (IH _ _ H) as [m [-> B]]. exists m. split; auto. lia.
Qed.
Lemma ids_from_nodup : forall k n, NoDup (ids_from n k).
Proof.
  induction k as [|k IH]; intros n; cbn; constructor; auto.
  intro H. destruct (ids_from_in _ _ _ H) as [m [E B]]. apply rid_name_inj in E. lia.
Qed.
Lemma ids_from_app : forall a b n, ids_from n (a + b) = (ids_from n a ++ ids_from (n + N.of_nat a) b)%list.
Proof.
  induction a as [|a IH]; intros b n; cbn [ids_from app plus].
  - now rewrite N.add_0_r.
  - f_equal. rewrite IH. replace (n + N.of_nat (S a))%N with (n + 1 + N.of_nat a)%N by lia. reflexivity.
Qed.
Lemma ids_from_length : forall k n, length (ids_from n k) = k.
Proof. induction k; cbn; auto. Qed.

Lemma add_rel_new : forall ty tg m g, (rid g + 1 < B63)%N ->
  add_rel ty tg m g = (rid_name (rid g + 1),
    set_rid (rid g + 1)%N (set_rels (rels g ++ [mk_rel (rid_name (rid g + 1)) ty tg m])%list g)).
Proof.
  intros. unfold add_rel, rid_name. rewrite uadd1_small by lia. rewrite itoa_u_small by lia. reflexivity.
Qed.

Lemma steps_rels : forall g g', reg_steps g g' -> exists l, rels g' = (rels g ++ l)%list /\
  ((rid g + N.of_nat (length l) < B63)%N ->
   rid g' = (rid g + N.of_nat (length l))%N /\ map rel_id l = ids_from (rid g) (length l)).
Proof.
  induction 1 as [g|g g1 g2 S SS [l [E B]]].
  - exists []. rewrite app_nil_r. split; auto. intros _. cbn. split; [lia|auto].
  - assert (A : forall ty tg m gg, rels gg = rels g -> rid gg = rid g ->
       rels (snd (add_rel ty tg m gg)) = rels g1 -> rid (snd (add_rel ty tg m gg)) = rid g1 ->
       exists l0, rels g2 = (rels g ++ l0)%list /\
       ((rid g + N.of_nat (length l0) < B63)%N ->
         rid g2 = (rid g + N.of_nat (length l0))%N /\ map rel_id l0 = ids_from (rid g) (length l0))).
    { intros ty tg m gg E1 E2 E3 E4. unfold add_rel in E3, E4. cbn [snd] in E3, E4.
      eexists (_ :: l). rewrite E, <- E3. cbn [rels set_rid set_rels]. rewrite E1, <- app_assoc. split; [reflexivity|].
      cbn [length]. intro L. rewrite <- E4 in B. cbn [rid set_rid] in B. rewrite E2 in B.
      rewrite uadd1_small in B by lia. destruct B as [B1 B2]; [lia|].
      split; [rewrite B1; lia|]. cbn [map rel_id ids_from]. f_equal; [|exact B2].
      rewrite E2, uadd1_small by lia. rewrite itoa_u_small by lia. reflexivity. }
    inversion S; subst.
    + exists l. cbn in *. auto.
    + exists l. cbn in *. auto.
    + eapply (A REL_HYPERLINK l0 REL_TARGETMODE g); auto.
    + pose (nm := "image" ++ itoa_u (uadd1 (imgid g)) ++ "." ++ f).
      apply (A REL_IMAGE ("media/" ++ nm) "" (add_media (nm, d) (set_imgid (uadd1 (imgid g)) g))); reflexivity.
Qed.

(** lookups are stable *)
Lemma refer_app : forall a b id t, refer_target_in a id = Ok t -> refer_target_in (a ++ b)%list id = Ok t.
Proof. induction a as [|r a IH]; cbn; intros; [discriminate|]. destruct (rel_id r =? id); auto. Qed.
Lemma refer_app_new : forall a b id, ~ In id (map rel_id a) -> refer_target_in (a ++ b)%list id = refer_target_in b id.
Proof.
  induction a as [|r a IH]; cbn; intros; auto.
  destruct (String.eqb_spec (rel_id r) id); [exfalso; auto|]. apply IH. auto.
Qed.
Lemma steps_refer : forall g g' id t, reg_steps g g' -> refer_target g id = Ok t -> refer_target g' id = Ok t.
Proof.
  intros g g' id t S R. destruct (steps_rels _ _ S) as [l [E _]].
  unfold refer_target in *. rewrite E. now apply refer_app.
Qed.

(** ids of relationships read from a file: "rId" and a number, at most the counter *)
Definition numbered (g : reg) : Prop :=
  forall r, In r (rels g) -> exists s n, rel_id r = "rId" ++ s /\ parse_uint s = Some n /\ (n <= rid g)%N.

Lemma parse_uint_utoa : forall n, (n < B64)%N -> parse_uint (utoa n) = Some n.
Proof. intros. unfold parse_uint. rewrite parse_nat_utoa. apply N.ltb_lt in H. now rewrite H. Qed.

Lemma numbered_fresh : forall g n, numbered g -> (rid g < n < B64)%N -> ~ In (rid_name n) (map rel_id (rels g)).
Proof.
  intros g n H B I. apply in_map_iff in I. destruct I as [r [E I]].
  destruct (H r I) as [s [m [E1 [P L]]]]. rewrite E1 in E. unfold rid_name in E. apply sapp_inv_head in E.
  subst s. rewrite parse_uint_utoa in P by lia. injection P as <-. lia.
Qed.

Lemma empty_numbered : numbered empty_reg.
Proof.
  intros r [<-|[<-|[<-|[]]]]; [exists "1", 1%N|exists "2", 2%N|exists "3", 3%N];
    (split; [reflexivity|split; [vm_compute; reflexivity|cbn; lia]]).
Qed.
Lemma load_numbered : forall ms, numbered (load_reg ms).
Proof. intros ms. exact empty_numbered. Qed.

Lemma steps_numbered : forall g g' l, numbered g -> reg_steps g g' -> rels g' = (rels g ++ l)%list ->
  (rid g + N.of_nat (length l) < B63)%N -> numbered g'.
Proof.
  intros g g' l H S E L. destruct (steps_rels _ _ S) as [l' [E' B]].
  assert (l' = l) by (apply (app_inv_head (rels g)); congruence). subst l'.
  destruct (B L) as [B1 B2]. intros r I. rewrite E in I. apply in_app_iff in I. destruct I as [I|I].
  - destruct (H r I) as [s [n [A [P Q]]]]. exists s, n. split; [|split]; auto. lia.
  - assert (J : In (rel_id r) (ids_from (rid g) (length l))) by (rewrite <- B2; now apply in_map).
    destruct (ids_from_in _ _ _ J) as [m [-> Q]]. exists (utoa m), m. split; [reflexivity|split].
    + apply parse_uint_utoa. lia.
    + lia.
Qed.

(** ** media *)
Fixpoint last_named (n : string) (l : list mediaT) : option mediaT :=
  match l with
  | [] => None
  | m :: l' => match last_named n l' with
               | Some x => Some x
               | None => if String.eqb (fst m) n then Some m else None
               end
  end.
Definition media_ok (g : reg) : Prop := forall n, media_of g n = Ok (last_named n (media g)).

Lemma last_named_app : forall n a b,
  last_named n (a ++ b) = match last_named n b with Some x => Some x | None => last_named n a end.
Proof. induction a as [|m a IH]; cbn; intros; [now destruct (last_named n b)|]. rewrite IH. now destruct (last_named n b). Qed.
Lemma last_named_none : forall n l, ~ In n (map fst l) -> last_named n l = None.
Proof.
  induction l as [|m l IH]; cbn; intros; auto. rewrite IH by auto.
  destruct (String.eqb_spec (fst m) n); auto. exfalso; auto.
Qed.
Lemma last_named_some : forall n l m, last_named n l = Some m -> In m l /\ fst m = n.
Proof.
  induction l as [|x l IH]; cbn; intros m H; [discriminate|].
  destruct (last_named n l) as [y|].
  - inversion H; subst. destruct (IH _ eq_refl). auto.
  - destruct (String.eqb_spec (fst x) n); inversion H; subst; auto.
Qed.

Lemma media_ok_add : forall g m, media_ok g -> media_ok (add_media m g).
Proof.
  intros g m H n. unfold media_of, add_media. cbn [midx media set_media mset mget].
  rewrite last_named_app. cbn [last_named]. rewrite seqb_sym.
  destruct (fst m =? n) eqn:E.
  - rewrite nth_error_app2 by lia. rewrite Nat.sub_diag. reflexivity.
  - specialize (H n). unfold media_of in H. destruct (mget n (midx g)) as [i|]; [|exact H].
    destruct (nth_error (media g) i) eqn:Q; [|discriminate].
    rewrite nth_error_app1 by (eapply nth_lt; eauto). rewrite Q. exact H.
Qed.
Lemma media_ok_ext : forall g g', media g = media g' -> midx g = midx g' -> media_ok g -> media_ok g'.
Proof. intros g g' E F H n. specialize (H n). unfold media_of in *. rewrite <- E, <- F. exact H. Qed.

Lemma step_media_ok : forall g g', reg_step g g' -> media_ok g -> media_ok g'.
Proof.
  intros g g' S H. inversion S; subst; try (eapply media_ok_ext; [| |exact H]; reflexivity).
  unfold add_image. eapply media_ok_ext; [| |apply media_ok_add; eapply media_ok_ext; [| |exact H]];
    unfold add_image_relation, add_rel; cbn; reflexivity.
Qed.
Lemma steps_media_ok : forall g g', reg_steps g g' -> media_ok g -> media_ok g'.
Proof. induction 1; eauto using step_media_ok. Qed.

Lemma empty_media_ok : media_ok empty_reg.
Proof. intros n. reflexivity. Qed.
Lemma index_media_get : forall l i m n, 
  mget n (index_media i l m) = match last_named n l with
    | None => mget n m
    | Some _ => mget n (index_media i l []) end.
Proof.
  induction l as [|x l IH]; intros i m n; cbn [index_media last_named]; auto.
  rewrite IH, (IH (S i) (mset (fst x) i [])). destruct (last_named n l); auto.
  unfold mset; cbn [mget]. rewrite seqb_sym. destruct (fst x =? n); auto.
Qed.
Lemma index_media_nth : forall l i n pre, i = length pre -> forall x, last_named n l = Some x ->
  exists j, mget n (index_media i l []) = Some j /\ nth_error (pre ++ l)%list j = Some x.
Proof.
  induction l as [|y l IH]; intros i n pre E x H; cbn [last_named] in H; [discriminate|].
  cbn [index_media]. rewrite index_media_get. destruct (last_named n l) eqn:Q.
  - inversion H; subst. destruct (IH (S (length pre)) n (pre ++ [y])%list) with (x := x) as [j [A B]].
    + rewrite app_length. cbn. lia.
    + auto.
    + exists j. split; auto. rewrite <- app_assoc in B. exact B.
  - destruct (String.eqb_spec (fst y) n); [|discriminate]. inversion H; subst.
    exists (length pre). unfold mset; cbn [mget]. rewrite seqb_refl. split; auto.
    rewrite nth_error_app2 by lia. rewrite Nat.sub_diag. reflexivity.
Qed.
Lemma load_media_ok : forall ms, media_ok (load_reg ms).
Proof.
  intros ms n. unfold media_of, load_reg. cbn [midx media].
  destruct (last_named n ms) as [x|] eqn:E.
  - destruct (index_media_nth ms 0 n [] eq_refl x E) as [j [A B]]. rewrite A. cbn in B. now rewrite B.
  - rewrite index_media_get, E. reflexivity.
Qed.

(** names of new pictures *)
Definition img_name (n : N) (fmt : string) : string := "image" ++ utoa n ++ "." ++ fmt.
Fixpoint names_from (n : N) (l : list mediaT) : Prop :=
  match l with
  | [] => True
  | m :: l' => (exists fmt, fst m = img_name (n + 1) fmt) /\ names_from (n + 1) l'
  end.

Lemma digits_dot_inj : forall a b x y, count "." a = 0 -> count "." b = 0 ->
  (a ++ String "." x = b ++ String "." y) -> a = b.
Proof.
  induction a as [|c a IH]; intros [|e b] x y Ha Hb E; auto.
  - cbn [append] in E. injection E as E _. subst e. discriminate Hb.
  - cbn [append] in E. injection E as E _. subst c. discriminate Ha.
  - cbn [append] in E. injection E as <- E. f_equal. cbn [count] in Ha, Hb. eapply IH; [| |exact E]; lia.
Qed.
Lemma img_name_inj : forall a b x y, img_name a x = img_name b y -> a = b.
Proof.
  unfold img_name; intros a b x y H. apply sapp_inv_head in H.
  apply utoa_inj. eapply digits_dot_inj; [| |exact H]; now apply utoa_count.
Qed.
Lemma names_from_in : forall l n m, names_from n l -> In m l ->
  exists k fmt, fst m = img_name k fmt /\ (n < k)%N.
Proof.
  induction l as [|x l IH]; intros n m H I; cbn in *; [easy|]. destruct H as [[fmt H] H1]. destruct I as [<-|I].
  - exists (n + 1)%N, fmt. split; auto. lia.
  - destruct (IH _ _ H1 I) as [k [f [A B]]]. exists k, f. split; auto. lia.
Qed.
Lemma names_from_nodup : forall l n, names_from n l -> NoDup (map fst l).
Proof.
  induction l as [|x l IH]; intros n H; cbn in *; constructor; destruct H as [[fmt H] H1]; eauto.
  intro I. apply in_map_iff in I. destruct I as [m [E I]].
  destruct (names_from_in _ _ _ H1 I) as [k [f [A B]]]. rewrite E, H in A. apply img_name_inj in A. lia.
Qed.

Lemma steps_media : forall g g', reg_steps g g' -> exists l, media g' = (media g ++ l)%list /\
  length (rels g) + length l <= length (rels g') /\
  ((imgid g + N.of_nat (length l) < B63)%N ->
   imgid g' = (imgid g + N.of_nat (length l))%N /\ names_from (imgid g) l).
Proof.
  induction 1 as [g|g g1 g2 S SS [l [E [LE B]]]].
  - exists []. rewrite app_nil_r. split; [|split]; auto. { cbn; lia. } intros _. cbn. split; [lia|auto].
  - inversion S; subst.
    + exists l. cbn in *. auto.
    + exists l. cbn in *. auto.
    + exists l. cbn in *. rewrite app_length in LE. cbn in LE. split; [|split]; auto. lia.
    + unfold add_image, add_image_relation, add_rel in E, LE, B. cbn [snd media rels set_rid set_rels set_imgid set_media add_media imgid fst] in E, LE, B.
      eexists (_ :: l). rewrite E, <- app_assoc. split; [reflexivity|].
      rewrite app_length in LE. cbn [length] in *. split; [lia|]. intro L.
      rewrite uadd1_small in B by lia. destruct B as [B1 B2]; [lia|]. split; [lia|].
      cbn [names_from fst]. split; [|exact B2]. exists f. unfold img_name.
      rewrite uadd1_small by lia. rewrite itoa_u_small by lia. reflexivity.
Qed.

(** the name of no stored media has a number above the picture counter *)
Definition img_fresh (g : reg) : Prop :=
  forall m n fmt, In m (media g) -> fst m = img_name n fmt -> (n <= imgid g)%N.
Lemma empty_img_fresh : img_fresh empty_reg.
Proof. intros m n fmt []. Qed.
Lemma steps_img_fresh : forall g g' l, img_fresh g -> reg_steps g g' -> media g' = (media g ++ l)%list ->
  (imgid g + N.of_nat (length l) < B63)%N -> img_fresh g'.
Proof.
  intros g g' l H S E L. destruct (steps_media _ _ S) as [l' [E' [_ B]]].
  assert (l' = l) by (apply (app_inv_head (media g)); congruence). subst l'. destruct (B L) as [B1 B2].
  intros m n fmt I N. rewrite E in I. apply in_app_iff in I. destruct I as [I|I].
  - specialize (H m n fmt I N). lia.
  - rewrite B1. clear - B2 I N L. revert B2 L. generalize (imgid g) as k. induction l as [|x l IH]; intros k B L; [easy|].
    destruct B as [[f B] B']. destruct I as [<-|I].
    + rewrite B in N. apply img_name_inj in N. subst. cbn. lia.
    + specialize (IH I (k + 1)%N B'). cbn [length] in L. cbn [length]. assert (n <= k + 1 + N.of_nat (length l))%N by (apply IH; lia). lia.
Qed.
