(** Reading back what was written. *)
From Coq Require Import String Ascii List Bool Arith NArith ZArith Lia.
From Verif Require Import GoStr Num Lib Types XmlTok Marshal Unmarshal DecLemmas Reload.
Import ListNotations.
Local Open Scope string_scope.
Local Open Scope list_scope.

(** ** attributes *)

Lemma attrs_step : forall {X} (f : X -> string -> string -> X * status) a b s s1 r,
  attrs f s a = (s1, SOk) -> attrs f s1 b = r -> attrs f s (a ++ b) = r.
Proof. intros. subst. now apply attrs_app. Qed.

Lemma attrs_at : forall {X} (cs : list (string * ahnd X)) s q v set,
  switch cs (fun s _ => (s, SOk)) (snd q) = av set -> attrs (aswitch cs) s (at_ q v) = (set v s, SOk).
Proof. intros X cs s q v set E. simpl. unfold aswitch. rewrite E. reflexivity. Qed.

Lemma attrs_ato : forall {X} (cs : list (string * ahnd X)) s q v set,
  switch cs (fun s _ => (s, SOk)) (snd q) = av set -> set "" s = s -> attrs (aswitch cs) s (ato q v) = (set v s, SOk).
Proof.
  intros X cs s q v set E H0. unfold ato. destruct (String.eqb_spec v "") as [->|]; [now rewrite H0|].
  now apply attrs_at.
Qed.
Lemma attrs_at_ne : forall {X} (cs : list (string * ahnd X)) s q v set,
  switch cs (fun s _ => (s, SOk)) (snd q) = ane (av set) -> set "" s = s -> attrs (aswitch cs) s (at_ q v) = (set v s, SOk).
Proof.
  intros X cs s q v set E H0. simpl. unfold aswitch. rewrite E. unfold ane, av.
  destruct (String.eqb_spec v "") as [->|]; [now rewrite H0|]. reflexivity.
Qed.

Section RT.
Context `{GoLib}.

(** a number handler *)
Definition numh {X} (h : ahnd X) (set : i64 -> X -> X) : Prop := forall s v, h s (itoa (iv v)) = (set v s, SOk).

Lemma numh_ai : forall {X} (set : i64 -> X -> X), numh (ai set) set.
Proof. intros X set s v. unfold ai. now rewrite get_int_itoa. Qed.
Lemma numh_ain : forall {X} (set : i64 -> X -> X), numh (ain set) set.
Proof. intros X set s v. unfold ain. now rewrite get_int_itoa. Qed.
Lemma numh_aig : forall {X} (set : i64 -> X -> X), numh (aig set) set.
Proof. intros X set s v. unfold aig. now rewrite get_int_itoa. Qed.
Lemma numh_aatoi : forall {X} (set : i64 -> X -> X), numh (aatoi set) set.
Proof. intros X set s v. unfold aatoi. now rewrite parse_int_itoa. Qed.
Lemma numh_ane : forall {X} h (set : i64 -> X -> X), numh h set -> numh (ane h) set.
Proof.
  intros X h set Hh s v. unfold ane. destruct (String.eqb_spec (itoa (iv v)) "") as [E|]; [|apply Hh].
  exfalso. revert E. apply itoa_nonempty.
Qed.
Lemma numh_adig : forall {X} (set : i64 -> X -> X), numh (adig set) (fun v => set (reload_flag v)).
Proof.
  intros X set s v. unfold adig, reload_flag. destruct (itoa (iv v)) eqn:E; [|reflexivity].
  exfalso. revert E. apply itoa_nonempty.
Qed.

Lemma attrs_ati : forall {X} (cs : list (string * ahnd X)) s q v h set,
  switch cs (fun s _ => (s, SOk)) (snd q) = h -> numh h set -> attrs (aswitch cs) s (ati q v) = (set v s, SOk).
Proof. intros X cs s q v h set E Hh. simpl. unfold aswitch. rewrite E, Hh. reflexivity. Qed.
Lemma attrs_atio : forall {X} (cs : list (string * ahnd X)) s q v h set,
  switch cs (fun s _ => (s, SOk)) (snd q) = h -> numh h set -> set i0 s = s -> attrs (aswitch cs) s (atio q v) = (set v s, SOk).
Proof.
  intros X cs s q v h set E Hh H0. unfold atio. destruct (Z.eqb_spec (iv v) 0) as [E0|].
  - replace v with i0; [now rewrite H0|]. apply i64_eq. now rewrite E0.
  - eapply attrs_ati; eauto.
Qed.

Ltac numh := repeat apply numh_ane; first [apply numh_ai | apply numh_ain | apply numh_aig | apply numh_aatoi | apply numh_adig].

Ltac ats1 :=
  match goal with
  | |- attrs _ _ (at_ _ _) = _ => first [eapply attrs_at; reflexivity | eapply attrs_at_ne; reflexivity]
  | |- attrs _ _ (ato _ _) = _ => eapply attrs_ato; reflexivity
  | |- attrs _ _ (ati _ _) = _ => eapply attrs_ati; [reflexivity | numh]
  | |- attrs _ _ (atio _ _) = _ => eapply attrs_atio; [reflexivity | numh | reflexivity]
  | |- attrs _ _ [] = _ => reflexivity
  end.

Ltac nm := intros; cbn; reflexivity.

(** ** children *)

Section KidsLemmas.
Context {X : Type}.
Variable cs : list (string * hnd X).
Notation sw := (switch cs (fun s _ ts => skipping s ts)).

Lemma k_childo : forall {A B} (m : A -> tree) (u : list attr -> list token -> out B) (g : A -> B) (set : option B -> X -> X) n o s,
  (forall v, tname (m v) = n) -> sw n = childo u set -> set None s = s -> (forall v, o = Some v -> Dec u (m v) (g v)) ->
  Kids (eswitch cs) s (el m o) (set (option_map g o) s).
Proof.
  intros A B m u g set n o s Hn E H0 HD. eapply kids_el; [exact Hn | |].
  - intros v ->. rewrite E. now apply childo_act, HD.
  - intros ->. exact H0.
Qed.
Lemma k_childo_id : forall {A} (m : A -> tree) (u : list attr -> list token -> out A) (set : option A -> X -> X) n o s,
  (forall v, tname (m v) = n) -> sw n = childo u set -> set None s = s -> (forall v, Dec u (m v) v) ->
  Kids (eswitch cs) s (el m o) (set o s).
Proof.
  intros A m u set n o s Hn E H0 HD. eapply kids_el; [exact Hn | |].
  - intros v ->. rewrite E. now apply childo_act.
  - intros ->. exact H0.
Qed.
Lemma k_childin : forall {A B} (m : A -> tree) (u : B -> list attr -> list token -> out B) (get : X -> B) (set : B -> X -> X) n v x s,
  tname (m v) = n -> sw n = childin u get set -> Dec (u (get s)) (m v) x ->
  Kids (eswitch cs) s [m v] (set x s).
Proof. intros A B m u get set n v x s Hn E HD. apply kids_one. rewrite Hn, E. now apply childin_act. Qed.
Lemma k_val : forall q (set : option string -> X -> X) o s,
  sw (snd q) = fval set -> set None s = s -> Kids (eswitch cs) s (el (val_el q) o) (set o s).
Proof.
  intros q set o s E H0. eapply kids_el; [nm | |].
  - intros v ->. rewrite E. change (Some v) with (Some (get_att (at_ (w "val") v) "val")). apply (flat_act (fun a => set (Some (get_att a "val")))).
  - intros ->. exact H0.
Qed.
Lemma k_val_skip : forall q (set : option string -> X -> X) o s,
  sw (snd q) = then_skip (fval set) -> set None s = s -> Kids (eswitch cs) s (el (val_el q) o) (set o s).
Proof.
  intros q set o s E H0. eapply kids_el; [nm | |].
  - intros v ->. rewrite E. apply (then_skip_act (fun a => set (Some (get_att a "val")))).
  - intros ->. exact H0.
Qed.
Lemma k_flat : forall q p l (set : option string -> X -> X) o s,
  sw (snd q) = flat (fun a => set (Some (get_att a l))) -> snd p = l -> set None s = s ->
  Kids (eswitch cs) s (el (fun v => Elem q (at_ p v) []) o) (set o s).
Proof.
  intros q p l set o s E <- H0. eapply kids_el; [nm | |].
  - intros v ->. rewrite E. replace (Some v) with (Some (get_att (at_ p v) (snd p))).
    + apply (flat_act (fun a => set (Some (get_att a (snd p))))).
    + simpl. now rewrite String.eqb_refl.
  - intros ->. exact H0.
Qed.
Lemma k_flat_skip : forall q p l (set : option string -> X -> X) o s,
  sw (snd q) = then_skip (flat (fun a => set (Some (get_att a l)))) -> snd p = l -> set None s = s ->
  Kids (eswitch cs) s (el (fun v => Elem q (at_ p v) []) o) (set o s).
Proof.
  intros q p l set o s E <- H0. eapply kids_el; [nm | |].
  - intros v ->. rewrite E. replace (Some v) with (Some (get_att (at_ p v) (snd p))).
    + apply (then_skip_act (fun a => set (Some (get_att a (snd p))))).
    + simpl. now rewrite String.eqb_refl.
  - intros ->. exact H0.
Qed.
Lemma k_valo : forall q (set : option string -> X -> X) o s,
  sw (snd q) = fval set -> set None s = s -> Kids (eswitch cs) s (el (val_elo q) o) (set o s).
Proof.
  intros q set o s E H0. eapply kids_el; [nm | |].
  - intros v ->. rewrite E.
    replace (Some v) with (Some (get_att (ato (w "val") v) "val")); [apply (flat_act (fun a => set (Some (get_att a "val"))))|].
    unfold ato. destruct (String.eqb_spec v ""); subst; reflexivity.
  - intros ->. exact H0.
Qed.
Lemma k_num : forall q p l (set : option i64 -> X -> X) o s,
  sw (snd q) = fnum l set -> snd p = l -> set None s = s -> Kids (eswitch cs) s (el (fun v => Elem q (ati p v) []) o) (set o s).
Proof.
  intros q p l set o s E <- H0. eapply kids_el; [nm | |].
  - intros v ->. rewrite E. apply fnum_act. simpl. now rewrite String.eqb_refl.
  - intros ->. exact H0.
Qed.
Lemma k_vali : forall q (set : option i64 -> X -> X) o s,
  sw (snd q) = fnum "val" set -> set None s = s -> Kids (eswitch cs) s (el (val_eli q) o) (set o s).
Proof. intros. unfold val_eli. now apply (k_num q (w "val") "val"). Qed.
Lemma k_bool : forall q (set : bool -> X -> X) b s,
  sw (snd q) = fset set -> set false s = s -> Kids (eswitch cs) s (elb q b) (set b s).
Proof.
  intros q set b s E H0. apply kids_elb.
  - intros ->. rewrite E. apply (flat_act (fun _ => set true)).
  - intros ->. exact H0.
Qed.
Lemma k_bool_skip : forall q (set : bool -> X -> X) b s,
  sw (snd q) = then_skip (fset set) -> set false s = s -> Kids (eswitch cs) s (elb q b) (set b s).
Proof.
  intros q set b s E H0. apply kids_elb.
  - intros ->. rewrite E. apply (then_skip_act (fun _ => set true)).
  - intros ->. exact H0.
Qed.
(** an element that the decoder does not know *)
Lemma k_unknown : forall {A} (m : A -> tree) n o s,
  (forall v, tname (m v) = n) -> (forall v, exists q a c, m v = Elem q a c) -> sw n = (fun s _ ts => skipping s ts) ->
  Kids (eswitch cs) s (el m o) s.
Proof.
  intros A m n o s Hn HE E. eapply kids_el; [exact Hn | | reflexivity].
  intros v _. rewrite E. destruct (HE v) as [q [a [c ->]]]. apply skip_act.
Qed.
(** attribute loops *)
Lemma k_fattrs : forall {Y} ac (get : X -> Y) (set : Y -> X -> X) q a y s,
  sw (snd q) = fattrs (aswitch ac) get set -> attrs (aswitch ac) (get s) a = (y, SOk) ->
  Kids (eswitch cs) s [Elem q a []] (set y s).
Proof.
  intros Y ac get set q a y s E HA. apply kids_one. change (tname (Elem q a [])) with (snd q). rewrite E. right. split; [reflexivity|].
  intros k. unfold fattrs. rewrite HA. reflexivity.
Qed.
Lemma k_fattrs_el : forall {Y A} ac (get : X -> Y) (set : Y -> X -> X) (set' : option A -> X -> X) q (at_ : A -> list attr) (y : A -> Y) o s,
  sw (snd q) = fattrs (aswitch ac) get set -> (forall v, attrs (aswitch ac) (get s) (at_ v) = (y v, SOk)) ->
  (forall v, set (y v) s = set' (Some v) s) -> set' None s = s ->
  Kids (eswitch cs) s (el (fun v => Elem q (at_ v) []) o) (set' o s).
Proof.
  intros Y A ac get set set' q at' y o s E HA HS H0. destruct o as [v|]; [|rewrite H0; apply kids_nil].
  cbn [el]. rewrite <- HS. eapply k_fattrs; eauto.
Qed.
Lemma k_fattrs_after_el : forall {Y A} ac y0 (set : Y -> X -> X) (set' : option A -> X -> X) q (at_ : A -> list attr) (y : A -> Y) o s,
  sw (snd q) = fattrs_after (aswitch ac) y0 set -> (forall v, attrs (aswitch ac) y0 (at_ v) = (y v, SOk)) ->
  (forall v, set (y v) s = set' (Some v) s) -> set' None s = s ->
  Kids (eswitch cs) s (el (fun v => Elem q (at_ v) []) o) (set' o s).
Proof.
  intros Y A ac y0 set set' q at' y o s E HA HS H0. destruct o as [v|]; [|rewrite H0; apply kids_nil].
  cbn [el]. rewrite <- HS. apply kids_one. change (tname (Elem q (at' v) [])) with (snd q). rewrite E. right. split; [reflexivity|].
  intros k. unfold fattrs_after. rewrite HA. reflexivity.
Qed.
Lemma k_fattrs_after_skip_el : forall {Y A} ac y0 (set : Y -> X -> X) (set' : option A -> X -> X) q (at_ : A -> list attr) (y : A -> Y) o s,
  sw (snd q) = then_skip (fattrs_after (aswitch ac) y0 set) -> (forall v, attrs (aswitch ac) y0 (at_ v) = (y v, SOk)) ->
  (forall v, set (y v) s = set' (Some v) s) -> set' None s = s ->
  Kids (eswitch cs) s (el (fun v => Elem q (at_ v) []) o) (set' o s).
Proof.
  intros Y A ac y0 set set' q at' y o s E HA HS H0. destruct o as [v|]; [|rewrite H0; apply kids_nil].
  cbn [el]. rewrite <- HS. apply kids_one. change (tname (Elem q (at' v) [])) with (snd q). rewrite E. left.
  intros k. unfold then_skip, fattrs_after. rewrite HA. unfold skipping. now rewrite skip_forest.
Qed.
End KidsLemmas.

Lemma kids_eq : forall {X} h (s s1 s' : X) c, Kids h s c s1 -> s1 = s' -> Kids h s c s'.
Proof. intros. subst. assumption. Qed.

Lemma kids_step : forall {X} h (s s1 s2 s3 : X) a b, Kids h s a s1 -> s1 = s2 -> Kids h s2 b s3 -> Kids h s (a ++ b) s3.
Proof. intros. subst. eapply kids_app; eauto. Qed.
Lemma attrs_step_eq : forall {X} (f : X -> string -> string -> X * status) a b s s1 s2 r,
  attrs f s a = (s1, SOk) -> s1 = s2 -> attrs f s2 b = r -> attrs f s (a ++ b) = r.
Proof. intros. subst. eapply attrs_step; eauto. Qed.

(** evaluate the record updates of a state *)
Ltac red_state :=
  match goal with |- ?s = _ => let s1 := eval hnf in s in let s2 := eval simpl in s1 in unify s s2; exact (eq_refl s2) end.
Ltac ats := repeat (eapply attrs_step_eq; [ats1 | red_state |]); (etransitivity; [ats1 | reflexivity]).

(** ** elements without unbounded nesting *)

Ltac kids_done := match goal with |- Kids _ _ [] _ => apply kids_nil end.
Ltac k_step tac := eapply kids_app; [tac|]; cbv beta.

Lemma rt_rfonts : forall x, Dec u_rfonts (m_rfonts x) x.
Proof. destruct x. apply leafd_dec. ats. Qed.
Lemma rt_spacing : forall x, Dec u_spacing (m_spacing x) x.
Proof. destruct x. apply leafd_dec. ats. Qed.
Lemma rt_ind : forall x, Dec u_ind (m_ind x) x.
Proof. destruct x. apply leafd_dec. ats. Qed.
Lemma rt_shade : forall x, Dec u_shade (m_shade x) x.
Proof. destruct x. apply leafd_dec. ats. Qed.

Ltac kid1 tac :=
  match goal with
  | |- Kids _ _ (el (val_el _) _) _ => first [eapply k_val; reflexivity | eapply k_val_skip; reflexivity | eapply k_childo_id; [nm | reflexivity | reflexivity | tac]]
  | |- Kids _ _ (el (val_elo _) _) _ => eapply k_valo; reflexivity
  | |- Kids _ _ (el (val_eli _) _) _ => eapply k_vali; reflexivity
  | |- Kids _ _ (elb _ _) _ => first [eapply k_bool; reflexivity | eapply k_bool_skip; reflexivity]
  | |- Kids _ _ (el (fun v => Elem _ (at_ _ v) []) _) _ => first [eapply k_flat; reflexivity | eapply k_flat_skip; reflexivity]
  | |- Kids _ _ (el (fun v => Elem _ (ati _ v) []) _) _ => eapply k_num; reflexivity
  | |- Kids _ _ (el _ _) _ => eapply k_childo_id; [nm | reflexivity | reflexivity | tac]
  | |- Kids _ _ [] _ => apply kids_nil
  end.
Ltac kids tac := repeat (eapply kids_step; [kid1 tac | red_state |]); try (eapply kids_eq; [kid1 tac | reflexivity]).

Lemma rt_rpr : forall x, Dec u_rpr (m_rpr x) x.
Proof.
  destruct x. apply loopd_dec. kids ltac:(first [apply rt_rfonts | apply rt_spacing | apply rt_shade]).
Qed.
Lemma rt_tab : forall x, Dec u_tab (m_tab x) x.
Proof. destruct x. apply leafd_dec. ats. Qed.

Lemma fold_push : forall {A B} (c : A -> B) l acc, fold_left (fun s v => s ++ [c v]) l acc = acc ++ map c l.
Proof. induction l as [|x l IH]; intros; simpl; [now rewrite app_nil_r|]. rewrite IH, <- app_assoc. reflexivity. Qed.

Lemma rt_tabs : forall x, Dec u_tabs (m_tabs x) x.
Proof.
  intros x k. unfold m_tabs, u_tabs. apply kids_loop.
  assert (G : forall l acc k, steps (fun s l a ts => switch [("tab", child u_tab (fun x s => s ++ [x]))] (flat (fun _ s => s)) l s a ts)
     acc (ftoks (map m_tab l) ++ k) (acc ++ l) k).
  { induction l as [|t l IH]; intros acc k'; cbn [map]; [rewrite app_nil_r; apply steps_refl|].
    rewrite ftoks_cons, <- app_assoc. eapply steps_trans.
    - eapply act_steps. apply (child_act u_tab (fun x s => s ++ [x])). apply rt_tab.
    - replace (acc ++ t :: l) with ((acc ++ [t]) ++ l) by now rewrite <- app_assoc. apply IH. }
  intros k'. apply (G x []).
Qed.

Lemma rt_ppr : forall x, Dec u_ppr (m_ppr x) (reload_ppr x).
Proof.
  destruct x. apply loopd_dec.
  kids ltac:(first [apply rt_tabs | apply rt_spacing | apply rt_ind | apply rt_shade | apply rt_rpr]).
  eapply kids_app; [eapply k_unknown; [nm | intros; do 3 eexists; reflexivity | reflexivity]|].
  kids ltac:(first [apply rt_tabs | apply rt_spacing | apply rt_ind | apply rt_shade | apply rt_rpr]).
Qed.

Lemma rt_text : forall x, Dec u_text (m_text x) x.
Proof.
  destruct x as [sp t]. unfold m_text. intros k. unfold u_text.
  replace (attrs (aswitch [("space", av set_text_space)]) text0 (ato (xml_ "space") (text_space (mk_text sp t)))) with (set_text_space sp text0, SOk).
  2:{ symmetry. eapply attrs_ato; reflexivity. }
  unfold chr. cbn [text_text]. destruct (String.eqb_spec t "") as [->|]; reflexivity.
Qed.

Lemma rt_br : forall x, Dec u_br (m_br x) x.
Proof. intros x k. unfold u_br. simpl. unfold ato. destruct (String.eqb_spec x "") as [->|]; reflexivity. Qed.

Lemma rt_extent : forall x, Dec u_extent (m_extent x) x.
Proof. destruct x. apply leafd_dec. ats. Qed.
Lemma rt_effect : forall x, Dec u_effect (m_effect x) x.
Proof. destruct x. apply leafd_dec. ats. Qed.
Lemma rt_docpr : forall x, Dec u_docpr (m_docpr x) x.
Proof. destruct x. apply leafd_dec. ats. Qed.
Lemma rt_nonvis : forall q x, Dec u_nonvis (m_nonvis q x) x.
Proof. destruct x. apply leafd_dec. ats. Qed.

Lemma eqb_itoa : forall z, String.eqb (itoa z) "" = false.
Proof. intros. destruct (String.eqb_spec (itoa z) "") as [E|]; [|reflexivity]. exfalso. revert E. apply itoa_nonempty. Qed.

Lemma rt_frame : forall x, Dec u_frame (m_frame x) x.
Proof.
  destruct x as [a n]. apply loopd_dec. apply kids_one. right. split; [reflexivity|]. intros k. cbn.
  assert (E1 : get_att (ato (xmlns "a") a ++ atio (nn "noChangeAspect") n) "a" = a).
  { unfold ato, atio. destruct (String.eqb_spec a "") as [->|]; [|reflexivity]. destruct (Z.eqb (iv n) 0); reflexivity. }
  assert (E2 : get_att (ato (xmlns "a") a ++ atio (nn "noChangeAspect") n) "noChangeAspect" = if Z.eqb (iv n) 0 then "" else itoa (iv n)).
  { unfold ato, atio. destruct (String.eqb a ""); destruct (Z.eqb (iv n) 0); reflexivity. }
  rewrite E1, E2. destruct (Z.eqb_spec (iv n) 0) as [E0|].
  - cbn. assert (n = i0) as -> by (apply i64_eq; now rewrite E0). reflexivity.
  - rewrite eqb_itoa, get_int_itoa. reflexivity.
Qed.

Ltac fin := eapply kids_eq; [|reflexivity].

Lemma rt_nvpic : forall x, Dec u_nvpic (m_nvpic x) x.
Proof.
  destruct x as [[id nm] lk]. apply loopd_dec.
  apply (kids_cons _ _ (mk_nvpic (mk_nonvis id nm) None)).
  - right. split; [reflexivity|]. intros k. cbn [switch tname m_nonvis String.eqb].
    cbn. rewrite eqb_itoa, get_int_itoa. reflexivity.
  - eapply kids_eq; [eapply (k_childin _ (fun o => Elem (pic_ "cNvPicPr") [] (el (fun v => Elem (a_ "picLocks") (ati (nn "noChangeAspect") v) []) o))
        u_cnvpicpr nvpic_locks set_nvpic_locks _ lk lk); [reflexivity | reflexivity |] | reflexivity].
    apply loopd_dec. kids idtac.
Qed.

Lemma rt_ablip : forall x, Dec (u_ablip ablip0) (m_ablip x) x.
Proof. destruct x. eapply nested_dec; [ats | kids idtac]. Qed.
Lemma rt_picblip : forall x, Dec u_picblip (m_picblip x) x.
Proof.
  destruct x as [b st]. apply loopd_dec. apply (kids_app _ _ (mk_picblip b false) _ [_] [_]).
  - eapply kids_eq; [eapply (k_childin _ m_ablip); [reflexivity | reflexivity | apply rt_ablip] | reflexivity].
  - eapply kids_eq; [eapply (k_childin _ (fun b => Elem (a_ "stretch") [] (elb (a_ "fillRect") b)) _ _ _ _ st st); [reflexivity | reflexivity |] | reflexivity].
    apply loopd_dec. kids idtac.
Qed.

Lemma rt_off : forall v, attrs (aswitch a_xy) xy0 (ati (nn "x") (xy_x v) ++ ati (nn "y") (xy_y v)) = (v, SOk).
Proof. intros []. ats. Qed.
Lemma rt_ext : forall v, attrs (aswitch a_cxcy) xy0 (ati (nn "cx") (xy_x v) ++ ati (nn "cy") (xy_y v)) = (v, SOk).
Proof. intros []. ats. Qed.

Lemma rt_xfrm : forall x, Dec (u_xfrm xfrm0) (m_xfrm x) x.
Proof.
  destruct x as [rot fh fv o e co ce]. eapply nested_dec; [ats|].
  eapply kids_step; [eapply k_fattrs; [reflexivity | apply rt_off] | red_state |].
  eapply kids_step; [eapply k_fattrs; [reflexivity | apply rt_ext] | red_state |].
  eapply kids_step; [
    eapply (k_fattrs_after_el _ _ _ _ set_xfrm_chOff (a_ "chOff") (fun x => ati (nn "x") (xy_x x) ++ ati (nn "y") (xy_y x)) (fun v => v)); [reflexivity | exact rt_off | reflexivity | reflexivity]
  | red_state |].
  eapply kids_eq; [
    eapply (k_fattrs_after_el _ _ _ _ set_xfrm_chExt (a_ "chExt") (fun x => ati (nn "cx") (xy_x x) ++ ati (nn "cy") (xy_y x)) (fun v => v)); [reflexivity | exact rt_ext | reflexivity | reflexivity]
  | reflexivity].
Qed.

Lemma rt_geom : forall x, Dec u_geom (m_geom x) x.
Proof. destruct x. eapply nested_dec; [ats | kids idtac]. Qed.
Lemma rt_picsp : forall x, Dec u_picsp (m_picsp x) x.
Proof.
  destruct x as [xf g]. apply loopd_dec. eapply kids_step; [eapply (k_childin _ m_xfrm); [reflexivity | reflexivity | apply rt_xfrm] | red_state |].
  kids ltac:(apply rt_geom).
Qed.

Lemma rt_pic : forall x, Dec u_pic (m_pic x) (set_pic_xmlpic "" x).
Proof. destruct x. apply loopd_dec. kids ltac:(first [apply rt_nvpic | apply rt_picblip | apply rt_picsp]). Qed.
Lemma rt_picx : forall x, Dec u_picx (m_pic x) x.
Proof.
  intros x k. unfold u_picx. pose proof (rt_pic x) as HP. unfold m_pic in *. rewrite HP. clear HP.
  destruct x as [xp nv bl sp]. unfold set_pic_xmlpic. cbn. unfold ato.
  destruct (String.eqb_spec xp "") as [->|]; reflexivity.
Qed.

Lemma rt_solid : forall x, Dec u_solid (m_solid x) x.
Proof. intros x. apply loopd_dec. eapply (k_flat_skip _ _ _ _ (fun o _ => o)); reflexivity. Qed.
Lemma rt_lend : forall q x, Dec u_lend (m_lend q x) x.
Proof. destruct x. apply leafd_dec. ats. Qed.
Lemma rt_aline : forall x, Dec u_aline (m_aline x) x.
Proof.
  destruct x. eapply nested_dec; [ats|]. kids ltac:(first [apply rt_solid | apply rt_lend]).
Qed.
Lemma rt_tile : forall x, Dec u_tile (m_tile x) x.
Proof. destruct x. apply leafd_dec. ats. Qed.
Lemma rt_blipfill : forall x, Dec u_blipfill (m_blipfill x) x.
Proof. destruct x. eapply nested_dec; [ats|]. kids ltac:(first [apply rt_ablip | apply rt_tile]). Qed.

Lemma rt_sppr : forall q x, Dec u_sppr (m_sppr q x) (reload_sppr x).
Proof.
  destruct x as [bw xf [pr av_] so bl nf li]. eapply nested_dec; [ats|].
  eapply kids_step; [eapply (k_childin _ m_xfrm); [reflexivity | reflexivity | apply rt_xfrm] | red_state |].
  eapply (kids_app _ _ (mk_sppr bw xf (mk_geom pr false) None None false None)).
  - intros k r Hr. rewrite ftoks_cons, app_nil_r. unfold m_geom. rewrite toks_elem.
    eapply l_start; [reflexivity | apply Nat.le_refl|]. cbn [snd a_].
    destruct av_; cbn.
    + eapply l_start; [reflexivity | cbn; lia|]. apply l_end. exact Hr.
    + apply l_end. exact Hr.
  - kids ltac:(first [apply rt_solid | apply rt_blipfill | apply rt_aline]).
Qed.

Lemma rt_cnvcn : forall x, Dec u_cnvcn (m_cnvcn x) x.
Proof. intros. apply loopd_dec. eapply (k_bool _ _ (fun b _ => b)); reflexivity. Qed.
Lemma rt_splocks : forall v, Dec u_splocks (Elem (a_ "spLocks") (atio (nn "noChangeArrowheads") v) []) v.
Proof. intros. apply leafd_dec. ats. Qed.
Lemma rt_cnvsp : forall x, Dec u_cnvsp (m_cnvsp x) x.
Proof. destruct x. eapply nested_dec; [ats|]. kids ltac:(apply rt_splocks). Qed.
Lemma rt_bodypr : forall x, Dec u_bodypr (m_bodypr x) x.
Proof. destruct x. eapply nested_dec; [ats|]. kids idtac. Qed.
Lemma rt_gcnv : forall x, Dec u_gcnv (m_gcnv x) x.
Proof. intros. apply loopd_dec. eapply (k_bool_skip _ _ (fun b _ => b)); reflexivity. Qed.

(** decimal numbers contain no white space *)
Lemma digit_nospace : forall c s, is_digit c = true \/ c = "-"%char -> ltrim (String c s) = String c s.
Proof.
  intros c s D. unfold ltrim. cbn [drop_spaces].
  assert (SP : is_space_nl c = false /\ (forall b, is_space2 c b = false) /\ forall b b', is_space3 c b b' = false).
  { destruct D as [D| ->]; [|repeat split; reflexivity].
    destruct c as [[] [] [] [] [] [] [] []]; try discriminate D; repeat split; reflexivity. }
  destruct SP as [-> [S2 S3]]. destruct s as [|b s]; [reflexivity|]. rewrite S2. destruct s as [|b' s]; [reflexivity|]. now rewrite S3.
Qed.
Lemma utoa_nospace : forall n, ltrim (utoa n) = utoa n /\ rtrim (utoa n) = utoa n.
Proof.
  intros n. assert (G : forall s acc v, digits_val s acc = Some v -> ltrim s = s /\ rtrim s = s).
  { induction s as [|c s IH]; intros acc v E; [split; reflexivity|].
    simpl in E. destruct (is_digit c) eqn:Ed; [|discriminate]. apply IH in E. destruct E as [E1 E2].
    split; [now apply digit_nospace; left|]. cbn [rtrim]. rewrite digit_nospace by now left. cbn [String.eqb]. now rewrite E2. }
  eapply G. apply utoa_val.
Qed.
Lemma itoa_nospace : forall z, rtrim (ltrim (itoa z)) = itoa z.
Proof.
  intros z. destruct z as [|p|p]; unfold itoa.
  - reflexivity.
  - destruct (utoa_nospace (Z.to_N (Z.pos p))) as [-> ->]. reflexivity.
  - destruct (utoa_nospace (N.pos p)) as [E1 E2]. rewrite digit_nospace by now right. cbn [rtrim].
    rewrite digit_nospace by now right. cbn [String.eqb]. now rewrite E2.
Qed.

Lemma str_chr : forall s q k, str (TChar s :: TEnd q :: k) = (s, SOk, k).
Proof. reflexivity. Qed.

Lemma rt_wpos : forall q x, Dec u_wpos (m_wpos q x) x.
Proof.
  destruct x as [rel off]. intros k. unfold u_wpos. cbn [m_wpos].
  apply (kids_loop _ _ (mk_wpos rel off)). apply kids_one. left. intros k'.
  change ((let '(n, st, ts') := xml_int i0 (TChar (itoa (iv off)) :: TEnd (wp "posOffset") :: k') in
           match st with SOk => (set_wpos_off n (mk_wpos rel i0), SOk, ts') | _ => (mk_wpos rel i0, st, ts') end) = (mk_wpos rel off, SOk, k')).
  unfold xml_int. rewrite str_chr, eqb_itoa, itoa_nospace, parse_int_itoa. reflexivity.
Qed.

Lemma rt_border : forall q x, Dec u_border (m_border q x) x.
Proof. destruct x. apply leafd_dec. ats. Qed.
Lemma rt_borders : forall q x, Dec u_borders (m_borders q x) x.
Proof. destruct x. apply loopd_dec. kids ltac:(apply rt_border). Qed.
Lemma rt_tblpos : forall x, Dec u_tblpos (m_tblpos x) x.
Proof. destruct x. apply leafd_dec. ats. Qed.
Lemma rt_tblstyle : forall x, Dec u_tblstyle (val_el (w "tblStyle") x) x.
Proof. intros. apply leafd_dec. ats. Qed.
Lemma rt_tblw : forall q x, Dec u_tblw (m_wtype q x) x.
Proof. destruct x. apply leafd_dec. ats. Qed.
Lemma rt_look : forall x, Dec u_look (m_look x) (reload_look x).
Proof. destruct x. apply leafd_dec. ats. Qed.

Lemma rt_tblpr : forall x, Dec u_tblpr (m_tblpr x) (reload_tblpr x).
Proof.
  destruct x. apply loopd_dec.
  kids ltac:(first [apply rt_tblpos | apply rt_tblstyle | apply rt_tblw | apply rt_borders]).
  eapply kids_eq; [eapply k_childo; [nm | reflexivity | reflexivity | intros; apply rt_look] | reflexivity].
Qed.

Lemma rt_grid : forall x, Dec u_grid (m_grid x) (reload_grid x).
Proof.
  intros x. apply loopd_dec.
  assert (G : forall l acc, Kids (eswitch [("gridCol", child u_gridcol (push Some))]) acc
      (flat_map (el (fun v => Elem (w "gridCol") (ati (w "w") v) [])) l) (acc ++ reload_grid l)).
  { induction l as [|[v|] l IH]; intros acc; simpl.
    - rewrite app_nil_r. apply kids_nil.
    - eapply kids_cons.
      + apply (child_act u_gridcol (push Some)). apply leafd_dec. eapply (attrs_ati _ _ (w "w")); [reflexivity | numh].
      + unfold push. replace (acc ++ Some v :: reload_grid l) with ((acc ++ [Some v]) ++ reload_grid l) by now rewrite <- app_assoc. apply IH.
    - apply IH. }
  apply (G x []).
Qed.

Lemma rt_trpr : forall x, Dec u_trpr (m_trpr x) x.
Proof.
  destruct x as [h j]. apply loopd_dec. eapply kids_step; [
    eapply (k_fattrs_after_skip_el _ _ _ _ set_trpr_height (w "trHeight") (fun x => ato (w "hRule") (trheight_rule x) ++ ati (w "val") (trheight_val x)) (fun v => v)); [reflexivity | intros []; ats | reflexivity | reflexivity]
  | red_state |].
  kids idtac.
Qed.

Lemma rt_tcpr : forall x, Dec u_tcpr (m_tcpr x) x.
Proof.
  destruct x as [wd vm sp bo sh va]. apply loopd_dec.
  apply (kids_app _ _ (mk_tcpr wd None None None None None)).
  { destruct wd as [[n t]|]; [|apply kids_nil]. apply kids_one. right. split; [reflexivity|]. intros k. cbn.
    rewrite eqb_itoa, get_int_itoa. reflexivity. }
  eapply kids_step; [kid1 idtac | red_state |].
  apply (kids_app _ _ (mk_tcpr wd vm sp None None None)).
  { destruct sp as [n|]; [|apply kids_nil]. apply kids_one. right. split; [reflexivity|]. intros k. cbn.
    rewrite eqb_itoa, get_int_itoa. reflexivity. }
  kids ltac:(first [apply rt_borders | apply rt_shade]).
Qed.

Lemma rt_sect : forall x, Dec u_sect (m_sect x) x.
Proof.
  destruct x. apply loopd_dec.
  eapply kids_step; [eapply k_childo_id; [nm | reflexivity | reflexivity | intros []; apply leafd_dec; ats] | red_state |].
  eapply kids_step; [eapply k_childo_id; [nm | reflexivity | reflexivity | intros []; apply leafd_dec; ats] | red_state |].
  eapply kids_step; [eapply k_childo_id; [nm | reflexivity | reflexivity | intros; apply leafd_dec; ats] | red_state |].
  eapply kids_eq; [eapply k_childo_id; [nm | reflexivity | reflexivity | intros []; apply leafd_dec; ats] | reflexivity].
Qed.

End RT.
