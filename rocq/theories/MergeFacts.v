(** Facts about MergeText and its rules. *)
From Coq Require Import String Ascii List Bool Arith NArith ZArith Lia.
From Verif Require Import GoStr Num Lib Types Docx Text Merge SpecApi SpecMerge.
Import ListNotations.
Local Open Scope list_scope.
Local Open Scope string_scope.

(** ** the rules *)
Lemma fieldv_eqb_eq : forall a b, fieldv_eqb a b = true <-> a = b.
Proof.
  intros [a|a] [b|b]; simpl; try (split; congruence).
  - rewrite String.eqb_eq. split; congruence.
  - rewrite i64_eqb_eq. split; congruence.
Qed.
Lemma inner_same_eq : forall a b, length a = length b -> (inner_same a b = true <-> a = b).
Proof.
  induction a as [|x a IH]; intros [|y b] L; try discriminate L; simpl; [tauto|].
  injection L as L. destruct (fieldv_eqb x y) eqn:E.
  - apply fieldv_eqb_eq in E as ->. rewrite (IH b L). split; congruence.
  - split; [discriminate|]. intros K. injection K as -> ->.
    assert (fieldv_eqb y y = true) by (now apply fieldv_eqb_eq). congruence.
Qed.
Definition same_len (x y : option (list fieldv)) : Prop :=
  match x, y with Some a, Some b => length a = length b | _, _ => True end.
Lemma field_same_eq : forall x y, same_len x y -> (field_same x y = true <-> x = y).
Proof.
  intros [a|] [b|] L; simpl; try (split; congruence).
  destruct a as [|x a].
  - destruct b; [tauto|discriminate L].
  - rewrite (inner_same_eq (x :: a) b L). split; congruence.
Qed.
Fixpoint same_lens (a b : list (string * option (list fieldv))) : Prop :=
  match a, b with
  | x :: a', y :: b' => fst x = fst y /\ same_len (snd x) (snd y) /\ same_lens a' b'
  | [], [] => True
  | _, _ => False
  end.
Lemma fields_same_eq : forall a b, same_lens a b -> (fields_same a b = true <-> a = b).
Proof.
  induction a as [|[n x] a IH]; intros [|[m y] b] L; simpl in L; try contradiction.
  - split; reflexivity.
  - destruct L as (E & Lx & L). simpl in E. subst m. simpl.
    destruct (field_same x y) eqn:F.
    + apply field_same_eq in F as ->; [|exact Lx]. rewrite (IH b L). split; congruence.
    + split; [discriminate|]. intros K. injection K as -> ->.
      assert (field_same y y = true) by (now apply field_same_eq). congruence.
Qed.
Lemma rpr_same_lens : forall p q, same_lens (rpr_fields p) (rpr_fields q).
Proof.
  intros p q. unfold rpr_fields. cbn [same_lens fst snd].
  repeat (split; [reflexivity|split]);
  try exact I;
  repeat match goal with
  | |- same_len (flag ?b) (flag ?c) => destruct b, c; exact I || reflexivity
  | |- same_len (strf ?b) (strf ?c) => destruct b, c; exact I || reflexivity
  | |- same_len (option_map _ ?b) (option_map _ ?c) => destruct b, c; exact I || reflexivity
  end.
Qed.
Lemma flag_inj : forall a b, flag a = flag b -> a = b.
Proof. intros [] []; simpl; congruence. Qed.
Lemma strf_inj : forall a b, strf a = strf b -> a = b.
Proof. intros [] []; simpl; congruence. Qed.
Lemma fonts_inj : forall a b, option_map (fun f => [FS (rfonts_ascii f); FS (rfonts_eastAsia f); FS (rfonts_hAnsi f); FS (rfonts_hint f)]) a =
  option_map (fun f => [FS (rfonts_ascii f); FS (rfonts_eastAsia f); FS (rfonts_hAnsi f); FS (rfonts_hint f)]) b -> a = b.
Proof. intros [[]|] [[]|]; simpl; congruence. Qed.
Lemma spacing_inj : forall a b, option_map (fun s => [FI (spacing_val s); FI (spacing_beforeLines s); FI (spacing_before s); FI (spacing_line s); FS (spacing_lineRule s)]) a =
  option_map (fun s => [FI (spacing_val s); FI (spacing_beforeLines s); FI (spacing_before s); FI (spacing_line s); FS (spacing_lineRule s)]) b -> a = b.
Proof. intros [[]|] [[]|]; simpl; congruence. Qed.
Lemma shade_inj : forall a b, option_map (fun s => [FS (shade_val s); FS (shade_color s); FS (shade_fill s); FS (shade_themeFill s); FS (shade_themeFillTint s)]) a =
  option_map (fun s => [FS (shade_val s); FS (shade_color s); FS (shade_fill s); FS (shade_themeFill s); FS (shade_themeFillTint s)]) b -> a = b.
Proof. intros [[]|] [[]|]; simpl; congruence. Qed.
Lemma kern_inj : forall a b, option_map (fun k => [FI k]) a = option_map (fun k => [FI k]) b -> a = b.
Proof. intros [] []; simpl; congruence. Qed.

Lemma rpr_fields_inj : forall p q, rpr_fields p = rpr_fields q -> p = q.
Proof.
  intros p q H.
  assert (N : forall k, nth k (map snd (rpr_fields p)) None = nth k (map snd (rpr_fields q)) None) by (intros k; now rewrite H).
  clear H.
  pose proof (N 0) as H0. pose proof (N 1) as H1. pose proof (N 2) as H2. pose proof (N 3) as H3.
  pose proof (N 4) as H4. pose proof (N 5) as H5. pose proof (N 6) as H6. pose proof (N 7) as H7.
  pose proof (N 8) as H8. pose proof (N 9) as H9. pose proof (N 10) as H10. pose proof (N 11) as H11.
  pose proof (N 12) as H12. pose proof (N 13) as H13. pose proof (N 14) as H14. pose proof (N 15) as H15.
  clear N. unfold rpr_fields in *. cbn [map snd nth] in *.
  apply fonts_inj in H0. apply flag_inj in H1. apply flag_inj in H2. apply flag_inj in H3.
  apply strf_inj in H4. apply strf_inj in H5. apply strf_inj in H6. apply strf_inj in H7.
  apply spacing_inj in H8. apply strf_inj in H9. apply strf_inj in H10. apply shade_inj in H11.
  apply kern_inj in H12. apply strf_inj in H13. apply strf_inj in H14. apply strf_inj in H15.
  destruct p, q; cbn in *. subst. reflexivity.
Qed.

Lemma same_prop_spec : forall sh a b, (sh = true -> runR_rpr a = runR_rpr b) ->
  (same_prop sh (Some a) (Some b) = true <-> runR_rpr a = runR_rpr b).
Proof.
  intros sh a b S. unfold same_prop.
  destruct (runR_rpr a) as [p|] eqn:Ea, (runR_rpr b) as [q|] eqn:Eb; try (split; congruence).
  destruct sh; [split; [auto|reflexivity]|].
  rewrite (fields_same_eq _ _ (rpr_same_lens p q)). split.
  - intros H. apply rpr_fields_inj in H. now subst.
  - congruence.
Qed.
Lemma same_prop_nil : forall sh a b, a = None \/ b = None -> same_prop sh a b = false.
Proof. intros sh [a|] [b|] [|]; simpl; congruence. Qed.

(** one named property *)
Definition fv_of (f : rfield) (q : rpr) : option (list fieldv) :=
  match f with
  | FFonts => option_map (fun f => [FS (rfonts_ascii f); FS (rfonts_eastAsia f); FS (rfonts_hAnsi f); FS (rfonts_hint f)]) (rpr_fonts q)
  | FBold => flag (rpr_bold q)
  | FIcs => flag (rpr_ics q)
  | FItalic => flag (rpr_italic q)
  | FHighlight => strf (rpr_highlight q)
  | FColor => strf (rpr_color q)
  | FSize => strf (rpr_size q)
  | FSizeCs => strf (rpr_sizeCs q)
  | FSpacing => option_map (fun s => [FI (spacing_val s); FI (spacing_beforeLines s); FI (spacing_before s); FI (spacing_line s); FS (spacing_lineRule s)]) (rpr_spacing q)
  | FRunStyle => strf (rpr_runStyle q)
  | FStyle => strf (rpr_style q)
  | FShade => option_map (fun s => [FS (shade_val s); FS (shade_color s); FS (shade_fill s); FS (shade_themeFill s); FS (shade_themeFillTint s)]) (rpr_shade q)
  | FKern => option_map (fun k => [FI k]) (rpr_kern q)
  | FUnderline => strf (rpr_underline q)
  | FVertAlign => strf (rpr_vertAlign q)
  | FStrike => strf (rpr_strike q)
  end.
Lemma fv_rget : forall f p q, fv_of f p = fv_of f q <-> rget f p = rget f q.
Proof.
  intros f p q. split.
  - destruct f; cbn [fv_of rget]; intros H; f_equal; eauto using flag_inj, strf_inj, fonts_inj, spacing_inj, shade_inj, kern_inj.
  - destruct f; cbn [fv_of rget]; intros H; injection H; intros ->; reflexivity.
Qed.
Lemma fv_len : forall f p q, same_len (fv_of f p) (fv_of f q).
Proof.
  intros f p q. destruct f; cbn [fv_of];
  match goal with
  | |- same_len (flag ?b) (flag ?c) => destruct b, c; exact I || reflexivity
  | |- same_len (strf ?b) (strf ?c) => destruct b, c; exact I || reflexivity
  | |- same_len (option_map _ ?b) (option_map _ ?c) => destruct b, c; exact I || reflexivity
  end.
Qed.
Lemma field_same_rget : forall f p q, field_same (fv_of f p) (fv_of f q) = true <-> rget f p = rget f q.
Proof. intros f p q. rewrite field_same_eq by apply fv_len. apply fv_rget. Qed.

Fixpoint assoc (n : string) (l : list (string * rfield)) : option rfield :=
  match l with [] => None | (m, f) :: l' => if (n =? m)%string then Some f else assoc n l' end.
Lemma assoc_in : forall n f l, assoc n l = Some f -> In (n, f) l.
Proof.
  induction l as [|[m g] l IH]; simpl; [discriminate|].
  destruct (String.eqb_spec n m); [intros K; injection K as ->; left; now subst|intros K; right; auto].
Qed.
Definition named (n : string) : option rfield := assoc n rnames.
Lemma named_in : forall n f, named n = Some f <-> In (n, f) rnames.
Proof.
  intros n f. split; [apply assoc_in|]. intros E. simpl in E.
  repeat (destruct E as [E|E]; [injection E as <- <-; reflexivity|]). destruct E.
Qed.
Lemma named_not : forall n, named n = None <-> ~ In n (map fst rnames).
Proof.
  intros n. split.
  - intros E I. apply in_map_iff in I as ([m f] & K & I). simpl in K. subst m. apply named_in in I. congruence.
  - intros I. destruct (named n) as [f|] eqn:E; [|reflexivity].
    apply named_in in E. exfalso. apply I. apply in_map_iff. now exists (n, f).
Qed.
Lemma field_by_name_fv : forall n f q, named n = Some f -> field_by_name n (rpr_fields q) = Some (fv_of f q).
Proof.
  intros n f q E. apply named_in in E. simpl in E.
  repeat (destruct E as [E|E]; [injection E as <- <-; reflexivity|]). destruct E.
Qed.
Lemma field_by_name_none : forall n q, named n = None -> n <> "XMLName" -> field_by_name n (rpr_fields q) = None.
Proof.
  intros n q E X. unfold named, rnames, assoc in E. unfold rpr_fields, field_by_name.
  repeat match type of E with (if (n =? ?m)%string then _ else _) = _ => destruct (n =? m)%string; [discriminate E|] end.
  destruct (String.eqb_spec n "XMLName"); [contradiction|reflexivity].
Qed.

Lemma names_same_spec : forall names p q, (forall n, In n names -> exists f, named n = Some f) ->
  exists b, names_same names p q = Ok b /\
  (b = true <-> forall n f, In n names -> named n = Some f -> rget f p = rget f q).
Proof.
  induction names as [|n names IH]; intros p q N.
  - exists true. split; [reflexivity|]. split; [intros _ n f []|reflexivity].
  - destruct (N n (or_introl eq_refl)) as [f E]. cbn [names_same].
    rewrite !(field_by_name_fv n f _ E).
    destruct (field_same (fv_of f p) (fv_of f q)) eqn:F.
    + destruct (IH p q (fun m H => N m (or_intror H))) as (b & Eb & Sb). exists b. split; [exact Eb|].
      rewrite Sb. split.
      * intros H m g [<-|I] Em; [|now apply (H m)]. replace g with f by congruence. now apply field_same_rget.
      * intros H m g I Em. now apply (H m g); [right|].
    + exists false. split; [reflexivity|]. split; [discriminate|].
      intros H. assert (field_same (fv_of f p) (fv_of f q) = true).
      { apply field_same_rget. now apply (H n f); [left|]. } congruence.
Qed.
Lemma names_same_panic : forall a n b p q,
  (forall m, In m a -> exists f, named m = Some f /\ rget f p = rget f q) ->
  named n = None -> n <> "XMLName" -> names_same (a ++ n :: b)%list p q = Panic.
Proof.
  induction a as [|m a IH]; intros n b p q A E X.
  - cbn [names_same app]. now rewrite (field_by_name_none n p E X).
  - destruct (A m (or_introl eq_refl)) as (f & Ef & R). cbn [names_same app].
    rewrite !(field_by_name_fv m f _ Ef). apply field_same_rget in R. rewrite R.
    apply IH; auto. intros k I. apply A. now right.
Qed.
Lemma same_prop_of_spec : forall names a b p q, runR_rpr a = Some p -> runR_rpr b = Some q ->
  (forall n, In n names -> In n (map fst rnames)) ->
  exists v, same_prop_of names false (Some a) (Some b) = Ok v /\
  (v = true <-> forall n f, In n names -> In (n, f) rnames -> rget f p = rget f q).
Proof.
  intros names a b p q Ea Eb N. unfold same_prop_of. rewrite Ea, Eb.
  destruct (names_same_spec names p q) as (v & E & S).
  - intros n I. destruct (named n) as [f|] eqn:K; [eauto|]. apply named_not in K. exfalso. auto.
  - exists v. split; [exact E|]. rewrite S. split; intros H n f I K; (apply (H n f I)); now apply named_in.
Qed.
Lemma same_prop_of_nil : forall names shared a b, runR_rpr a = None \/ runR_rpr b = None ->
  exists v, same_prop_of names shared (Some a) (Some b) = Ok v /\ (v = true <-> runR_rpr a = runR_rpr b).
Proof.
  intros names sh a b N. unfold same_prop_of. destruct (runR_rpr a), (runR_rpr b); [destruct N; discriminate| | |]; eexists; (split; [reflexivity|split; congruence]).
Qed.
Lemma same_prop_of_panic : forall names1 n names2 a b p q, runR_rpr a = Some p -> runR_rpr b = Some q ->
  (forall m, In m names1 -> exists f, In (m, f) rnames /\ rget f p = rget f q) ->
  ~ In n (map fst rnames) -> n <> "XMLName" -> same_prop_of (names1 ++ n :: names2)%list false (Some a) (Some b) = Panic.
Proof.
  intros n1 n n2 a b p q Ea Eb A N X. unfold same_prop_of. rewrite Ea, Eb. apply names_same_panic; [|now apply named_not|exact X].
  intros m I. destruct (A m I) as (f & K & R). exists f. split; [now apply named_in|exact R].
Qed.
