(** Which namespace prefixes are used in what the encoder produces. *)
From Coq Require Import String Ascii List Bool Arith NArith ZArith Lia.
From Verif Require Import GoStr Num Lib Types XmlTok Marshal Unmarshal DecLemmas RoundTrip2 Reload Lex SpecLex LexFacts LexFacts3 LexFacts2 SpecNs.
Import ListNotations.
Local Open Scope list_scope.
Local Open Scope string_scope.

(** ** trees *)
Fixpoint ns_ok (s : scope) (t : tree) : bool :=
  match t with
  | Elem q a c => let s' := inside a s in (usable s' (fst q) && forallb (ns_attr s') a && forallb (ns_ok s') c)%bool
  | _ => true
  end.
Lemma ns_elem : forall s q a c, ns_ok s (Elem q a c) = (usable (inside a s) (fst q) && forallb (ns_attr (inside a s)) a && forallb (ns_ok (inside a s)) c)%bool.
Proof. reflexivity. Qed.
Definition wider (s s' : scope) : Prop := forall p, s p = true -> s' p = true.
Lemma usable_wider : forall s s' p, wider s s' -> usable s p = true -> usable s' p = true.
Proof.
  intros s s' p W U. unfold usable in *. destruct (String.eqb p ""); [reflexivity|]. destruct (String.eqb p "xml"); [reflexivity|]. cbn [orb] in *. auto.
Qed.
Lemma attr_wider : forall s s' x, wider s s' -> ns_attr s x = true -> ns_attr s' x = true.
Proof. intros s s' x W. unfold ns_attr. destruct (String.eqb _ _); auto. now apply usable_wider. Qed.
Lemma forallb_imp : forall A (f g : A -> bool) l, (forall x, In x l -> f x = true -> g x = true) -> forallb f l = true -> forallb g l = true.
Proof. intros A f g l K F. rewrite forallb_forall in *. auto. Qed.
Lemma inside_wider : forall a s s', wider s s' -> wider (inside a s) (inside a s').
Proof. intros a s s' W p. unfold inside. destruct (declares a p); cbn [orb]; auto. Qed.
Lemma ok_wider : forall t s s', wider s s' -> ns_ok s t = true -> ns_ok s' t = true.
Proof.
  induction t as [q a c F|x|] using tree_ind'; intros s s' W E; [|reflexivity|reflexivity].
  rewrite ns_elem in *. pose proof (inside_wider a _ _ W) as W'. apply andb_prop in E as [E E3]. apply andb_prop in E as [E1 E2].
  rewrite (usable_wider _ _ _ W' E1). cbn [andb]. apply andb_true_intro. split.
  - eapply forallb_imp; [|exact E2]. intros x _. now apply attr_wider.
  - eapply forallb_imp; [|exact E3]. intros x I. rewrite Forall_forall in F. now apply F.
Qed.
(** the tokens of a tree *)
Lemma ns_toks : forall t s st, ns_ok s t = true -> forall k, ns_tokens (s :: st) (toks t ++ k) = ns_tokens (s :: st) k.
Proof.
  induction t as [q a c F|x|] using tree_ind'; intros s st E k; [|reflexivity|reflexivity].
  rewrite ns_elem in E. apply andb_prop in E as [E E3]. apply andb_prop in E as [E1 E2]. rewrite toks_elem. cbn [app ns_tokens hd]. rewrite E1, E2. cbn [andb].
  set (s' := inside a s) in *. assert (G : forall k, ns_tokens (s' :: s :: st) (ftoks c ++ k) = ns_tokens (s' :: s :: st) k).
  { clear E1 E2. induction c as [|t c IH]; intros k'; [reflexivity|]. inversion F as [|? ? F1 F2]; subst. cbn [forallb] in E3. apply andb_prop in E3 as [E3 E4].
    rewrite ftoks_cons, <- app_assoc, (F1 _ _ E3). now apply IH. }
  rewrite G. reflexivity.
Qed.
Lemma ns_toks_conv : forall t s st k, ns_tokens (s :: st) (toks t ++ k) = true -> ns_ok s t = true /\ ns_tokens (s :: st) k = true.
Proof.
  induction t as [q a c F|x|] using tree_ind'; intros s st k E; [|split; [reflexivity|exact E]|split; [reflexivity|exact E]].
  rewrite toks_elem in E. cbn [app ns_tokens hd] in E. rewrite ns_elem. apply andb_prop in E as [E E3]. rewrite E. cbn [andb].
  set (s' := inside a s) in *. assert (G : forall k, ns_tokens (s' :: s :: st) (ftoks c ++ k) = true -> forallb (ns_ok s') c = true /\ ns_tokens (s' :: s :: st) k = true).
  { clear - F. induction c as [|t c IH]; intros k' K; [split; [reflexivity|exact K]|]. inversion F as [|? ? F1 F2]; subst. rewrite ftoks_cons, <- app_assoc in K.
    destruct (F1 _ _ _ K) as [A B]. destruct (IH F2 _ B) as [C D]. cbn [forallb]. rewrite A, C. auto. }
  destruct (G _ E3) as [A B]. split; [exact A|exact B].
Qed.

(** ** building blocks *)
Definition has (s : scope) (p : string) : Prop := s p = true.
Definition base (s : scope) : Prop := Forall (has s) ["w"; "r"; "wp"; "wps"; "wpc"; "wpg"].
(** attributes that declare nothing *)
Definition oka (s : scope) (l : list attr) : bool := forallb (fun x => negb (String.eqb (fst (fst x)) "xmlns") && usable s (fst (fst x)))%bool l.
Definition okt (s : scope) (t : tree) : bool := ns_ok s t.
Definition okl (s : scope) (l : list tree) : bool := forallb (okt s) l.
Definition plain (s : scope) (q : qname) : Prop := (negb (String.eqb (fst q) "xmlns") && usable s (fst q))%bool = true.
Lemma plain_has : forall s p l, p <> "xmlns" -> has s p -> plain s (p, l).
Proof. intros s p l N K. unfold plain, usable. cbn [fst]. apply String.eqb_neq in N. rewrite N, K. now rewrite !orb_true_r. Qed.
Lemma plain_nn : forall s l, plain s (nn l). Proof. reflexivity. Qed.
Lemma plain_xml : forall s l, plain s (xml_ l). Proof. reflexivity. Qed.
Lemma base_has : forall s p, base s -> In p ["w"; "r"; "wp"; "wps"; "wpc"; "wpg"] -> has s p.
Proof. intros s p B I. unfold base in B. rewrite Forall_forall in B. auto. Qed.
Ltac pl := match goal with
  | |- plain _ (nn _) => apply plain_nn
  | |- plain _ (xml_ _) => apply plain_xml
  | |- plain _ _ => assumption
  | |- plain _ (a_ _) => apply plain_has; [discriminate|assumption]
  | |- plain _ (pic_ _) => apply plain_has; [discriminate|assumption]
  | |- plain _ _ => apply plain_has; [discriminate|apply base_has; [assumption|cbn; tauto]]
  end.
Lemma nodecl : forall s a p, oka s a = true -> declares a p = false.
Proof.
  intros s a p. induction a as [|x a IH]; intros E; [reflexivity|]. unfold oka, declares in *. cbn [forallb existsb] in *. apply andb_prop in E as [E1 E2].
  apply andb_prop in E1 as [E1 _]. apply negb_true_iff in E1. rewrite E1. cbn [andb orb]. now apply IH.
Qed.
Lemma plain_attr : forall s s' (x : attr), (negb (String.eqb (fst (fst x)) "xmlns") && usable s (fst (fst x)))%bool = true -> wider s s' -> ns_attr s' x = true.
Proof.
  intros s s' [[p l] v] X W. unfold ns_attr. cbn [fst snd] in *. apply andb_prop in X as [X1 X2]. apply negb_true_iff in X1. rewrite X1. now apply (usable_wider _ _ _ W).
Qed.
Lemma ok_elem : forall s q a c, plain s q -> oka s a = true -> okl s c = true -> okt s (Elem q a c) = true.
Proof.
  intros s q a c G A K. unfold okt. rewrite ns_elem. assert (W : wider s (inside a s)) by (intros p E; unfold inside; rewrite E; apply orb_true_r).
  apply andb_prop in G as [_ G]. rewrite (usable_wider _ _ _ W G). cbn [andb]. apply andb_true_intro. split.
  - eapply forallb_imp; [|exact A]. intros x _ X. now apply (plain_attr s).
  - eapply forallb_imp; [|exact K]. intros x _. now apply ok_wider.
Qed.
(** an element that declares the prefix of its name *)
Definition also (p : string) (s : scope) : scope := fun x => (String.eqb x p || s x)%bool.
Lemma ok_decl : forall s p l v a c, p <> "xmlns" -> named v = true -> oka s a = true -> okl (also p s) c = true -> okt s (Elem (p, l) (ato (xmlns p) v ++ a)%list c) = true.
Proof.
  intros s p l v a c N V A K. unfold okt. rewrite ns_elem. unfold ato. unfold named in V. apply negb_true_iff in V. rewrite V. cbn [app].
  set (a' := (xmlns p, v) :: a). assert (W : wider (also p s) (inside a' s)).
  { intros x E. unfold also in E. unfold inside, a', declares, xmlns. cbn [existsb fst snd]. rewrite String.eqb_refl. cbn [andb].
    rewrite String.eqb_sym. destruct (String.eqb x p); [reflexivity|]. cbn [orb] in *. rewrite E. apply orb_true_r. }
  assert (W' : wider s (inside a' s)) by (intros x E; apply W; unfold also; rewrite E; apply orb_true_r).
  assert (U : usable (inside a' s) p = true) by (apply (usable_wider _ _ _ W); unfold usable, also; rewrite String.eqb_refl; now rewrite !orb_true_r).
  change ((usable (inside a' s) p && forallb (ns_attr (inside a' s)) a' && forallb (ns_ok (inside a' s)) c)%bool = true). rewrite U. cbn [andb]. apply andb_true_intro. split.
  - change ((ns_attr (inside a' s) (xmlns p, v) && forallb (ns_attr (inside a' s)) a)%bool = true). apply andb_true_intro. split; [unfold ns_attr, xmlns; cbn [fst snd]; now rewrite String.eqb_refl, V|].
    eapply forallb_imp; [|exact A]. intros x _ X. now apply (plain_attr s).
  - eapply forallb_imp; [|exact K]. intros x _. now apply ok_wider.
Qed.
Lemma okl_app : forall s a b, okl s a = true -> okl s b = true -> okl s (a ++ b)%list = true.
Proof. intros s a b A B. unfold okl in *. rewrite forallb_app. now rewrite A, B. Qed.
Lemma okl_cons : forall s a b, okt s a = true -> okl s b = true -> okl s (a :: b)%list = true.
Proof. intros s a b A B. unfold okl in *. cbn [forallb]. now rewrite A, B. Qed.
Lemma okl_el : forall s A (f : A -> tree) x, (forall v, okt s (f v) = true) -> okl s (el f x) = true.
Proof. intros s A f [v|] K; [|reflexivity]. cbn [el]. apply okl_cons; auto. Qed.
Lemma okl_elb : forall s q b, plain s q -> okl s (elb q b) = true.
Proof. intros s q [] G; [|reflexivity]. cbn [elb]. apply okl_cons; auto. apply ok_elem; auto. Qed.
Lemma okl_map : forall s A (f : A -> tree) l, Forall (fun x => okt s (f x) = true) l -> okl s (map f l) = true.
Proof. intros s A f l F. induction F; [reflexivity|]. cbn [map]. apply okl_cons; auto. Qed.
Lemma okl_map' : forall s A (f : A -> tree) l, (forall x, okt s (f x) = true) -> okl s (map f l) = true.
Proof. intros s A f l F. apply okl_map. induction l; auto. Qed.
Lemma okl_flat : forall s A (f : A -> list tree) l, (forall x, okl s (f x) = true) -> okl s (flat_map f l) = true.
Proof. intros s A f l F. induction l; [reflexivity|]. cbn [flat_map]. apply okl_app; auto. Qed.
Lemma okl_chr : forall s x, okl s (chr x) = true.
Proof. intros s x. unfold chr. destruct (String.eqb x ""); reflexivity. Qed.
Lemma oka_app : forall s a b, oka s a = true -> oka s b = true -> oka s (a ++ b)%list = true.
Proof. intros s a b A B. unfold oka in *. rewrite forallb_app. apply andb_true_intro. split; assumption. Qed.
Lemma oka_one : forall s q v, plain s q -> oka s [(q, v)] = true.
Proof. intros s q v G. unfold oka, plain in *. cbn. now rewrite G. Qed.
Lemma oka_at : forall s q v, plain s q -> oka s (at_ q v) = true.
Proof. intros s q v G. now apply oka_one. Qed.
Lemma oka_ato : forall s q v, plain s q -> oka s (ato q v) = true.
Proof. intros s q v G. unfold ato. destruct (String.eqb v ""); [reflexivity|now apply oka_one]. Qed.
Lemma oka_ati : forall s q v, plain s q -> oka s (ati q v) = true.
Proof. intros s q v G. now apply oka_one. Qed.
Lemma oka_atio : forall s q v, plain s q -> oka s (atio q v) = true.
Proof. intros s q v G. unfold atio. destruct (Z.eqb (iv v) 0); [reflexivity|now apply oka_one]. Qed.
#[local] Hint Extern 1 (plain _ _) => pl : oks.
#[local] Hint Opaque oka okt okl plain has base : oks.
Ltac oks := intros; cbv beta; repeat match goal with
  | |- forall _, _ => intros
  | |- plain _ _ => pl
  | |- okt _ (Elem _ _ _) = true => apply ok_elem
  | |- okt _ (Chr _) = true => exact eq_refl
  | |- okt _ _ = true => solve [auto with oks nocore]
  | |- okl _ nil = true => exact eq_refl
  | |- okl _ (cons _ _) = true => apply okl_cons
  | |- okl _ (app _ _) = true => apply okl_app
  | |- okl _ (el _ _) = true => apply okl_el
  | |- okl _ (elb _ _) = true => apply okl_elb
  | |- okl _ (chr _) = true => apply okl_chr
  | H : Forall _ ?l |- okl _ (map _ ?l) = true => apply okl_map; exact H
  | |- okl _ (map _ _) = true => apply okl_map'
  | |- okl _ (flat_map _ _) = true => apply okl_flat
  | |- oka _ nil = true => exact eq_refl
  | |- oka _ (app _ _) = true => apply oka_app
  | |- oka _ (at_ _ _) = true => apply oka_at
  | |- oka _ (ato _ _) = true => apply oka_ato
  | |- oka _ (ati _ _) = true => apply oka_ati
  | |- oka _ (atio _ _) = true => apply oka_atio
  end.
Section Sc.
Variable s : scope.
Hypothesis B : base s.

Lemma n_val_el : forall q v, plain s q -> okt s (val_el q v) = true. Proof. unfold val_el. oks. Qed.
#[local] Hint Resolve n_val_el : oks.
Lemma n_val_elo : forall q v, plain s q -> okt s (val_elo q v) = true. Proof. unfold val_elo. oks. Qed.
#[local] Hint Resolve n_val_elo : oks.
Lemma n_val_eli : forall q v, plain s q -> okt s (val_eli q v) = true. Proof. unfold val_eli. oks. Qed.
#[local] Hint Resolve n_val_eli : oks.
Lemma n_rfonts : forall x, okt s (m_rfonts x) = true. Proof. unfold m_rfonts. oks. Qed.
#[local] Hint Resolve n_rfonts : oks.
Lemma n_spacing : forall x, okt s (m_spacing x) = true. Proof. unfold m_spacing. oks. Qed.
#[local] Hint Resolve n_spacing : oks.
Lemma n_ind : forall x, okt s (m_ind x) = true. Proof. unfold m_ind. oks. Qed.
#[local] Hint Resolve n_ind : oks.
Lemma n_shade : forall x, okt s (m_shade x) = true. Proof. unfold m_shade. oks. Qed.
#[local] Hint Resolve n_shade : oks.
Lemma n_rpr : forall x, okt s (m_rpr x) = true. Proof. unfold m_rpr. oks. Qed.
#[local] Hint Resolve n_rpr : oks.
Lemma n_tab : forall x, okt s (m_tab x) = true. Proof. unfold m_tab. oks. Qed.
#[local] Hint Resolve n_tab : oks.
Lemma n_tabs : forall x, okt s (m_tabs x) = true. Proof. unfold m_tabs. oks. Qed.
#[local] Hint Resolve n_tabs : oks.
Lemma n_numpr : forall x, okt s (m_numpr x) = true. Proof. unfold m_numpr. oks. Qed.
#[local] Hint Resolve n_numpr : oks.
Lemma n_ppr : forall x, okt s (m_ppr x) = true. Proof. unfold m_ppr. oks. Qed.
#[local] Hint Resolve n_ppr : oks.
Lemma n_text : forall x, okt s (m_text x) = true. Proof. unfold m_text. oks. Qed.
#[local] Hint Resolve n_text : oks.
Lemma n_br : forall x, okt s (m_br x) = true. Proof. unfold m_br. oks. Qed.
#[local] Hint Resolve n_br : oks.
Lemma n_extent : forall x, okt s (m_extent x) = true. Proof. unfold m_extent. oks. Qed.
#[local] Hint Resolve n_extent : oks.
Lemma n_effect : forall x, okt s (m_effect x) = true. Proof. unfold m_effect. oks. Qed.
#[local] Hint Resolve n_effect : oks.
Lemma n_docpr : forall x, okt s (m_docpr x) = true. Proof. unfold m_docpr. oks. Qed.
#[local] Hint Resolve n_docpr : oks.
Lemma n_nonvis : forall q x, plain s q -> okt s (m_nonvis q x) = true. Proof. unfold m_nonvis. oks. Qed.
#[local] Hint Resolve n_nonvis : oks.
Lemma n_off : forall q x, plain s q -> okt s (m_off q x) = true. Proof. unfold m_off. oks. Qed.
#[local] Hint Resolve n_off : oks.
Lemma n_ext : forall q x, plain s q -> okt s (m_ext q x) = true. Proof. unfold m_ext. oks. Qed.
#[local] Hint Resolve n_ext : oks.
Lemma n_lend : forall q x, plain s q -> okt s (m_lend q x) = true. Proof. unfold m_lend. oks. Qed.
#[local] Hint Resolve n_lend : oks.
Lemma n_border : forall q x, plain s q -> okt s (m_border q x) = true. Proof. unfold m_border. oks. Qed.
#[local] Hint Resolve n_border : oks.
Lemma n_borders : forall q x, plain s q -> okt s (m_borders q x) = true. Proof. unfold m_borders. oks. Qed.
#[local] Hint Resolve n_borders : oks.
Lemma n_wtype : forall q x, plain s q -> okt s (m_wtype q x) = true. Proof. unfold m_wtype. oks. Qed.
#[local] Hint Resolve n_wtype : oks.
Lemma n_tblpos : forall x, okt s (m_tblpos x) = true. Proof. unfold m_tblpos. oks. Qed.
#[local] Hint Resolve n_tblpos : oks.
Lemma n_look : forall x, okt s (m_look x) = true. Proof. unfold m_look. oks. Qed.
#[local] Hint Resolve n_look : oks.
Lemma n_tblpr : forall x, okt s (m_tblpr x) = true. Proof. unfold m_tblpr. oks. Qed.
#[local] Hint Resolve n_tblpr : oks.
Lemma n_grid : forall x, okt s (m_grid x) = true. Proof. unfold m_grid. oks. Qed.
#[local] Hint Resolve n_grid : oks.
Lemma n_trheight : forall x, okt s (m_trheight x) = true. Proof. unfold m_trheight. oks. Qed.
#[local] Hint Resolve n_trheight : oks.
Lemma n_trpr : forall x, okt s (m_trpr x) = true. Proof. unfold m_trpr. oks. Qed.
#[local] Hint Resolve n_trpr : oks.
Lemma n_tcpr : forall x, okt s (m_tcpr x) = true. Proof. unfold m_tcpr. oks. Qed.
#[local] Hint Resolve n_tcpr : oks.
Lemma n_sect : forall x, okt s (m_sect x) = true. Proof. unfold m_sect. oks. Qed.
#[local] Hint Resolve n_sect : oks.
Lemma n_wpos : forall q x, plain s q -> okt s (m_wpos q x) = true. Proof. unfold m_wpos. oks. Qed.
#[local] Hint Resolve n_wpos : oks.
Section WithA.
Hypothesis A : has s "a".
Lemma n_ablip : forall x, okt s (m_ablip x) = true. Proof. unfold m_ablip. oks. Qed.
#[local] Hint Resolve n_ablip : oks.
Lemma n_xfrm : forall x, okt s (m_xfrm x) = true. Proof. unfold m_xfrm. oks. Qed.
#[local] Hint Resolve n_xfrm : oks.
Lemma n_geom : forall x, okt s (m_geom x) = true. Proof. unfold m_geom. oks. Qed.
#[local] Hint Resolve n_geom : oks.
Lemma n_solid : forall x, okt s (m_solid x) = true. Proof. unfold m_solid. oks. Qed.
#[local] Hint Resolve n_solid : oks.
Lemma n_aline : forall x, okt s (m_aline x) = true. Proof. unfold m_aline. oks. Qed.
#[local] Hint Resolve n_aline : oks.
Lemma n_tile : forall x, okt s (m_tile x) = true. Proof. unfold m_tile. oks. Qed.
#[local] Hint Resolve n_tile : oks.
Lemma n_blipfill : forall x, okt s (m_blipfill x) = true. Proof. unfold m_blipfill. oks. Qed.
#[local] Hint Resolve n_blipfill : oks.
Lemma n_sppr : forall q x, plain s q -> okt s (m_sppr q x) = true. Proof. unfold m_sppr. oks. Qed.
#[local] Hint Resolve n_sppr : oks.
Lemma n_cnvcn : forall x, okt s (m_cnvcn x) = true. Proof. unfold m_cnvcn. oks. Qed.
#[local] Hint Resolve n_cnvcn : oks.
Lemma n_cnvsp : forall x, okt s (m_cnvsp x) = true. Proof. unfold m_cnvsp. oks. Qed.
#[local] Hint Resolve n_cnvsp : oks.
Lemma n_bodypr : forall x, okt s (m_bodypr x) = true. Proof. unfold m_bodypr. oks. Qed.
#[local] Hint Resolve n_bodypr : oks.
Lemma n_gcnv : forall x, okt s (m_gcnv x) = true. Proof. unfold m_gcnv. oks. Qed.
#[local] Hint Resolve n_gcnv : oks.
Section WithPic.
Hypothesis PI : has s "pic".
Lemma n_nvpic : forall x, okt s (m_nvpic x) = true. Proof. unfold m_nvpic. oks. Qed.
#[local] Hint Resolve n_nvpic : oks.
Lemma n_picblip : forall x, okt s (m_picblip x) = true. Proof. unfold m_picblip. oks. Qed.
#[local] Hint Resolve n_picblip : oks.
Lemma n_picsp : forall x, okt s (m_picsp x) = true. Proof. unfold m_picsp. oks. Qed.
#[local] Hint Resolve n_picsp : oks.
End WithPic.
End WithA.
End Sc.

Lemma wider_also : forall p s, wider s (also p s).
Proof. intros p s x E. unfold also. rewrite E. apply orb_true_r. Qed.
Lemma has_also : forall p s, has (also p s) p.
Proof. intros p s. unfold has, also. now rewrite String.eqb_refl. Qed.
Lemma base_also : forall p s, base s -> base (also p s).
Proof. intros p s B. unfold base in *. eapply Forall_impl; [|exact B]. intros x. apply wider_also. Qed.
#[local] Hint Resolve base_also has_also : core.
Lemma n_frame : forall s x, base s -> nd_frame x = true -> okt s (m_frame x) = true.
Proof.
  intros s x B N. unfold m_frame. apply ok_elem; [pl|reflexivity|]. apply okl_cons; [|reflexivity]. unfold a_.
  apply ok_decl; [discriminate|exact N|oks|reflexivity].
Qed.
Lemma n_pic : forall s x, base s -> has s "a" -> nd_pic x = true -> okt s (m_pic x) = true.
Proof.
  intros s x B A N. unfold m_pic. rewrite <- (app_nil_r (ato _ _)). unfold pic_ at 1. apply ok_decl; [discriminate|exact N|reflexivity|].
  assert (B' := base_also "pic" s B). assert (A' : has (also "pic" s) "a") by now apply wider_also. assert (P := has_also "pic" s).
  repeat apply okl_app; apply okl_el; intros v; [now apply n_nvpic|now apply n_picblip|now apply n_picsp].
Qed.
Lemma okl_opt : forall s A (f : A -> tree) o, (forall v, o = Some v -> okt s (f v) = true) -> okl s (el f o) = true.
Proof. intros s A f [v|] K; [|reflexivity]. cbn [el]. apply okl_cons; auto. Qed.
Lemma n_shapeR : forall s P (m : P -> tree) x, base s -> has s "a" ->
  (forall ps, shapeR_textBox x = Some (Some ps) -> Forall (fun p => okt s (m p) = true) ps) -> okt s (m_shapeR m x) = true.
Proof.
  intros s P m x B A H. unfold m_shapeR. apply ok_elem; [pl|reflexivity|]. repeat apply okl_app; apply okl_opt; intros v E.
  - (apply n_nonvis; first [assumption|pl]).
  - now apply n_cnvcn.
  - now apply n_cnvsp.
  - (apply n_sppr; first [assumption|pl]).
  - apply ok_elem; [pl|reflexivity|]. apply okl_opt. intros ps ->. apply ok_elem; [pl|reflexivity|]. apply okl_map. now apply H.
  - now apply n_bodypr.
Qed.
Lemma n_canvasR : forall s E (m : E -> tree) x, base s -> has s "a" -> Forall (fun e => okt s (m e) = true) (canvasR_items x) -> okt s (m_canvasR m x) = true.
Proof.
  intros s E m x B A H. unfold m_canvasR. apply ok_elem; [pl|reflexivity|]. repeat apply okl_app; [| |now apply okl_map]; apply okl_opt; intros v _; oks. now apply n_aline.
Qed.
Lemma n_groupR : forall s E (m : E -> tree) x, base s -> has s "a" -> Forall (fun e => okt s (m e) = true) (groupR_elems x) -> okt s (m_groupR m x) = true.
Proof.
  intros s E m x B A H. unfold m_groupR. apply ok_elem; [pl|reflexivity|]. repeat apply okl_app; [| |now apply okl_map]; apply okl_opt; intros v _;
    [now apply n_gcnv|(apply n_sppr; first [assumption|pl])].
Qed.
Lemma n_gshapeR : forall s E (m : E -> tree) x, base s -> has s "a" -> Forall (fun e => okt s (m e) = true) (gshapeR_elems x) -> okt s (m_gshapeR m x) = true.
Proof.
  intros s E m x B A H. unfold m_gshapeR. apply ok_elem; [pl|reflexivity|]. repeat apply okl_app; [| | |now apply okl_map]; apply okl_opt; intros v _;
    [(apply n_nonvis; first [assumption|pl])|now apply n_gcnv|(apply n_sppr; first [assumption|pl])].
Qed.
Lemma n_gdataR : forall s Sh Ca Gr (ms : Sh -> tree) (mc : Ca -> tree) (mg : Gr -> tree) x, base s -> has s "a" -> opt nd_pic (gdataR_pic x) = true ->
  (forall y, gdataR_shape x = Some y -> okt s (ms y) = true) -> (forall y, gdataR_canvas x = Some y -> okt s (mc y) = true) ->
  (forall y, gdataR_group x = Some y -> okt s (mg y) = true) -> okt s (m_gdataR ms mc mg x) = true.
Proof.
  intros s Sh Ca Gr ms mc mg x B A N H1 H2 H3. unfold m_gdataR. apply ok_elem; [pl|oks|]. repeat apply okl_app; apply okl_opt; auto.
  intros v E. rewrite E in N. now apply n_pic.
Qed.
Lemma n_graphicR : forall s D (m : D -> tree) x, named (graphicR_xmla x) = true -> (forall d, graphicR_data x = Some d -> okt (also "a" s) (m d) = true) -> okt s (m_graphicR m x) = true.
Proof.
  intros s D m x N H. unfold m_graphicR. rewrite <- (app_nil_r (ato _ _)). unfold a_. apply ok_decl; [discriminate|exact N|reflexivity|]. now apply okl_opt.
Qed.
Lemma n_inlineR : forall s G (m : G -> tree) x, base s -> opt nd_frame (inlineR_frame x) = true -> (forall g, inlineR_graphic x = Some g -> okt s (m g) = true) -> okt s (m_inlineR m x) = true.
Proof.
  intros s G m x B N H. unfold m_inlineR. apply ok_elem; [pl|oks|]. repeat apply okl_app; apply okl_opt; auto; intros v E;
    [now apply n_extent|now apply n_effect|now apply n_docpr|]. rewrite E in N. now apply n_frame.
Qed.
Lemma n_anchorR : forall s G (m : G -> tree) x, base s -> opt nd_frame (anchorR_frame x) = true -> (forall g, anchorR_graphic x = Some g -> okt s (m g) = true) -> okt s (m_anchorR m x) = true.
Proof.
  intros s G m x B N H. unfold m_anchorR. apply ok_elem; [pl|oks|]. repeat apply okl_app; try (apply okl_elb; pl); apply okl_opt; auto; intros v E;
    [(apply n_off; first [assumption|pl])|(apply n_wpos; first [assumption|pl])|(apply n_wpos; first [assumption|pl])|now apply n_extent|now apply n_effect|oks|now apply n_docpr|]. rewrite E in N. now apply n_frame.
Qed.
Lemma n_runR : forall s C (m : C -> tree) x, base s -> Forall (fun c => okt s (m c) = true) (runR_children x) -> okt s (m_runR m x) = true.
Proof.
  intros s C m x B H. unfold m_runR. apply ok_elem; [pl|oks|]. repeat apply okl_app; [apply okl_opt; intros; now apply n_rpr| |now apply okl_map].
  destruct (String.eqb (runR_instr x) "") eqn:E; oks.
Qed.
Lemma n_paraR : forall s C (m : C -> tree) x, base s -> Forall (fun c => okt s (m c) = true) (paraR_children x) -> okt s (m_paraR m x) = true.
Proof. intros s C m x B H. unfold m_paraR. apply ok_elem; [pl|oks|]. apply okl_app; [apply okl_opt; intros; now apply n_ppr|now apply okl_map]. Qed.

Lemma andb4 : forall a b c d, (a && b && c && d)%bool = true -> a = true /\ b = true /\ c = true /\ d = true.
Proof. intros [] [] [] []; cbn; auto. Qed.
Section Gp.
Variable gp : bool.
Fixpoint n_para (x : para) : forall s, base s -> nd_para gp x = true -> okt s (m_para x) = true
with n_pchild (x : pchild) : forall s, base s -> nd_pchild gp x = true -> okt s (m_pchild x) = true
with n_rchild (x : rchild) : forall s, base s -> nd_rchild gp x = true -> okt s (m_rchild x) = true
with n_shape (x : shape) : forall s, base s -> has s "a" -> nd_shape gp x = true -> okt s (m_shape x) = true
with n_canvas (x : canvas) : forall s, base s -> has s "a" -> nd_canvas gp x = true -> okt s (m_canvas x) = true
with n_citem (x : citem) : forall s, base s -> has s "a" -> nd_citem gp x = true -> okt s (m_citem x) = true
with n_group (x : group) : forall s, base s -> has s "a" -> nd_group gp x = true -> okt s (m_group x) = true
with n_gelem (x : gelem) : forall s, base s -> has s "a" -> nd_gelem gp x = true -> okt s (m_gelem x) = true.
Proof.
  - destruct x as [[p c f]]. intros s B. cbn [m_para nd_para]. intros N. apply n_paraR; [exact B|]. cbn [paraR_children] in *.
    clear -n_pchild N B. revert c N. fix go 1. intros [|y c] N; constructor; cbn [forallb] in N; apply andb_prop in N as [N1 N2]; [now apply n_pchild|now apply go].
  - intros s B. assert (R : forall c, forallb (nd_rchild gp) c = true -> Forall (fun x => okt s (m_rchild x) = true) c).
    { clear -n_rchild B. fix go 1. intros [|y c] N; constructor; cbn [forallb] in N; apply andb_prop in N as [N1 N2]; [now apply n_rchild|now apply go]. }
    destruct x as [[sp rp ins c]|id [sp rp ins c]|r]; cbn [m_pchild nd_pchild runR_children]; intros N.
    + apply n_runR; [exact B|]. now apply R.
    + oks. apply n_runR; [exact B|]. now apply R.
    + now apply n_rpr.
  - destruct x as [t|t|ty|i a]; intros s B; cbn [m_rchild nd_rchild]; intros N; [now apply n_text|now apply n_tab|now apply n_br|].
    apply andb_prop in N as [N1 N2]. assert (BA := base_also "a" s B). assert (HA := has_also "a" s).
    apply ok_elem; [pl|reflexivity|]. apply okl_app.
    + clear N2. destruct i as [[d1 d2 d3 d4 d5 d6 d7 fr [[xa [[uri pc sh cv g]|]]|] fi]|]; cbn [el opt inlineR_frame inlineR_graphic graphicR_xmla graphicR_data gdataR_pic gdataR_shape gdataR_canvas gdataR_group] in *; try reflexivity;
      (apply okl_cons; [|reflexivity]); apply andb_prop in N1 as [N0 N1]; (apply n_inlineR; [exact B|exact N0|]); cbn [inlineR_graphic]; try discriminate; intros ? E; injection E as <-;
      apply andb_prop in N1 as [N1 N2]; (apply n_graphicR; [exact N1|]); cbn [graphicR_data]; try discriminate; intros ? E; injection E as <-;
      apply andb4 in N2 as (P1 & P2 & P3 & P4); (apply n_gdataR; [exact BA|exact HA|exact P1| | |]); cbn [gdataR_shape gdataR_canvas gdataR_group].
      * destruct sh as [sh|]; [|discriminate]. intros ? E; injection E as <-. now apply n_shape.
      * destruct cv as [cv|]; [|discriminate]. intros ? E; injection E as <-. now apply n_canvas.
      * destruct g as [g|]; [|discriminate]. intros ? E; injection E as <-. now apply n_group.
    + clear N1. rename N2 into N1. destruct a as [[d1 d2 d3 d4 d5 d6 d7 d8 d9 d10 d11 d12 d13 d14 d15 d16 d17 d18 d19 [[xa [[uri pc sh cv g]|]]|] fi]|]; cbn [el opt anchorR_frame anchorR_graphic graphicR_xmla graphicR_data gdataR_pic gdataR_shape gdataR_canvas gdataR_group] in *; try reflexivity;
      (apply okl_cons; [|reflexivity]); apply andb_prop in N1 as [N0 N1]; (apply n_anchorR; [exact B|exact N0|]); cbn [anchorR_graphic]; try discriminate; intros ? E; injection E as <-;
      apply andb_prop in N1 as [N1 N2]; (apply n_graphicR; [exact N1|]); cbn [graphicR_data]; try discriminate; intros ? E; injection E as <-;
      apply andb4 in N2 as (P1 & P2 & P3 & P4); (apply n_gdataR; [exact BA|exact HA|exact P1| | |]); cbn [gdataR_shape gdataR_canvas gdataR_group].
      * destruct sh as [sh|]; [|discriminate]. intros ? E; injection E as <-. now apply n_shape.
      * destruct cv as [cv|]; [|discriminate]. intros ? E; injection E as <-. now apply n_canvas.
      * destruct g as [g|]; [|discriminate]. intros ? E; injection E as <-. now apply n_group.
  - destruct x as [[? ? ? ? [[ps|]|] ?]]; intros s B A; cbn [m_shape nd_shape shapeR_textBox opt]; intros N; (apply n_shapeR; [exact B|exact A|]); cbn [shapeR_textBox]; try discriminate.
    intros ps' E. injection E as <-. clear -n_para N B. revert ps N. fix go 1. intros [|y c] N; constructor; cbn [forallb] in N; apply andb_prop in N as [N1 N2]; [now apply n_para|now apply go].
  - destruct x as [[? ? c]]; intros s B A; cbn [m_canvas nd_canvas canvasR_items]; intros N. apply n_canvasR; [exact B|exact A|]. cbn [canvasR_items].
    clear -n_citem N B A. revert c N. fix go 1. intros [|y c] N; constructor; cbn [forallb] in N; apply andb_prop in N as [N1 N2]; [now apply n_citem|now apply go].
  - destruct x as [sh|p|g]; intros s B A; cbn [m_citem nd_citem]; intros N; [now apply n_shape|now apply n_pic|now apply n_group].
  - destruct x as [[? ? c]]; intros s B A; cbn [m_group nd_group groupR_elems]; intros N. apply n_groupR; [exact B|exact A|]. cbn [groupR_elems].
    clear -n_gelem N B A. revert c N. fix go 1. intros [|y c] N; constructor; cbn [forallb] in N; apply andb_prop in N as [N1 N2]; [now apply n_gelem|now apply go].
  - destruct x as [p|sh|c|[? ? ? c]]; intros s B A; cbn [m_gelem nd_gelem gshapeR_elems]; intros N; [apply andb_prop in N as [_ N]; now apply n_pic|now apply n_shape|now apply n_canvas|].
    apply n_gshapeR; [exact B|exact A|]. cbn [gshapeR_elems]. clear -n_gelem N B A. revert c N. fix go 1. intros [|y c] N; constructor; cbn [forallb] in N; apply andb_prop in N as [N1 N2]; [now apply n_gelem|now apply go].
Qed.
Lemma Forall_b : forall A (f : A -> bool) (P : A -> Prop) l, (forall x, f x = true -> P x) -> forallb f l = true -> Forall P l.
Proof. intros A f P l K F. rewrite forallb_forall in F. apply Forall_forall. auto. Qed.
Lemma n_item : forall x s, base s -> nd_item gp x = true -> okt s (m_item x) = true.
Proof.
  intros [p|t|x] s B N; cbn [m_item nd_item] in *; [now apply n_para| |now apply n_sect].
  unfold m_table. apply ok_elem; [pl|oks|]. repeat apply okl_app; [apply okl_opt; intros; now apply n_tblpr|apply okl_opt; intros; now apply n_grid|].
  apply okl_map. eapply Forall_b; [|exact N]. clear N. intros r N. cbv beta in N. unfold m_row. apply ok_elem; [pl|oks|]. apply okl_app; [apply okl_opt; intros; now apply n_trpr|].
  apply okl_map. eapply Forall_b; [|exact N]. clear N. intros c N. cbv beta in N. unfold m_cell. apply ok_elem; [pl|oks|]. apply okl_app; [apply okl_opt; intros; now apply n_tcpr|].
  apply okl_map. eapply Forall_b; [|exact N]. intros p K. now apply n_para.
Qed.
(** a whole document *)
Lemma n_document : forall l, forallb (nd_item gp) l = true -> ns_ok nowhere (m_document l) = true.
Proof.
  intros l N. unfold m_document, m_document_of. rewrite ns_elem. set (s := inside doc_attrs nowhere). assert (B : base s) by (repeat constructor).
  change (usable s (fst (w "document"))) with true. change (forallb (ns_attr s) doc_attrs) with true. cbn [andb].
  change (okl s [Elem (w "body") [] (map m_item l)] = true). apply okl_cons; [|reflexivity]. apply ok_elem; [pl|reflexivity|]. apply okl_map. eapply Forall_b; [|exact N]. intros x K. now apply n_item.
Qed.
End Gp.
