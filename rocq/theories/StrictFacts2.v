(** What a successful load has read: trees and items. *)
From Coq Require Import String Ascii List Bool Arith NArith ZArith Lia.
From Verif Require Import GoStr Num Lib Types XmlTok Unmarshal DecLemmas SpecXml XmlFacts SpecStrict StrictFacts.
Import ListNotations.
Local Open Scope string_scope.
Local Open Scope list_scope.

(** ** a stream that passes the nesting check up to an end element is a forest *)

(** forests and the end elements that close them *)
Fixpoint closes (ls : list (list tree)) (qs : list qname) : list token :=
  match ls, qs with
  | l :: ls', q :: qs' => ftoks l ++ TEnd q :: closes ls' qs'
  | _, _ => []
  end.

Lemma qname_eq : forall q q' : qname, (String.eqb (fst q) (fst q') && String.eqb (snd q) (snd q'))%bool = true -> q = q'.
Proof. intros [a b] [c d] E. apply andb_prop in E. destruct E as [E1 E2]. apply String.eqb_eq in E1, E2. cbn in *. congruence. Qed.

Lemma closed_forest : forall ts d qs open c r, List.length qs = S d -> ~ In TEof ts ->
  push_from d (check (qs ++ open) ts) = c ++ TEof :: r -> clean c ->
  exists ls post, List.length ls = S d /\ ts = closes ls qs ++ post /\ r = check open post.
Proof.
  induction ts as [|t ts IH]; intros d qs open c r Lq NE E C.
  - destruct qs as [|q qs]; [discriminate|]. cbn in E. destruct c as [|x c]; [discriminate|]. injection E as <- _.
    inversion C; contradiction.
  - assert (NE' : ~ In TEof ts) by (intros I; apply NE; right; exact I).
    destruct qs as [|q0 qs]; [discriminate|]. injection Lq as Lq.
    destruct t; cbn [check app push_from] in E.
    + destruct c as [|x c]; [discriminate|]. injection E as <- E. inversion C as [|? ? Cx Cc]; subst.
      destruct (IH (S (List.length qs)) (q :: q0 :: qs) open c r) as [ls [post [Ll [-> ->]]]]; auto.
      destruct ls as [|l0 [|l1 ls]]; try discriminate Ll. exists ((Elem q a l0 :: l1) :: ls), post.
      split; [cbn in *; lia|]. split; [|reflexivity]. cbn [closes]. rewrite ftoks_cons, toks_elem. cbn [app]. f_equal.
      repeat (rewrite <- app_assoc; cbn [app]). reflexivity.
    + destruct (String.eqb (fst q) (fst q0) && String.eqb (snd q) (snd q0))%bool eqn:Q.
      * apply qname_eq in Q. subst q0. cbn [push_from] in E. destruct c as [|x c]; [discriminate|]. injection E as <- E.
        inversion C as [|? ? Cx Cc]; subst. destruct qs as [|q1 qs].
        -- cbn [List.length app] in E. exists [[]], ts. split; [reflexivity|]. split; [reflexivity|].
           destruct c as [|y c]; [injection E as ->; reflexivity|]. injection E as <- _. inversion Cc; contradiction.
        -- cbn [List.length] in E. destruct (IH (List.length qs) (q1 :: qs) open c r) as [ls [post [Ll [-> ->]]]]; auto.
           exists ([] :: ls), post. split; [cbn; lia|]. split; reflexivity.
      * cbn [push_from] in E. destruct c as [|x c]; [discriminate|]. injection E as <- _. inversion C; contradiction.
    + destruct c as [|x c]; [discriminate|]. injection E as <- E. inversion C as [|? ? Cx Cc]; subst.
      destruct (IH (List.length qs) (q0 :: qs) open c r) as [ls [post [Ll [-> ->]]]]; auto.
      destruct ls as [|l0 ls]; [discriminate Ll|]. exists ((Chr s :: l0) :: ls), post. repeat split; auto.
    + destruct c as [|x c]; [discriminate|]. injection E as <- E. inversion C as [|? ? Cx Cc]; subst.
      destruct (IH (List.length qs) (q0 :: qs) open c r) as [ls [post [Ll [-> ->]]]]; auto.
      destruct ls as [|l0 ls]; [discriminate Ll|]. exists ((Cmt :: l0) :: ls), post. repeat split; auto.
    + destruct c as [|x c]; [discriminate|]. injection E as <- _. inversion C; contradiction.
    + exfalso. apply NE. left. reflexivity.
Qed.

(** ** streams without marks *)

Lemma check_no_mark : forall ts open, ~ In TEof (check open ts).
Proof.
  induction ts as [|t ts IH]; intros open I; cbn [check] in I.
  - destruct open; cbn in I; intuition discriminate.
  - destruct t; cbn [In] in I; try (destruct I as [I|I]; [discriminate | eapply IH; eauto]; fail).
    + destruct open as [|q' open]; [cbn in I; intuition discriminate|].
      destruct (_ && _)%bool; cbn in I; [destruct I as [I|I]; [discriminate | eapply IH; eauto] | intuition discriminate].
    + destruct I as [I|[]]. discriminate.
    + eapply IH; eauto.
Qed.

Lemma check_wfm : forall ts open, wfm (map (fun _ => false) open) (check open ts).
Proof.
  induction ts as [|t ts IH]; intros open; cbn [check].
  - destruct open; repeat constructor.
  - destruct t; try (constructor; apply IH).
    + constructor. apply (IH (q :: open)).
    + destruct open as [|q' open]; [repeat constructor|]. destruct (_ && _)%bool; [|repeat constructor]. cbn [map]. constructor. apply IH.
    + repeat constructor.
    + apply IH.
Qed.

Section Items.
Context `{GoLib}.

Lemma check_numeric : forall ts open, numeric ts -> numeric (check open ts).
Proof.
  intros ts open N q a I. apply N. clear N. revert open I. induction ts as [|t ts IH]; intros open I; cbn [check] in I.
  - destruct open; cbn in I; intuition discriminate.
  - destruct t; cbn [In] in I |- *; try (destruct I as [I|I]; [left; exact I | right; eapply IH; eauto]; fail).
    + destruct open as [|q' open]; [cbn in I; intuition discriminate|].
      destruct (_ && _)%bool; cbn in I; [destruct I as [I|I]; [discriminate | right; eapply IH; eauto] | intuition discriminate].
    + destruct I as [I|[]]. discriminate.
    + right. eapply IH; eauto.
Qed.

(** a successful load has read one well-formed element *)
Lemma root_tree : forall {A} (u : list attr -> list token -> out A) z ts x,
  (forall l, uS l u) -> numeric ts -> ~ In TEof ts -> root u z (check [] ts) = (x, SOk) ->
  exists pre q a c post ts', ts = pre ++ toks (Elem q a c) ++ post /\ prolog pre /\
    sub (u a) (ftoks c ++ TEnd q :: check [] post) = (x, SOk, ts').
Proof.
  intros A u z ts x Hu. induction ts as [|t ts IH]; intros N NE E; [discriminate|].
  assert (NE' : ~ In TEof ts) by (intros I; apply NE; right; exact I).
  assert (N' := numeric_tl _ _ N).
  destruct t; cbn [check root] in E; try discriminate.
  - assert (W := check_wfm ts [q]).
    assert (G := sub_S (u a) (check [q] ts) [] (check_numeric _ _ N') W
                  (fun p Np Wp => Hu (snd q) a p _ (numeric_hd _ _ _ N) Np Wp)).
    destruct (sub (u a) (check [q] ts)) as [[x' st] ts'] eqn:ES. injection E as -> ->. destruct G as [Sk [c [Ec Cc]]].
    assert (P : push_from 0 (check [q] ts) = c ++ TEof :: ts').
    { clear -Sk Ec Cc. rewrite Ec in *. unfold skip in Sk. clear Ec. 
      assert (G : forall c d, clean c -> skip_from d (c ++ ts') = (SOk, ts') -> push_from d (c ++ ts') = c ++ TEof :: ts').
      { clear. assert (Q : forall l d r, skip_from d l = (SOk, r) -> List.length r < List.length l).
        { induction l as [|t l IHl]; intros d r E; cbn [skip_from] in E; [discriminate|].
          destruct t; try discriminate; try (apply IHl in E; cbn; lia). destruct d; [injection E as <-; cbn; lia | apply IHl in E; cbn; lia]. }
        induction c as [|t c IHc]; intros d C E.
        - apply Q in E. cbn in E. lia.
        - inversion C as [|? ? Ct Cc]; subst. destruct t; cbn [app skip_from push_from] in *; try contradiction; try (f_equal; apply IHc; auto).
          destruct d; [|f_equal; apply IHc; auto]. injection E as E. assert (c = []) as ->; [|reflexivity].
          apply (f_equal (@List.length _)) in E. rewrite app_length in E. destruct c; [reflexivity | cbn in E; lia]. }
      apply G; auto. }
    destruct (closed_forest ts 0 [q] [] c ts') as [ls [post [Ll [-> ->]]]]; auto.
    destruct ls as [|l0 [|? ?]]; try discriminate. cbn [closes] in *.
    exists [], q, a, l0, post, (check [] post). split; [|split].
    + cbn [app]. rewrite toks_elem. rewrite <- app_assoc. reflexivity.
    + constructor.
    + rewrite <- ES. f_equal. rewrite <- app_assoc. cbn [app].
      assert (CF : forall l o k, check o (ftoks l ++ k) = ftoks l ++ check o k).
      { clear. assert (CT : forall t o k, check o (toks t ++ k) = toks t ++ check o k).
        { induction t as [q a c F|s|] using tree_ind'; intros o k; [|reflexivity|reflexivity].
          rewrite !toks_elem. cbn [check]. f_equal.
          assert (G : forall o k, check o (ftoks c ++ k) = ftoks c ++ check o k).
          { clear -F. induction F as [|t c Ht F IH]; intros o k; [reflexivity|]. rewrite ftoks_cons, <- !app_assoc, Ht, IH. reflexivity. }
          rewrite G. cbn [check]. rewrite !String.eqb_refl. reflexivity. }
        induction l as [|t l IHl]; intros o k; [reflexivity|]. rewrite ftoks_cons, <- !app_assoc, CT, IHl. reflexivity. }
      rewrite CF. cbn [check]. rewrite !String.eqb_refl. reflexivity.
  - destruct (IH N' NE' E) as [pre [q' [a [c [post [ts' [-> [P S]]]]]]]]. exists (TChar s :: pre), q', a, c, post, ts'.
    split; [reflexivity|]. split; [constructor; auto | exact S].
  - destruct (IH N' NE' E) as [pre [q' [a [c [post [ts' [-> [P S]]]]]]]]. exists (TMisc :: pre), q', a, c, post, ts'.
    split; [reflexivity|]. split; [constructor; auto | exact S].
  - exfalso. apply NE. left. reflexivity.
Qed.

(** ** the items *)

Lemma wfm_tree : forall t K k, wfm K k -> wfm K (toks t ++ k).
Proof.
  induction t as [q a c F|s|] using tree_ind'; intros K k W; [|constructor; exact W|constructor; exact W].
  rewrite toks_elem. constructor.
  assert (G : forall K k, wfm K k -> wfm K (ftoks c ++ k)).
  { clear -F. induction F as [|t c Ht F IH]; intros K k W; [exact W|]. rewrite ftoks_cons, <- app_assoc. auto. }
  apply G. constructor. exact W.
Qed.
Lemma wfm_forest : forall c K k, wfm K k -> wfm K (ftoks c ++ k).
Proof. induction c as [|t c IH]; intros K k W; [exact W|]. rewrite ftoks_cons, <- app_assoc. apply wfm_tree. auto. Qed.

(** the states a loop over the children goes through *)
Fixpoint chain {X} (R : X -> tree -> X -> Prop) (s : X) (l : list tree) (s' : X) : Prop :=
  match l with
  | [] => s = s'
  | t :: l' => exists s1, R s t s1 /\ chain R s1 l' s'
  end.

(** The loop over the children of an element, for handlers that read the whole
    child: the state changes by [R] for each child element. *)
Lemma loop_forest : forall {X} (h : X -> string -> list attr -> list token -> out X) (R : X -> tree -> X -> Prop),
  (forall s q a c k K s' ts', attrs_numeric (snd q) a -> numeric (ftoks c ++ TEnd q :: k) -> wfm K k ->
     h s (snd q) a (ftoks c ++ TEnd q :: k) = (s', SOk, ts') -> ts' = k /\ R s (Elem q a c) s') ->
  (forall s x, R s (Chr x) s) -> (forall s, R s Cmt s) ->
  forall l n s q k K s' ts', numeric (ftoks l ++ TEnd q :: TEof :: k) -> wfm K k ->
    loop_n n h s (ftoks l ++ TEnd q :: TEof :: k) = (s', SOk, ts') -> chain R s l s'.
Proof.
  intros X h R Hh HC HM. induction l as [|t l IH]; intros n s q k K s' ts' N W E.
  - destruct n as [|n]; [discriminate|]. cbn [ftoks flat_map app loop_n] in E.
    destruct n as [|n]; [discriminate|]. cbn [loop_n] in E. cbn. congruence.
  - destruct n as [|n]; [discriminate|]. rewrite ftoks_cons, <- app_assoc in *.
    destruct t as [q1 a1 c1|x|].
    + rewrite toks_elem in *. cbn [loop_n] in E.
      destruct (h s (snd q1) a1 (ftoks c1 ++ TEnd q1 :: ftoks l ++ TEnd q :: TEof :: k)) as [[s1 st] t1] eqn:Eh.
      destruct st; try discriminate.
      destruct (Hh s q1 a1 c1 (ftoks l ++ TEnd q :: TEof :: k) (true :: K) s1 t1) as [-> HR]; auto.
      { eapply numeric_hd; eauto. } { eapply numeric_tl; eauto. } { apply wfm_forest. now constructor. }
      exists s1. split; [exact HR|]. eapply (IH n s1 q k K s' ts'); auto.
      apply numeric_tl in N. apply numeric_app in N. apply numeric_tl in N. exact N.
    + cbn [toks app loop_n] in E. exists s. split; auto. eapply (IH n s q k K s' ts'); auto. exact (numeric_tl _ _ N).
    + cbn [toks app loop_n] in E. exists s. split; auto. eapply (IH n s q k K s' ts'); auto. exact (numeric_tl _ _ N).
Qed.

Lemma decode_exact : forall {X A} (u : list attr -> list token -> out A) (set : A -> X -> X) s q a c k K s' ts',
  uS (snd q) u -> attrs_numeric (snd q) a -> numeric (ftoks c ++ TEnd q :: k) -> wfm K k ->
  decode (u a) set s (ftoks c ++ TEnd q :: k) = (s', SOk, ts') ->
  ts' = k /\ exists x, s' = set x s /\ exists r, u a (ftoks c ++ TEnd q :: TEof :: k) = (x, SOk, r).
Proof.
  intros X A u set s q a c k K s' ts' Hu An N W E. unfold decode in E.
  assert (W' : wfm (false :: K) (ftoks c ++ TEnd q :: k)) by (apply wfm_forest; now constructor).
  assert (G := sub_S (u a) _ K N W' (fun p Np Wp => Hu a p _ An Np Wp)).
  unfold sub in *. rewrite push_eof_forest in *.
  destruct (u a (ftoks c ++ TEnd q :: TEof :: k)) as [[x st] r].
  destruct st.
  - destruct (pop_eof r) as [r'|]; [|discriminate]. rewrite skip_forest in G. destruct G as [G _]. injection G as <-.
    injection E as <- <-. split; auto. exists x. split; auto. exists r. reflexivity.
  - exfalso. destruct (pop_eof r); exact G.
  - destruct (pop_eof r); discriminate.
  - destruct (pop_eof r); discriminate.
Qed.

Definition item_name (t : tree) : list string :=
  match t with
  | Elem q _ _ => if (String.eqb (snd q) "p" || String.eqb (snd q) "tbl" || String.eqb (snd q) "sectPr")%bool then [snd q] else []
  | _ => []
  end.

Lemma item_names_app : forall a b, item_names (a ++ b) = item_names a ++ item_names b.
Proof. intros. apply map_app. Qed.

Lemma body_items : forall f s a q c k K s' r, numeric (ftoks c ++ TEnd q :: TEof :: k) -> wfm K k ->
  u_body f s a (ftoks c ++ TEnd q :: TEof :: k) = (s', SOk, r) -> item_names s' = item_names s ++ flat_map item_name c.
Proof.
  intros f s a q c k K s' r N W E. unfold u_body, loopd, loop in E.
  assert (C : chain (fun s t s' => item_names s' = item_names s ++ item_name t) s c s').
  { eapply loop_forest; [| | |exact N|exact W|exact E].
    - clear. intros s q a c k K s' ts' An N W E. unfold eswitch in E. cbn [switch item_name] in *.
      destruct (String.eqb (snd q) "p") eqn:Ep.
      { apply String.eqb_eq in Ep. unfold child in E. eapply decode_exact in E; eauto; [|apply s_para].
        destruct E as [-> [x [-> _]]]. split; auto. unfold push. rewrite item_names_app. cbn. rewrite Ep. reflexivity. }
      destruct (String.eqb (snd q) "tbl") eqn:Et.
      { apply String.eqb_eq in Et. unfold child in E. eapply decode_exact in E; eauto; [|apply s_table].
        destruct E as [-> [x [-> _]]]. split; auto. unfold push. rewrite item_names_app. cbn. rewrite Et. reflexivity. }
      destruct (String.eqb (snd q) "sectPr") eqn:Es.
      { apply String.eqb_eq in Es. unfold child in E. eapply decode_exact in E; eauto; [|apply s_sect].
        destruct E as [-> [x [-> _]]]. split; auto. unfold push. rewrite item_names_app. cbn. rewrite Es. reflexivity. }
      unfold skipping in E. rewrite skip_forest in E. injection E as <- <-. split; auto. cbn. now rewrite app_nil_r.
    - intros. cbn. now rewrite app_nil_r.
    - intros. cbn. now rewrite app_nil_r. }
  clear -C. revert s C. induction c as [|t c IH]; intros s C; cbn in C.
  - subst. cbn. now rewrite app_nil_r.
  - destruct C as [s1 [E C]]. rewrite (IH _ C), E. cbn [flat_map]. now rewrite app_assoc.
Qed.

Lemma document_items : forall f a q c k K s' r, numeric (ftoks c ++ TEnd q :: TEof :: k) -> wfm K k ->
  u_document f a (ftoks c ++ TEnd q :: TEof :: k) = (s', SOk, r) -> item_names s' = item_elements (Elem q a c).
Proof.
  intros f a q c k K s' r N W E. unfold u_document, loopd, loop in E.
  assert (C : chain (fun s t s' => item_names s' = item_names s ++ (if named "body" t then flat_map item_name (children t) else [])) [] c s').
  { eapply loop_forest; [| | |exact N|exact W|exact E].
    - clear. intros s q a c k K s' ts' An N W E. unfold eswitch in E. cbn [switch named children] in *.
      destruct (String.eqb (snd q) "body") eqn:Ep.
      { unfold childin in E. eapply (decode_exact (u_body f s)) in E; eauto; [|apply s_body].
        destruct E as [-> [x [-> [r E]]]]. split; auto. eapply body_items; eauto.
        intros q' a' I. apply N. apply in_app_or in I. apply in_or_app. cbn in *. intuition discriminate. }
      unfold skipping in E. rewrite skip_forest in E. injection E as <- <-. split; auto. now rewrite app_nil_r.
    - intros. cbn. now rewrite app_nil_r.
    - intros. cbn. now rewrite app_nil_r. }
  clear -C. unfold item_elements, body_children. cbn [children].
  assert (G : forall s, chain (fun s t s' => item_names s' = item_names s ++ (if named "body" t then flat_map item_name (children t) else [])) s c s' ->
     item_names s' = item_names s ++ flat_map item_name (flat_map children (filter (named "body") c))).
  { clear C. induction c as [|t c IH]; intros s C; cbn in C.
    - subst. cbn. now rewrite app_nil_r.
    - destruct C as [s1 [E C]]. rewrite (IH _ C), E. cbn [filter]. destruct (named "body" t); cbn [flat_map]; rewrite ?flat_map_app, ?app_nil_r, ?app_assoc; reflexivity. }
  rewrite (G _ C). reflexivity.
Qed.

Lemma loaded_whole : forall f ts items, numeric ts -> ~ In TEof ts -> parse_document f ts = (items, SOk) ->
  exists pre q a c post, ts = pre ++ toks (Elem q a c) ++ post /\ prolog pre /\ item_names items = item_elements (Elem q a c).
Proof.
  intros f ts items N NE E. unfold parse_document in E.
  apply root_tree in E; auto; [|intros; apply s_document].
  destruct E as [pre [q [a [c [post [ts' [-> [P E]]]]]]]]. exists pre, q, a, c, post. split; [reflexivity|]. split; [exact P|].
  unfold sub in E. rewrite push_eof_forest in E.
  destruct (u_document f a (ftoks c ++ TEnd q :: TEof :: check [] post)) as [[x st] r] eqn:Eu.
  assert (st = SOk /\ x = items) as [-> ->]. { destruct st; destruct (pop_eof r); try discriminate E; inversion E; subst; auto. }
  eapply document_items; [| |exact Eu].
  - intros q' a' I. apply in_app_or in I. destruct I as [I|[I|[I|I]]]; try discriminate.
    + apply N. apply in_or_app. right. apply in_or_app. left. rewrite <- (app_nil_r (toks _)), toks_elem. right. apply in_or_app. left. exact I.
    + revert q' a' I. apply check_numeric. apply numeric_app in N. apply numeric_app in N. exact N.
  - apply (check_wfm post []).
Qed.
End Items.

(** ** a document that is not closed loads *)

Definition unclosed : list token :=
  [TStart (w "document") []; TStart (w "body") []; TStart (w "p") []; TStart (w "pPr") [];
   TStart (w "snapToGrid") [(w "val", "false")]; TEnd (w "snapToGrid"); TEnd (w "pPr"); TEnd (w "p"); TEnd (w "body")].

Lemma unclosed_loads : forall (L : GoLib) f, get_int "false" = GExp i0 ->
  parse_document f unclosed = ([IPara (mk_para (Some ppr0) [] f)], SOk).
Proof.
  intros L f G. unfold parse_document, unclosed.
  match goal with |- context [check ?a ?b] => let r := eval vm_compute in (check a b) in change (check a b) with r end.
  cbn [root]. unfold sub. match goal with |- context [push_eof ?a] => let r := eval vm_compute in (push_eof a) in change (push_eof a) with r end.
  match goal with |- context [u_document ?f [] ?ts] => assert (E : exists k, u_document f [] ts = ([IPara (mk_para (Some ppr0) [] f)], SOk, TEof :: k)) end.
  { unfold u_document, loopd. eexists. apply loops_sound. eapply l_start.
    - cbn [snd w eswitch switch String.eqb Ascii.eqb Bool.eqb]. unfold childin, decode, sub.
      match goal with |- context [push_eof ?a] => let r := eval vm_compute in (push_eof a) in change (push_eof a) with r end.
      pose proof (trunc_body L f G) as P. unfold w in P. rewrite P. cbn [pop_eof]. reflexivity.
    - cbn [size]. lia.
    - apply l_end. apply l_eof. }
  destruct E as [k E]. unfold w in E. rewrite E. reflexivity.
Qed.

Lemma unclosed_witness : exists ts, ~ In TEof ts /\
  (forall pre q a c post, prolog pre -> ts <> pre ++ toks (Elem q a c) ++ post) /\
  forall (L : GoLib) f, lib_float "false" = None -> snd (parse_document f ts) = SOk.
Proof.
  exists unclosed. split; [|split].
  - unfold unclosed. cbn. intuition discriminate.
  - intros pre q a c post P E. destruct pre as [|t pre].
    + cbn [app] in E. rewrite toks_elem in E. unfold unclosed in E. injection E as _ _ E.
      apply (f_equal (fun l => fst (skip l))) in E. rewrite skip_forest in E. discriminate.
    + unfold unclosed in E. injection E as <- _. inversion P. contradiction.
  - intros L f E. rewrite unclosed_loads; [reflexivity|]. unfold get_int. cbn. now rewrite E.
Qed.

Lemma loaded_well_formed : forall (L : GoLib) f ts, numeric ts -> ~ In TEof ts ->
  snd (parse_document f ts) = SOk ->
  exists pre q a c post, ts = pre ++ toks (Elem q a c) ++ post /\ prolog pre.
Proof.
  intros L f ts N NE E. destruct (parse_document f ts) as [items st] eqn:P. cbn in E. subst st.
  destruct (loaded_whole f ts items N NE P) as [pre [q [a [c [post [E1 [E2 _]]]]]]]. exists pre, q, a, c, post. auto.
Qed.
