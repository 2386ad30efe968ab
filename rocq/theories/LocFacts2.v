(** What stands before the first unreadable number, and what stands before the
    first syntax error. *)
From Coq Require Import String Ascii List Bool Arith NArith ZArith Lia.
From Verif Require Import GoStr Num Lib Types XmlTok Unmarshal DecLemmas SpecXml XmlFacts SpecStrict StrictFacts StrictFacts2 LocFacts SpecBefore.
Import ListNotations.
Local Open Scope string_scope.
Local Open Scope list_scope.

Lemma cl_tree : forall t d k, cl d (toks t ++ k) <-> cl d k.
Proof.
  induction t as [q a c F|s|] using tree_ind'; intros d k; [|reflexivity|reflexivity].
  rewrite toks_elem. cbn [cl].
  assert (G : forall d k, cl d (ftoks c ++ k) <-> cl d k).
  { clear -F. induction F as [|t c Ht F IH]; intros d k; [reflexivity|]. rewrite ftoks_cons, <- app_assoc, Ht. apply IH. }
  rewrite G. reflexivity.
Qed.
Lemma cl_forest : forall c d k, cl d (ftoks c ++ k) <-> cl d k.
Proof. induction c as [|t c IH]; intros d k; [reflexivity|]. rewrite ftoks_cons, <- app_assoc, cl_tree. apply IH. Qed.
Lemma M_tree : forall t k, M k -> M (toks t ++ k).
Proof.
  induction t as [q a c F|s|] using tree_ind'; intros k W; [|exact W|exact W].
  rewrite toks_elem. cbn [M].
  assert (G : forall k, M k -> M (ftoks c ++ k)).
  { clear -F. induction F as [|t c Ht F IH]; intros k W; [exact W|]. rewrite ftoks_cons, <- app_assoc. auto. }
  split; [apply cl_forest; exact I | apply G; exact W].
Qed.
Lemma M_forest : forall c k, M k -> M (ftoks c ++ k).
Proof. induction c as [|t c IH]; intros k W; [exact W|]. rewrite ftoks_cons, <- app_assoc. apply M_tree. auto. Qed.

Section Before.
Context `{GoLib}.

(** a handler does with an element what it would do with any other
    continuation: it reads all of it, or it fails *)
Definition kept {X} (h : list token -> out X) (q : qname) (c : list tree) : Prop :=
  (exists s1, forall k, h (ftoks c ++ TEnd q :: k) = (s1, SOk, k)) \/
  (exists s1 st, st <> SOk /\ st <> SExp /\ forall k, exists r, h (ftoks c ++ TEnd q :: k) = (s1, st, r)).

Lemma numeric_ends : forall c q, numeric (ftoks c) -> numeric (ftoks c ++ [TEnd q]).
Proof. intros c q N q' a I. apply in_app_or in I. destruct I as [I|[I|[]]]; [apply N; exact I | discriminate]. Qed.

Lemma decode_kept : forall {X A} (u : list attr -> list token -> out A) (set : A -> X -> X) s q a c,
  uS (snd q) u -> (forall B, uL B u u) -> attrs_numeric (snd q) a -> numeric (ftoks c) ->
  kept (decode (u a) set s) q c.
Proof.
  intros X A u set s q a c Hu Hl An N.
  set (p := ftoks c ++ [TEnd q]).
  assert (Mp : M p) by (apply M_forest; exact I).
  assert (Same : forall k, same 0 (size p) [] k (u a (p ++ [TEof])) (u a (p ++ TEof :: k))).
  { intros k. apply (Hl (S (size p)) 0 (size p) a p [] k); auto; lia. }
  assert (G := sub_S (u a) (ftoks c ++ [TEnd q]) [] (numeric_ends c q N)
     (wfm_forest c [false] [TEnd q] (w_end [] q [] (w_nil []))) (fun p Np Wp => Hu a p _ An Np Wp)).
  unfold kept, decode, sub in *. rewrite push_eof_forest in G.
  assert (Ep : forall k, ftoks c ++ TEnd q :: TEof :: k = p ++ TEof :: k) by (intros; unfold p; now rewrite <- app_assoc).
  rewrite Ep in G.
  destruct (u a (p ++ [TEof])) as [[x st] r0] eqn:E0.
  assert (Shape : exists c1, r0 = c1 ++ [TEof] /\ forall k, u a (p ++ TEof :: k) = (x, st, c1 ++ TEof :: k)).
  { destruct (Same []) as (x' & st' & c1 & Q & _). injection Q as <- <- ->. exists c1. split; [reflexivity|].
    intros k. destruct (Same k) as (x2 & st2 & c2 & Q & Q2 & _). injection Q as <- <- Q. apply app_inv_tail in Q. subst c2. exact Q2. }
  destruct Shape as [c1 [-> Sh]]. clear E0 Same.
  assert (Sub : forall k, (let '(x0, st0, ts') := u a (push_eof (ftoks c ++ TEnd q :: k)) in
     match st0 with
     | SOk => match pop_eof ts' with Some ts'' => (x0, SOk, ts'') | None => (x0, SAbort XNotConsumed, ts') end
     | _ => match pop_eof ts' with Some ts'' => (x0, st0, ts'') | None => (x0, st0, ts') end
     end) = match st with
     | SOk => match pop_eof (c1 ++ TEof :: k) with Some ts'' => (x, SOk, ts'') | None => (x, SAbort XNotConsumed, c1 ++ TEof :: k) end
     | _ => match pop_eof (c1 ++ TEof :: k) with Some ts'' => (x, st, ts'') | None => (x, st, c1 ++ TEof :: k) end
     end).
  { intros k. rewrite push_eof_forest, Ep, Sh. reflexivity. }
  destruct st.
  - destruct c1 as [|t1 c1].
    + left. exists (set x s). intros k. rewrite push_eof_forest, Ep, Sh. reflexivity.
    + destruct t1; try (right; exists s, (SAbort XNotConsumed); split; [discriminate|]; split; [discriminate|]; intros k; rewrite push_eof_forest, Ep, Sh; eexists; reflexivity).
      exfalso. cbn [app pop_eof] in G. destruct G as [G _]. rewrite skip_forest in G. destruct c1; discriminate G.
  - exfalso. destruct (pop_eof (c1 ++ [TEof])); exact G.
  - right. exists s, (SAbort e). split; [discriminate|]. split; [discriminate|]. intros k. rewrite push_eof_forest, Ep, Sh.
    destruct (pop_eof (c1 ++ TEof :: k)); eexists; reflexivity.
  - right. exists s, SFuel. split; [discriminate|]. split; [discriminate|]. intros k. rewrite push_eof_forest, Ep, Sh.
    destruct (pop_eof (c1 ++ TEof :: k)); eexists; reflexivity.
Qed.

Lemma skipping_kept : forall {X} (s : X) q c, kept (skipping s) q c.
Proof. intros. left. exists s. intros k. unfold skipping. now rewrite skip_forest. Qed.

Definition body_h (f : option nat) := eswitch
  [("p", child (u_para f) (push IPara)); ("tbl", child (u_table f) (push ITable)); ("sectPr", child u_sect (push ISect))].
Definition document_h (f : option nat) := eswitch [("body", childin (u_body f) (fun s => s) (fun x (_ : list item) => x))].

Lemma body_kept : forall f s q a c, attrs_numeric (snd q) a -> numeric (ftoks c) -> kept (body_h f s (snd q) a) q c.
Proof.
  intros f s q a c An N. unfold body_h, eswitch. cbn [switch]. unfold child.
  destruct (String.eqb (snd q) "p"); [apply decode_kept; auto; [apply s_para | intros; apply l_para]|].
  destruct (String.eqb (snd q) "tbl"); [apply decode_kept; auto; [apply s_table | intros; apply l_table]|].
  destruct (String.eqb (snd q) "sectPr"); [apply decode_kept; auto; [apply s_sect | intros; apply l_sect]|].
  apply skipping_kept.
Qed.
Lemma document_kept : forall f s q a c, attrs_numeric (snd q) a -> numeric (ftoks c) -> kept (document_h f s (snd q) a) q c.
Proof.
  intros f s q a c An N. unfold document_h, eswitch. cbn [switch]. unfold childin.
  destruct (String.eqb (snd q) "body"); [apply decode_kept; auto; [apply s_body | intros; apply l_body]|].
  apply skipping_kept.
Qed.

(** the loop over the children, whatever follows them *)
Lemma loop_kept : forall {X} (h : X -> string -> list attr -> list token -> out X),
  (forall s q a c, attrs_numeric (snd q) a -> numeric (ftoks c) -> kept (h s (snd q) a) q c) ->
  forall l s, numeric (ftoks l) ->
  (exists s1 d, d <= size (ftoks l) /\ forall n k, loop_n (n + d) h s (ftoks l ++ k) = loop_n n h s1 k) \/
  (forall n k, let '(_, st, _) := loop_n n h s (ftoks l ++ k) in st <> SOk /\ st <> SExp).
Proof.
  intros X h Hh. induction l as [|t l IH]; intros s N.
  - left. exists s, 0. split; [lia|]. intros n k. now rewrite Nat.add_0_r.
  - assert (Nl : numeric (ftoks l)) by (rewrite ftoks_cons in N; eapply numeric_app; eauto).
    destruct t as [q a c|x|].
    + rewrite ftoks_cons in N. rewrite <- (app_nil_r (toks _ ++ _)), <- app_assoc, toks_elem in N.
      assert (An := numeric_hd _ _ _ N). apply numeric_tl in N.
      assert (Nc : numeric (ftoks c)) by (intros q' a' I'; apply N; apply in_or_app; auto).
      destruct (Hh s q a c An Nc) as [[s1 K]|[s1 [st [S1 [S2 K]]]]].
      * destruct (IH s1 Nl) as [[s2 [d [Ld E]]]|E].
        -- left. exists s2, (S d). split.
           { rewrite ftoks_cons, LocFacts.size_app. assert (1 <= size (toks (Elem q a c))); [|lia].
             rewrite <- (app_nil_r (toks _)), toks_elem. cbn [size]. lia. }
           intros n k. rewrite Nat.add_succ_r. rewrite ftoks_cons, <- app_assoc, toks_elem. cbn [loop_n]. rewrite K. apply E.
        -- right. intros n k. rewrite ftoks_cons, <- app_assoc, toks_elem. destruct n as [|n]; [split; discriminate|].
           cbn [loop_n]. rewrite K. apply E.
      * right. intros n k. rewrite ftoks_cons, <- app_assoc, toks_elem. destruct n as [|n]; [split; discriminate|].
        cbn [loop_n]. destruct (K (ftoks l ++ k)) as [r Er]. rewrite Er. destruct st; try contradiction; split; assumption.
    + destruct (IH s Nl) as [[s2 [d [Ld E]]]|E].
      * left. exists s2, (S d). split.
        { change (S d <= S (size (ftoks l))). lia. }
        intros n k. rewrite Nat.add_succ_r. cbn. apply E.
      * right. intros n k. destruct n as [|n]; [split; discriminate|]. cbn. apply E.
    + destruct (IH s Nl) as [[s2 [d [Ld E]]]|E].
      * left. exists s2, (S d). split.
        { change (S d <= S (size (ftoks l))). lia. }
        intros n k. rewrite Nat.add_succ_r. cbn. apply E.
      * right. intros n k. destruct n as [|n]; [split; discriminate|]. cbn. apply E.
Qed.

(** ** the items only grow *)
Definition grows (h : list item -> string -> list attr -> list token -> out (list item)) : Prop :=
  forall s l a ts, exists m, fst (fst (h s l a ts)) = s ++ m.

Lemma loop_grows : forall h, grows h -> forall n s ts, exists m, fst (fst (loop_n n h s ts)) = s ++ m.
Proof.
  intros h Hh. induction n as [|n IH]; intros s ts; [exists []; cbn; now rewrite app_nil_r|].
  assert (Z : exists m, s = s ++ m) by (exists []; now rewrite app_nil_r).
  cbn [loop_n]. destruct ts as [|t ts]; [exact Z|]. destruct t; try exact Z; try apply IH.
  destruct (h s (snd q) a ts) as [[s1 st] ts1] eqn:E. destruct (Hh s (snd q) a ts) as [m Em]. rewrite E in Em. cbn in Em. subst s1.
  destruct st; try (exists m; reflexivity). destruct (IH (s ++ m) ts1) as [m2 E2]. rewrite E2. exists (m ++ m2). now rewrite app_assoc.
Qed.

Lemma push_grows : forall {A} (u : list attr -> list token -> out A) (g : A -> item) s a ts,
  exists m, fst (fst (child u (push g) s a ts)) = s ++ m.
Proof.
  intros. unfold child, decode. destruct (sub (u a) ts) as [[x st] r]. 
  destruct st; cbn; unfold push; try (eexists; reflexivity); exists []; now rewrite app_nil_r.
Qed.
Lemma skipping_grows : forall (s : list item) ts, exists m, fst (fst (skipping s ts)) = s ++ m.
Proof. intros. unfold skipping. destruct (skip ts). exists []. cbn. now rewrite app_nil_r. Qed.

Lemma body_grows : forall f, grows (body_h f).
Proof.
  intros f s l a ts. unfold body_h, eswitch. cbn [switch].
  repeat (destruct (String.eqb l _); [apply push_grows|]). apply skipping_grows.
Qed.
Lemma document_grows : forall f, grows (document_h f).
Proof.
  intros f s l a ts. unfold document_h, eswitch. cbn [switch]. destruct (String.eqb l "body"); [|apply skipping_grows].
  unfold childin, decode, sub. destruct (u_body f s a (push_eof ts)) as [[x st] r] eqn:E.
  assert (G : exists m, x = s ++ m).
  { destruct (loop_grows (body_h f) (body_grows f) (S (size (push_eof ts))) s (push_eof ts)) as [m Em]. exists m. rewrite <- Em.
    change (loop_n (S (size (push_eof ts))) (body_h f) s (push_eof ts)) with (u_body f s a (push_eof ts)). now rewrite E. }
  destruct G as [m ->]. assert (Z : exists m, s = s ++ m) by (exists []; now rewrite app_nil_r).
  destruct st; destruct (pop_eof r); cbn; try exact Z; exists m; reflexivity.
Qed.

(** ** what stands before *)

Lemma check_forest : forall l o k, check o (ftoks l ++ k) = ftoks l ++ check o k.
Proof. induction l as [|t l IHl]; intros o k; [reflexivity|]. rewrite ftoks_cons, <- !app_assoc, RoundTrip2.check_tree, IHl. reflexivity. Qed.
Lemma push_from_forest : forall l d k, push_from d (ftoks l ++ k) = ftoks l ++ push_from d k.
Proof. induction l as [|t l IHl]; intros o k; [reflexivity|]. rewrite ftoks_cons, <- !app_assoc, push_from_tree, IHl. reflexivity. Qed.

Lemma root_prolog : forall {A} (u : list attr -> list token -> out A) z pre ts, prolog pre ->
  snd (root u z (check [] (pre ++ ts))) = SOk -> root u z (check [] (pre ++ ts)) = root u z (check [] ts).
Proof.
  intros A u z. induction pre as [|t pre IH]; intros ts P E; [reflexivity|].
  inversion P as [|? ? Pt Pp]; subst.
  destruct t; cbn [app check root] in *; try contradiction; try (apply IH; auto; fail); try discriminate.
Qed.

Lemma items_of_forest : forall f l s s1 d, numeric (ftoks l) -> d <= size (ftoks l) ->
  (forall n k, loop_n (n + d) (body_h f) s (ftoks l ++ k) = loop_n n (body_h f) s1 k) ->
  item_names s1 = item_names s ++ flat_map item_name l.
Proof.
  intros f l s s1 d N Ld E.
  assert (U : u_body f s [] (ftoks l ++ TEnd ("", "") :: TEof :: []) = (s1, SOk, [TEof])).
  { change (loop_n (S (size (ftoks l ++ [TEnd ("", ""); TEof]))) (body_h f) s (ftoks l ++ [TEnd ("", ""); TEof]) = (s1, SOk, [TEof])).
    replace (S (size (ftoks l ++ [TEnd ("", ""); TEof]))) with ((S (S (size (ftoks l) - d))) + d).
    - rewrite E. reflexivity.
    - rewrite LocFacts.size_app. cbn [size]. lia. }
  eapply body_items; [| |exact U]; [|constructor].
  intros q a I. apply N. apply in_app_or in I. destruct I as [I|[I|[I|[]]]]; try discriminate. exact I.
  Unshelve. exact [].
Qed.

(** the state of the document loop behind complete children *)
Lemma document_names : forall f l s s1 d, numeric (ftoks l) -> d <= size (ftoks l) ->
  (forall n k, loop_n (n + d) (document_h f) s (ftoks l ++ k) = loop_n n (document_h f) s1 k) ->
  s = [] -> item_names s1 = flat_map item_name (flat_map children (filter (named "body") l)).
Proof.
  intros f l s s1 d N Ld E ->.
  assert (U : u_document f [] (ftoks l ++ TEnd ("", "") :: TEof :: []) = (s1, SOk, [TEof])).
  { change (loop_n (S (size (ftoks l ++ [TEnd ("", ""); TEof]))) (document_h f) [] (ftoks l ++ [TEnd ("", ""); TEof]) = (s1, SOk, [TEof])).
    replace (S (size (ftoks l ++ [TEnd ("", ""); TEof]))) with ((S (S (size (ftoks l) - d))) + d).
    - rewrite E. reflexivity.
    - rewrite LocFacts.size_app. cbn [size]. lia. }
  eapply document_items in U; [| |constructor]; [exact U|].
  intros q a I. apply N. apply in_app_or in I. destruct I as [I|[I|[I|[]]]]; try discriminate. exact I.
  Unshelve. exact [].
Qed.

Lemma loaded_before : forall f pre q a c0 qb ab c rest items,
  prolog pre -> snd qb = "body" -> numeric (ftoks c0) -> numeric (ftoks c) ->
  parse_document f (pre ++ TStart q a :: ftoks c0 ++ TStart qb ab :: ftoks c ++ rest) = (items, SOk) ->
  exists items0 more, items = items0 ++ more /\
    parse_document f (toks (Elem q a (c0 ++ [Elem qb ab c]))) = (items0, SOk) /\
    item_names items0 = item_elements (Elem q a (c0 ++ [Elem qb ab c])).
Proof.
  intros f pre q a c0 qb ab c rest items P Qb N0 N E. unfold parse_document in *.
  assert (E1 : snd (root (u_document f) [] (check [] (pre ++ TStart q a :: ftoks c0 ++ TStart qb ab :: ftoks c ++ rest))) = SOk) by now rewrite E.
  rewrite (root_prolog _ _ _ _ P E1) in E. clear E1 P.
  cbn [check] in E. rewrite check_forest in E. cbn [check] in E. rewrite check_forest in E.
  match type of E with context [check ?o rest] => set (r' := check o rest) in E end. clearbody r'. cbn [root] in E.
  unfold sub in E. unfold push_eof in E. rewrite push_from_forest in E. cbn [push_from] in E. rewrite push_from_forest in E.
  set (r2 := push_from 1 r') in E. clearbody r2. clear r' rest.
  match type of E with context [u_document f a ?ts] => destruct (u_document f a ts) as [[x st] z] eqn:U; set (TS := ts) in * end.
  assert (st = SOk /\ x = items) as [-> ->] by (destruct st; destruct (pop_eof z); try discriminate E; inversion E; subst; auto).
  clear E. change (loop_n (S (size TS)) (document_h f) [] TS = (items, SOk, z)) in U.
  destruct (loop_kept (document_h f) (document_kept f) c0 [] N0) as [[sa [da [La Ka]]]|B];
    [|exfalso; specialize (B (S (size TS)) (TStart qb ab :: ftoks c ++ r2)); fold TS in B; rewrite U in B; destruct B; congruence].
  destruct (loop_kept (body_h f) (body_kept f) c sa N) as [[sb [db [Lb Kb]]]|B].
  2: { exfalso. replace (S (size TS)) with ((S (size TS - da)) + da) in U.
       2: { unfold TS. rewrite LocFacts.size_app. lia. }
       unfold TS in U at 2. rewrite Ka in U. cbn [loop_n] in U. unfold document_h at 1, eswitch in U. cbn [switch] in U. rewrite Qb in U. cbn [String.eqb Ascii.eqb Bool.eqb] in U.
       unfold childin, decode, sub in U. unfold push_eof in U. rewrite push_from_forest in U.
       match type of U with context [u_body f sa ab ?t] => specialize (B (S (size t)) (push_from 0 r2)); 
         change (u_body f sa ab t) with (loop_n (S (size t)) (body_h f) sa t) in U; destruct (loop_n (S (size t)) (body_h f) sa t) as [[xb stb] rb] end.
       destruct B as [B1 B2]. destruct stb; try contradiction; destruct (pop_eof rb); discriminate U. }
  assert (Short : loop_n (S (size (ftoks (c0 ++ [Elem qb ab c]) ++ [TEnd q; TEof]))) (document_h f) [] (ftoks (c0 ++ [Elem qb ab c]) ++ [TEnd q; TEof]) = (sb, SOk, [TEof])).
  { rewrite ftoks_app, <- app_assoc, ftoks_cons, <- app_assoc, toks_elem. cbn [ftoks flat_map app].
    match goal with |- loop_n (S (size ?t)) _ _ _ = _ => replace (S (size t)) with ((S (S (S (S (size (ftoks c0) + size (ftoks c) - da))))) + da) end.
    2: { rewrite LocFacts.size_app. cbn [size]. rewrite LocFacts.size_app. cbn [size]. lia. }
    rewrite Ka. cbn [loop_n]. unfold document_h at 1, eswitch. cbn [switch]. rewrite Qb. cbn [String.eqb Ascii.eqb Bool.eqb].
    unfold childin, decode, sub. rewrite push_eof_forest.
    match goal with |- context [u_body f sa ab ?t] => change (u_body f sa ab t) with (loop_n (S (size t)) (body_h f) sa t) end.
    match goal with |- context [loop_n (S (size ?t)) (body_h f)] => replace (S (size t)) with ((S (S (S (size (ftoks c) - db)))) + db) end.
    2: { rewrite LocFacts.size_app. cbn [size]. lia. }
    rewrite Kb. reflexivity. }
  assert (Grow : exists more, items = sb ++ more).
  { replace (S (size TS)) with ((S (size TS - da)) + da) in U.
    2: { unfold TS. rewrite LocFacts.size_app. lia. }
    unfold TS in U at 2. rewrite Ka in U. cbn [loop_n] in U. unfold document_h at 1, eswitch in U. cbn [switch] in U. rewrite Qb in U. cbn [String.eqb Ascii.eqb Bool.eqb] in U.
    unfold childin, decode, sub in U. unfold push_eof in U. rewrite push_from_forest in U.
    match type of U with context [u_body f sa ab ?t] => change (u_body f sa ab t) with (loop_n (S (size t)) (body_h f) sa t) in U end.
    match type of U with context [loop_n (S (size ?t)) (body_h f)] => replace (S (size t)) with ((S (size t - db)) + db) in U end.
    2: { rewrite LocFacts.size_app. lia. }
    rewrite Kb in U.
    match type of U with context [loop_n ?n (body_h f) sb ?t] => destruct (loop_grows (body_h f) (body_grows f) n sb t) as [m Em]; destruct (loop_n n (body_h f) sb t) as [[xb stb] rb] end.
    cbn [fst] in Em. subst xb.
    assert (G : exists n t, loop_n n (document_h f) (sb ++ m) t = (items, SOk, z)).
    { destruct stb; destruct (pop_eof rb); try discriminate U; do 2 eexists; exact U. }
    destruct G as [n [t G]]. destruct (loop_grows (document_h f) (document_grows f) n (sb ++ m) t) as [m2 E2]. rewrite G in E2. cbn in E2.
    exists (m ++ m2). now rewrite app_assoc. }
  destruct Grow as [more ->]. exists sb, more. split; [reflexivity|]. split.
  - rewrite <- (app_nil_r (toks _)), RoundTrip2.check_tree, toks_elem. cbn [root check]. unfold sub. rewrite push_eof_forest.
    change (u_document f a) with (fun ts => loop_n (S (size ts)) (document_h f) [] ts). cbv beta. rewrite Short. reflexivity.
  - rewrite (items_of_forest f c sa sb db N Lb Kb), (document_names f c0 [] sa da N0 La Ka eq_refl).
    unfold item_elements, body_children. cbn [children]. rewrite filter_app. cbn [filter named]. rewrite Qb. cbn [String.eqb Ascii.eqb Bool.eqb].
    rewrite flat_map_app, flat_map_app. cbn [flat_map children]. rewrite app_nil_r. reflexivity.
Qed.

(** ** the first syntax error *)

Lemma check_open : forall seen qs, open_after seen qs -> forall tail, check [] (seen ++ tail) = seen ++ check qs tail.
Proof.
  induction 1 as [|ts qs q a O IH|ts qs q O IH|ts qs s O IH|ts qs O IH]; intros tail; [reflexivity| | | |];
    rewrite <- !app_assoc, IH; cbn [app check]; try reflexivity.
  rewrite !String.eqb_refl. reflexivity.
Qed.
Lemma check_broken : forall qs tail, broken qs tail -> check qs tail = [TErr].
Proof.
  destruct 1 as [q qs|qs ts|q q' qs ts D|q ts]; try reflexivity. cbn [check].
  destruct (String.eqb (fst q') (fst q) && String.eqb (snd q') (snd q))%bool eqn:E; [|reflexivity].
  apply qname_eq in E. congruence.
Qed.
Lemma open_no_mark : forall seen qs, open_after seen qs -> ~ In TEof seen.
Proof. induction 1; intros I; [exact I| | | |]; apply in_app_or in I; destruct I as [I|[I|[]]]; auto; discriminate. Qed.

Lemma error_before : forall f seen qs tail, open_after seen qs -> broken qs tail -> numeric seen ->
  (forall pre q a c post, prolog pre -> seen <> pre ++ toks (Elem q a c) ++ post) ->
  snd (parse_document f (seen ++ tail)) <> SOk.
Proof.
  intros f seen qs tail O B N NR E. unfold parse_document in E. rewrite (check_open _ _ O), (check_broken _ _ B) in E.
  change [TErr] with (check qs [TErr]) in E. rewrite <- (check_open _ _ O) in E.
  destruct (loaded_well_formed _ f (seen ++ [TErr])) as [pre [q [a [c [post [Ep P]]]]]]; auto.
  - intros q a I. apply in_app_or in I. destruct I as [I|[I|[]]]; [apply N; exact I | discriminate].
  - intros I. apply in_app_or in I. destruct I as [I|[I|[]]]; [eapply open_no_mark; eauto | discriminate].
  - destruct post as [|t post] using rev_ind.
    + rewrite app_nil_r, <- (app_nil_r (toks _)), toks_elem in Ep. change (TStart q a :: ftoks c ++ [TEnd q]) with ((TStart q a :: ftoks c) ++ [TEnd q]) in Ep.
      rewrite app_assoc in Ep. apply app_inj_tail in Ep. destruct Ep; discriminate.
    + rewrite !app_assoc in Ep. apply app_inj_tail in Ep. destruct Ep as [Ep _]. rewrite <- app_assoc in Ep. exact (NR _ _ _ _ _ P Ep).
Qed.
End Before.
