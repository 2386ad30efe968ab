(** Proofs for PropXml.v. *)
From Coq Require Import String Ascii List Bool Arith NArith ZArith Lia.
From Verif Require Import GoStr Num Lib Types XmlTok Marshal Unmarshal DecLemmas DecFuel Reload RoundTrip RoundTrip2 SpecXml.
Import ListNotations.
Local Open Scope string_scope.
Local Open Scope list_scope.

Section F.
Context `{GoLib}.

Lemma parse_doc_of : forall f body items,
  Dec (u_body f []) (Elem (w "body") [] body) items ->
  parse_document f (toks (doc_of body)) = (items, SOk).
Proof.
  intros f body items HB.
  assert (HD : Dec (u_document f) (doc_of body) items).
  { apply loopd_dec. apply kids_one. apply (childin_act (u_body f) (fun s => s) (fun x _ => x) [] _ _ HB). }
  unfold parse_document. rewrite <- (app_nil_r (toks (doc_of body))), check_tree.
  unfold doc_of in *. rewrite toks_elem. cbn [root].
  pose proof (sub_dec _ _ _ _ _ HD (check [] [])) as E. rewrite E. reflexivity.
Qed.

Notation hrun D f := (fun s l a ts => run_parse D f (S (size ts)) s l a ts).

Lemma parse_run_doc : forall f c r, (forall D, Kids (hrun D f) run0 c r) ->
  parse_document f (toks (run_doc c)) = ([IPara (Para (mk_paraR None [PRun r] f))], SOk).
Proof.
  intros f c r HK. apply parse_doc_of. apply loopd_dec. apply kids_one.
  apply (child_act (u_para f) (push IPara) []). intros k.
  unfold u_para. set (n := size _). cbn [tie d_para]. unfold u_paraR.
  match goal with |- context [loop ?h ?s0 ?ts] =>
    assert (E : loop h s0 ts = ((None, [PRun r]), SOk, TEof :: k)); [|rewrite E; reflexivity] end.
  apply kids_loop. apply kids_one.
  eapply act_via; [reflexivity | reflexivity | apply child_act | reflexivity].
  intros k'. unfold u_run, attrs_loop. cbn [attrs]. apply kids_loop. apply HK.
Qed.

Lemma text_loop_pieces : forall l s q k, Forall piece l ->
  text_loop s (ftoks l ++ TEnd q :: TEof :: k) = (set_text_text (last_chardata (text_text s) l) s, SOk, TEof :: k).
Proof.
  induction l as [|t l IH]; intros s q k F.
  - destruct s; reflexivity.
  - inversion F as [|? ? Ht F']; subst. rewrite ftoks_cons, <- app_assoc.
    destruct Ht as [->|[c ->]]; cbn [toks app text_loop last_chardata].
    + now apply IH.
    + rewrite IH by assumption. destruct s; reflexivity.
Qed.

Lemma load_text : forall f a l, Forall piece l ->
  parse_document f (toks (run_doc [Elem (w "t") a l])) =
  (run_items f None [RText (mk_text (text_space (fst (attrs (aswitch [("space", av set_text_space)]) text0 a))) (last_chardata "" l))], SOk).
Proof.
  intros f a l F. apply parse_run_doc. intros D. apply run_one. intros k.
  change (pchildh u_text RText run0 a (ftoks l ++ TEnd (w "t") :: k) = (add_child (RText (mk_text (text_space (fst (attrs (aswitch [("space", av set_text_space)]) text0 a))) (last_chardata "" l))) run0, SOk, k)).
  apply (pchildh_dec u_text RText). intros k'. unfold u_text. rewrite text_loop_pieces by assumption.
  assert (T : text_text (fst (attrs (aswitch [("space", av set_text_space)]) text0 a)) = "").
  { assert (G : forall a s, text_text (fst (attrs (aswitch [("space", av set_text_space)]) s a)) = text_text s).
    { clear. induction a as [|[q v] a IH]; intros s; [reflexivity|]. cbn [attrs]. unfold aswitch, switch, av.
      destruct (String.eqb (snd q) "space"); cbn; rewrite IH; destruct s; reflexivity. }
    rewrite G. reflexivity. }
  destruct (fst _) as [sp tx]; cbn in T; subst; reflexivity.
Qed.

Lemma load_bold : forall f a b,
  parse_document f (toks (run_doc [Elem (w "rPr") [] [Elem (w "b") a []; Elem (w "i") b []]])) =
  (run_items f (Some (set_rpr_bold true (set_rpr_italic true rpr0))) [], SOk).
Proof.
  intros f a b. apply parse_run_doc. intros D. apply run_one. intros k.
  change (snd (w "rPr")) with "rPr". rewrite run_parse_rpr.
  rewrite (decode_dec u_rpr (fun x => set_runR_rpr (Some x)) _ _ _ (set_rpr_bold true (set_rpr_italic true rpr0))); [reflexivity|].
  apply loopd_dec. eapply kids_cons; [apply (flat_act (fun _ => set_rpr_bold true))|].
  eapply kids_cons; [apply (flat_act (fun _ => set_rpr_italic true))|]. apply kids_nil.
Qed.
End F.

Lemma load_text_ex : forall `{GoLib} f a l, Forall piece l -> exists sp,
  parse_document f (toks (run_doc [Elem (w "t") a l])) = (run_items f None [RText (mk_text sp (last_chardata "" l))], SOk).
Proof. intros L f a l F. eexists. now apply load_text. Qed.

Lemma load_text_one : forall `{GoLib} f s,
  parse_document f (toks (run_doc [Elem (w "t") [] [Chr s]])) = (run_items f None [RText (mk_text "" s)], SOk).
Proof. intros L f s. rewrite load_text; [reflexivity|]. constructor; [right; eauto|constructor]. Qed.

Lemma text_witness : exists l, Forall piece l /\ forall (L : GoLib) f,
  forall sp, parse_document f (toks (run_doc [Elem (w "t") [] l])) <> (run_items f None [RText (mk_text sp (chardata l))], SOk).
Proof.
  exists [Chr "a"; Cmt; Chr "b"]. assert (F : Forall piece [Chr "a"; Cmt; Chr "b"]) by (repeat (constructor; [unfold piece; eauto|]); constructor).
  split; [exact F|]. intros L f sp E. rewrite load_text in E by exact F. inversion E.
Qed.

Lemma toggle_witness : exists (t : tree) (a : list attr), toggled_off a /\
  t = run_doc [Elem (w "rPr") [] [Elem (w "b") a []; Elem (w "i") a []]] /\
  forall (L : GoLib) f, exists items,
    parse_document f (toks t) = (items, SOk) /\
    m_document items = Elem (w "document") doc_attrs [Elem (w "body") [] [Elem (w "p") [] [Elem (w "r") []
        [Elem (w "rPr") [] [Elem (w "b") [] []; Elem (w "i") [] []]]]]].
Proof.
  eexists. exists [(w "val", "0")]. split; [exists "0"; split; [now left|now left]|]. split; [reflexivity|].
  intros L f. eexists. split; [apply load_bold|]. reflexivity.
Qed.

Lemma numbering_always_lost : forall `{GoLib} f l,
  Forall (fun n => n = None) (numberings (fst (parse_document f (toks (m_document l))))).
Proof.
  intros L f l. rewrite parse_marshal. cbn [fst]. induction l as [|x l IH]; [constructor|].
  destruct x as [p|t|s]; cbn [map reload_item numberings flat_map app]; [|exact IH|exact IH].
  constructor; [|exact IH]. destruct p as [[pp c fi]]. unfold para_ppr. cbn. destruct pp as [pp|]; [destruct pp|]; reflexivity.
Qed.

Lemma numbering_lost_witness : exists (l : list item), forall (L : GoLib) f,
  numberings (fst (parse_document f (toks (m_document l)))) <> numberings l.
Proof.
  exists [IPara (mk_para (Some (set_ppr_num (Some (mk_numpr (Some "1") (Some "0"))) ppr0)) [] None)].
  intros L f. rewrite parse_marshal. cbn. discriminate.
Qed.

Lemma trunc_ppr : forall (L : GoLib), get_int "false" = GExp i0 -> forall k,
  u_ppr [] (TStart (w "snapToGrid") [(w "val", "false")] :: k) = (ppr0, SExp, k).
Proof.
  intros L G k. unfold u_ppr, loopd. apply loops_sound.
  eapply (l_fail _ _ _ _ _ _ SExp); [|discriminate]. cbn [snd w eswitch switch String.eqb Ascii.eqb Bool.eqb].
  unfold fnum. cbn [get_att snd w String.eqb Ascii.eqb Bool.eqb]. rewrite G. reflexivity.
Qed.

Lemma trunc_para : forall (L : GoLib) f, get_int "false" = GExp i0 -> forall k,
  sub (u_para f []) (TStart (w "pPr") [] :: TStart (w "snapToGrid") [(w "val", "false")] :: TEnd (w "snapToGrid") :: TEnd (w "pPr") :: k)
  = (mk_para (Some ppr0) [] f, SOk, push_eof k).
Proof.
  intros L f G k. unfold sub. cbn [push_eof push_from].
  unfold u_para. set (n := size _). cbn [tie d_para]. unfold u_paraR.
  match goal with |- context [loop ?h ?s0 ?ts] =>
    assert (E : loop h s0 ts = ((Some ppr0, []), SOk, TEof :: push_eof k)); [|rewrite E; reflexivity] end.
  apply loops_sound. eapply l_start.
  - cbn [snd w eswitch switch String.eqb Ascii.eqb Bool.eqb]. unfold child, decode, sub.
    cbn [push_eof push_from]. rewrite trunc_ppr by assumption. cbn [pop_eof fst snd]. reflexivity.
  - cbn [size]. lia.
  - apply l_end. apply l_end. apply l_eof.
Qed.

Lemma trunc_body : forall (L : GoLib) f, get_int "false" = GExp i0 -> forall k,
  u_body f [] [] (TStart (w "p") [] :: TStart (w "pPr") [] :: TStart (w "snapToGrid") [(w "val", "false")] :: TEnd (w "snapToGrid") :: TEnd (w "pPr") :: TEnd (w "p") :: k)
  = ([IPara (mk_para (Some ppr0) [] f)], SOk, TEof :: k).
Proof.
  intros L f G k. unfold u_body, loopd. apply loops_sound. eapply l_start.
  - cbn [snd w eswitch switch String.eqb Ascii.eqb Bool.eqb]. unfold child, decode. pose proof (trunc_para L f G) as P. unfold w in P. rewrite P. reflexivity.
  - cbn [push_eof push_from size]. lia.
  - cbn [push_eof push_from]. apply l_end. apply l_eof.
Qed.

Lemma trunc_doc : forall (L : GoLib) f (G : get_int "false" = GExp i0), parse_document f (toks (doc_of [Elem (w "p") [] [Elem (w "pPr") [] [Elem (w "snapToGrid") [(w "val", "false")] []]];
                  Elem (w "p") [] [Elem (w "r") [] [Elem (w "t") [] [Chr "lost"]]];
                  Elem (w "tbl") [] []; Elem (w "sectPr") [] []])) = ([IPara (mk_para (Some ppr0) [] f)], SOk).
Proof.
  intros. cbn [toks doc_of flat_map app]. unfold parse_document.
  match goal with |- context [check ?a ?b] => let r := eval vm_compute in (check a b) in change (check a b) with r end.
  cbn [root]. unfold sub. match goal with |- context [push_eof ?a] => let r := eval vm_compute in (push_eof a) in change (push_eof a) with r end.
  match goal with |- context [u_document ?f [] ?ts] => assert (E : exists k, u_document f [] ts = ([IPara (mk_para (Some ppr0) [] f)], SOk, TEof :: k)) end.
  { unfold u_document, loopd. eexists. apply loops_sound. eapply l_start.
    - cbn [snd w eswitch switch String.eqb Ascii.eqb Bool.eqb]. unfold childin, decode, sub.
      match goal with |- context [push_eof ?a] => let r := eval vm_compute in (push_eof a) in change (push_eof a) with r end.
      pose proof (trunc_body L f G) as P. unfold w in P. rewrite P. cbn [pop_eof]. reflexivity.
    - cbn [size]. lia.
    - do 3 (eapply l_start; [reflexivity | cbn [size]; lia |]). apply l_end. apply l_eof. }
  destruct E as [k E]. unfold w in E. rewrite E. reflexivity.
Qed.

Lemma truncated_witness : exists t, forall (L : GoLib) f, lib_float "false" = None ->
  snd (parse_document f (toks t)) = SOk /\ item_names (fst (parse_document f (toks t))) = ["p"] /\ body_names t = ["p"; "p"; "tbl"; "sectPr"].
Proof.
  exists (doc_of [Elem (w "p") [] [Elem (w "pPr") [] [Elem (w "snapToGrid") [(w "val", "false")] []]];
                  Elem (w "p") [] [Elem (w "r") [] [Elem (w "t") [] [Chr "lost"]]];
                  Elem (w "tbl") [] []; Elem (w "sectPr") [] []]).
  intros L f E.
  assert (G : get_int "false" = GExp i0) by (unfold get_int; cbn; rewrite E; reflexivity).
  rewrite (trunc_doc L f G). split; [reflexivity|split; reflexivity].
Qed.
