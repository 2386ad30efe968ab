(** The text of a loaded package. *)
From Coq Require Import String Ascii List Bool Arith NArith ZArith Lia.
From Verif Require Import GoStr Num Lib Types XmlTok Unmarshal Docx Text Lex Pack SpecXml SpecStrict SpecPack SpecRead RegFacts PackFacts PackFacts5 ReadFacts2.
Import ListNotations.
Local Open Scope list_scope.
Local Open Scope string_scope.

Lemma lex_no_mark : forall s, ~ In TEof (lex s).
Proof.
  intros s. unfold lex. generalize (S (String.length s)) as n. intros n. revert s.
  induction n as [|n IH]; intros s I; cbn [lex_n] in I.
  - destruct s; cbn in I; intuition discriminate.
  - destruct s as [|b r]; [destruct I|]. destruct (raw_token (String b r)) as [(l, r')|] eqn:E; [|cbn in I; intuition discriminate].
    apply in_app_or in I. destruct I as [I|I]; [|eapply IH; eauto]. clear IH. unfold raw_token in E.
    destruct (Ascii.eqb b "<").
    + destruct r as [|c r1]; [discriminate|]. destruct (Ascii.eqb c "/").
      { destruct (ns_name r1) as [(q, r2)|]; [|discriminate]. destruct (skip_space r2) as [|d r3]; [discriminate|]. destruct (Ascii.eqb d ">"); [|discriminate]. injection E as <- _. cbn in I. intuition discriminate. }
      destruct (Ascii.eqb c "?").
      { destruct (take_name r1) as (n0, r2). destruct (find_after "?>" (skip_space r2)); [|discriminate]. destruct (_ && _); [|discriminate]. injection E as <- _. cbn in I. intuition discriminate. }
      destruct (Ascii.eqb c "!").
      { destruct (has_prefix "--" r1).
        - destruct (drop 2 r1) as [r2|]; [|discriminate]. destruct (find_after "--" r2) as [[|d r3]|]; try discriminate. destruct (Ascii.eqb d ">"); [|discriminate]. injection E as <- _. cbn in I. intuition discriminate.
        - destruct (has_prefix "[CDATA[" r1).
          2: { destruct r1 as [|d r2]; [discriminate|]. destruct (_ || _); [discriminate|]. destruct (directive DPlain 0 r2); [|discriminate]. injection E as <- _. cbn in I. intuition discriminate. }
          destruct (drop 7 r1) as [r2|]; [|discriminate]. destruct (cdata r2) as [(x, r3)|]; [|discriminate]. injection E as <- _. cbn in I. intuition discriminate. }
      destruct (ns_name (String c r1)) as [(q, r2)|]; [|discriminate]. destruct (read_attrs _ _) as [((l', []), r3)|]; try discriminate; injection E as <- _; cbn in I; intuition discriminate.
    + destruct (text None (String b r)) as [(x, r2)|]; [|discriminate]. injection E as <- _. cbn in I. intuition discriminate.
Qed.

Section WithLib.
Context `{GoLib}.
Lemma unpack_entries_body : forall f l d d' e s, NoDup (map fst l) -> unpack_entries f d l = Ok d' -> d_items d = [] -> In e l -> fst e = DOC_PART -> snd e = Some s ->
  parse_document (Some f) (lex s) = (d_items d', SOk).
Proof.
  intros f. induction l as [|x l IH]; intros d d' e s N E K I D Hs; cbn [unpack_entries] in E; [destruct I|].
  apply bind_ok in E. destruct E as (d1 & E1 & E). inversion N as [|? ? N1 N2]; subst. destruct I as [->|I].
  - assert (B : parse_document (Some f) (lex s) = (d_items d1, SOk)).
    { unfold unpack_entry in E1. rewrite D in E1. cbn [String.eqb RELS_PART DOC_PART] in E1. change (String.eqb DOC_PART RELS_PART) with false in E1. change (String.eqb DOC_PART DOC_PART) with true in E1. cbv iota in E1.
      unfold read_entry in E1. rewrite Hs, D in E1. change (ends_slash DOC_PART) with false in E1. cbn [andb] in E1. unfold parse_doc_part in E1. rewrite K in E1. unfold parse_document.
      change (u_document_from (Some f) []) with (u_document (Some f)) in E1. destruct (root _ _ _) as (l', st). destruct st; try discriminate. injection E1 as <-. reflexivity. }
    rewrite B. f_equal.
    assert (G : forall l a b, unpack_entries f a l = Ok b -> ~ In DOC_PART (map fst l) -> d_items b = d_items a).
    { clear. induction l as [|e l IH]; intros a b E NI; cbn [unpack_entries] in E; [now injection E as <-|]. apply bind_ok in E. destruct E as (d1 & E1 & E).
      rewrite (IH _ _ E); [|intros I; apply NI; now right]. destruct (unpack_entry_body _ _ _ _ E1) as [(D & _)|(_ & D)]; [|exact D]. exfalso. apply NI. now left. }
    symmetry. apply (G l d1 d' E). rewrite <- D. exact N1.
  - apply (IH d1 d' e s N2 E); auto. destruct (unpack_entry_body _ _ _ _ E1) as [(D' & _)|(_ & D')]; [|congruence].
    exfalso. apply N1. rewrite D', <- D. now apply in_map.
Qed.

Lemma package_shows : forall f a d w s, NoDup (map fst a) -> In (DOC_NAME, Some s) a -> unpack f a = Ok d -> nth_error w f = Some d -> numeric (lex s) ->
  exists pre q at_ c post, (lex s = pre ++ toks (Elem q at_ c) ++ post)%list /\ prolog pre /\
    (tidy (Elem q at_ c) -> Forall2 (shows w (rels (d_reg d))) (blocks (Elem q at_ c)) (d_items d)).
Proof.
  intros f a d w s N I U Hw Nu. apply (loaded_shows w f d Hw (lex s) (d_items d) Nu (lex_no_mark s)).
  unfold unpack in U. apply bind_ok in U. destruct U as (d1 & E & E2). injection E2 as <-. cbn [d_items set_d_reg].
  exact (unpack_entries_body f a _ d1 _ s N E eq_refl I eq_refl eq_refl).
Qed.
End WithLib.

(** without drawings there is one reading *)
Lemma reads_unique : forall bs s, reads bs s -> forall s', ~ In BDrawing bs -> reads bs s' -> s = s'.
Proof.
  intros bs s R. induction R; intros s' N R'; inversion R'; subst; try reflexivity; try (exfalso; apply N; now left);
    try (f_equal; apply IHR; [intros I; apply N; now right|assumption]; fail).
Qed.
Lemma reading_unique : forall rs c s s', (forall r, In r c -> named "r" r = true -> ~ In BDrawing (run_bits r)) -> reads_para rs c s -> reads_para rs c s' -> s = s'.
Proof.
  intros rs c s s' N R. revert s' N. induction R as [|t l s1 s2 Nm R1 R IH|q a k l s1 Q R IH|t l s1 N1 N2 R IH]; intros s' N R'; inversion R'; subst; try reflexivity; cbn [named] in *; try congruence;
    try (rewrite Q in *; cbn in *; discriminate); try (match goal with X : snd ?q = "hyperlink" |- _ => rewrite X in *; cbn in *; discriminate end).
  - f_equal; [eapply reads_unique; eauto; apply N; [now left|assumption]|]. apply IH; [|assumption]. intros r I; apply N; now right.
  - do 6 f_equal. apply IH; [|assumption]. intros r I; apply N; now right.
  - apply IH; [|assumption]. intros r I; apply N; now right.
Qed.
