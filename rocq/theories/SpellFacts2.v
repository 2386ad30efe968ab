(** What the encoder writes is a spelling, and every spelling of it loads the same. *)
From Coq Require Import String Ascii List Bool Arith NArith ZArith Lia.
From Verif Require Import GoStr Num Lib Types XmlTok Marshal Unmarshal Reload DecLemmas RoundTrip2 Lex SpecLex LexFacts LexFacts2 LexFacts3 SpecForm FormFacts.
Import ListNotations.
Local Open Scope list_scope.
Local Open Scope string_scope.

Lemma writes_spelling : forall t, (exists q a c, t = Elem q a c) -> good_shape t = true -> Forall xml_string (values t) ->
  list_spelling [Cmt; Chr (String "010" ""); t] (write_xml t).
Proof.
  intros t E G F. apply lex_exact. rewrite (lex_write t E G F). unfold ftoks. cbn [flat_map toks app]. now rewrite app_nil_r.
Qed.

(** loading *)
Definition around (t : tree) : Prop := match t with Elem _ _ _ => False | _ => True end.
Lemma around_toks : forall l, Forall around l -> Forall (fun t => t = TMisc \/ exists s, t = TChar s) (ftoks l).
Proof.
  intros l F. induction F as [|[q a c|s|] l A F IH]; [constructor|destruct A| |].
  - change (ftoks (Chr s :: l)) with (TChar s :: ftoks l)%list. constructor; eauto.
  - change (ftoks (Cmt :: l)) with (TMisc :: ftoks l)%list. constructor; eauto.
Qed.
Lemma spelled_loads : forall (L : GoLib) f items pre post s, Forall around pre ->
  list_spelling (pre ++ m_document items :: post)%list s -> parse_document f (lex s) = (map (reload_item f) items, SOk).
Proof.
  intros L f items pre post s A H. rewrite (spelled_lex _ _ H). unfold ftoks. rewrite flat_map_app. fold (ftoks pre).
  apply (parse_marshal_around f doc_attrs items). now apply around_toks.
Qed.
Lemma not_in_toks : forall t, ~ In TErr (toks t).
Proof.
  induction t as [q a c F|s|] using tree_ind'; [|cbn; intuition discriminate|cbn; intuition discriminate].
  cbn [toks]. intros [E|I]; [discriminate|]. apply in_app_or in I as [I|[E|[]]]; [|discriminate].
  apply in_flat_map in I as (t & I & J). rewrite Forall_forall in F. now apply (F t I).
Qed.
Lemma not_in_ftoks : forall l, ~ In TErr (ftoks l).
Proof. intros l I. unfold ftoks in I. apply in_flat_map in I as (t & _ & J). now apply not_in_toks in J. Qed.
