(** Documents that show why the conditions for loading are needed. *)
From Coq Require Import String Ascii List Bool Arith NArith ZArith.
From Verif Require Import GoStr Num Lib Types XmlTok Unmarshal DecLemmas SpecXml SpecNum SpecInt SpecStrict SpecSkip SpecLoad NumFacts IntFacts RoundTrip2 SkipFacts SkipFacts3 SameWit.
Import ListNotations.
Local Open Scope string_scope.
Local Open Scope list_scope.

Definition ab {X} (r : out X) : Prop := exists e, snd (fst r) = SAbort e.
Lemma ab_child : forall {X A} (u : list attr -> list token -> out A) (set : A -> X -> X) s a ts, ab (u a (push_eof ts)) -> ab (child u set s a ts).
Proof.
  intros X A u set s a ts [e E]. unfold child, decode, sub. destruct (u a (push_eof ts)) as [[x st] ts']. cbn in E. subst st.
  destruct (pop_eof ts'); exists e; reflexivity.
Qed.
Lemma ab_sub : forall {A} (u : list token -> out A) ts, ab (u (push_eof ts)) -> ab (sub u ts).
Proof. intros A u ts [e E]. unfold sub. destruct (u (push_eof ts)) as [[x st] ts']. cbn in E. subst st. destruct (pop_eof ts'); exists e; reflexivity. Qed.
Lemma ab_loop : forall {X} (cs : list (string * hnd X)) s q a a' ts, ab (eswitch cs s (snd q) a ts) -> ab (loopd cs s a' (TStart q a :: ts)).
Proof.
  intros X cs s q a a' ts [e E]. unfold loopd, loop. cbn [loop_n]. destruct (eswitch cs s (snd q) a ts) as [[x st] ts']. cbn in E. subst st. exists e. reflexivity.
Qed.
Lemma decimals_needed : forall (L : GoLib) e n v, is_decimal_attr e n = true -> (forall z, SpecNum.spells v z -> in64 z = false) ->
  snd (parse_document None (toks (last_with ["document"; "body"; "sectPr"; e] [(w n, v)]))) <> SOk.
Proof.
  intros L e n v B V.
  assert (P : parse_int v = None).
  { destruct (parse_int v) as [z|] eqn:P; auto. rewrite parse_int_zval in P. destruct (zval v) as [z'|] eqn:Z; [|discriminate].
    apply spells_iff in Z. rewrite (V _ Z) in P. discriminate. }
  assert (D : forall p, In p decimal_attrs -> forall m, In m (snd p) -> snd (parse_document None (toks (last_with ["document"; "body"; "sectPr"; fst p] [(w m, v)]))) <> SOk).
  { intros p I m J. cbn in I.
    assert (K : forall ts, ab (u_sect [] (TStart (w (fst p)) [(w m, v)] :: ts))).
    { intros ts. unfold u_sect. apply ab_loop.
      repeat (destruct I as [<-|I]; [cbn in J; repeat (destruct J as [<-|J]; [cbn; unfold childo; apply ab_child; unfold u_pgsz, u_pgmar, u_cols, u_docgrid, leafd, leaf, aswitch; cbn; unfold aatoi; rewrite P; eexists; reflexivity|]); contradiction|]). contradiction. }
    assert (K2 : ab (sub (u_document None []) (ftoks [Elem (w "body") [] [Elem (w "sectPr") [] [Elem (w (fst p)) [(w m, v)] []]]] ++ [TEnd (w "document")]))).
    { apply ab_sub. rewrite push_eof_forest. unfold u_document. rewrite ftoks_cons, <- app_assoc, toks_elem. apply ab_loop. cbn [snd w fst].
      apply (ab_child (u_body None _)). rewrite push_eof_forest. unfold u_body. rewrite ftoks_cons, <- app_assoc, toks_elem. apply ab_loop. cbn [snd w fst].
      apply (ab_child u_sect). rewrite push_eof_forest. rewrite ftoks_cons, <- app_assoc, toks_elem. apply K. }
    unfold parse_document. rewrite <- (app_nil_r (toks _)), check_tree. cbn [last_with nest]. rewrite toks_elem. cbn [root check].
    destruct K2 as [e' K2]. destruct (sub (u_document None []) _) as [[x st] r]. cbn in K2 |- *. subst st. discriminate. }
  unfold is_decimal_attr in B. apply existsb_exists in B as (p & I & B). apply andb_prop in B as [B1 B2]. apply String.eqb_eq in B1. subst e.
  apply existsb_exists in B2 as (m & J & B2). apply String.eqb_eq in B2. subst m. now apply D.
Qed.

(** a place for every element with numbers *)
Definition TC := ["document"; "body"; "tbl"; "tr"; "tc"].
Definition X := G ++ ["spPr"; "xfrm"].
Definition number_paths : list (list string) :=
 [P ++ ["pPr"; "spacing"]; P ++ ["pPr"; "ind"]; P ++ ["pPr"; "kern"]; P ++ ["pPr"; "tabs"; "tab"]; P ++ ["pPr"; "adjustRightInd"]; P ++ ["pPr"; "snapToGrid"];
  P ++ ["pPr"; "kinsoku"]; P ++ ["pPr"; "overflowPunct"]; D ++ ["extent"]; D ++ ["effectExtent"]; D ++ ["docPr"]; G ++ ["cNvPr"];
  D ++ ["cNvGraphicFramePr"; "graphicFrameLocks"]; D ++ ["graphic"; "graphicData"; "pic"; "nvPicPr"; "cNvPicPr"; "picLocks"];
  D ++ ["graphic"; "graphicData"; "pic"; "blipFill"; "blip"; "alphaModFix"]; X; X ++ ["off"]; X ++ ["ext"]; X ++ ["chOff"]; X ++ ["chExt"];
  G ++ ["spPr"; "ln"]; G ++ ["spPr"; "blipFill"; "tile"]; G ++ ["spPr"; "blipFill"]; G ++ ["cNvSpPr"; "spLocks"]; G ++ ["cNvSpPr"];
  R ++ ["drawing"; "inline"]; R ++ ["drawing"; "anchor"]; D ++ ["simplePos"];
  T ++ ["tblBorders"; "top"]; T ++ ["tblBorders"; "left"]; T ++ ["tblBorders"; "bottom"]; T ++ ["tblBorders"; "right"]; T ++ ["tblBorders"; "insideH"]; T ++ ["tblBorders"; "insideV"];
  T ++ ["tblpPr"]; T ++ ["tblW"]; ["document"; "body"; "tbl"; "tblGrid"; "gridCol"]; ["document"; "body"; "tbl"; "tr"; "trPr"; "trHeight"]; TC ++ ["tcPr"; "tcW"]; TC ++ ["tcPr"; "gridSpan"]].
Lemma number_paths_all : map (fun p => last p "") number_paths = map fst int_attrs. Proof. reflexivity. Qed.
Definition loads (p : list string) (n v : string) : bool := ok (snd (@parse_document ex_lib None (toks (last_with p [(w n, v)])))).
