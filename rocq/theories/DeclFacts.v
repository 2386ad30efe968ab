(** XML declarations. *)
From Coq Require Import String Ascii List Bool Arith NArith ZArith Lia.
From Verif Require Import GoStr Num Lib Types XmlTok Unmarshal Docx Lex LexFuel Rels Pack SpecLex SpecPack SpecForm SpecDecl LexFacts FormNames FormText FormMarkup History SpecApi SpecError.
Import ListNotations.
Local Open Scope list_scope.
Local Open Scope string_scope.

(** one declaration *)
Lemma decl_raw : forall w d rest, white w -> w <> "" -> decl_body d ->
  raw_token ("<?xml" ++ w ++ d ++ "?>" ++ rest) = if pi_ok "xml" d then Some ([TMisc], rest) else None.
Proof.
  intros w d rest W NE [L B].
  change (raw_token ("<?xml" ++ w ++ d ++ "?>" ++ rest)) with
    (let (n, r2) := take_name ("xml" ++ w ++ d ++ "?>" ++ rest) in
     match find_after "?>" (skip_space r2) with
     | Some r4 => if valid_name n && pi_ok n (before "?>" (skip_space r2)) then Some ([TMisc], r4) else None
     | None => None
     end).
  rewrite (take_whole "xml"); [|reflexivity|].
  2: { destruct w as [|a w]; [now destruct NE|]. apply white_cons in W as [S _]. apply ends_iff. cbn [append]. now apply space_no_name. }
  apply blackens_iff in B. rewrite skip_white; [|exact W|destruct d as [|c d]; [reflexivity|exact B]].
  destruct (proj2 (find_lacks "?" ">" d rest) (proj2 (lacks_q d) L)) as [F1 F2]. cbn [append] in F1, F2. cbn [append]. rewrite F1, F2. reflexivity.
Qed.
Lemma decl_lex : forall w d rest, white w -> w <> "" -> decl_body d ->
  (acceptable d -> lex ("<?xml" ++ w ++ d ++ "?>" ++ rest) = TMisc :: lex rest) /\
  (~ acceptable d -> lex ("<?xml" ++ w ++ d ++ "?>" ++ rest) = [TErr]).
Proof.
  intros w d rest W NE B. pose proof (decl_raw w d rest W NE B) as R. split; intros A.
  - apply xml_iff in A. rewrite A in R. now rewrite (LexFuel.lex_step _ _ _ R).
  - destruct (pi_ok "xml" d) eqn:P; [now apply xml_iff in P|]. now apply lex_stop.
Qed.

(** in a package *)
Section Package.
Context `{L : GoLib}.
Lemma entry_like : forall f e x y, same_loaded x y ->
  match unpack_entry f x e, unpack_entry f y e with Ok a, Ok b => same_loaded a b | Err a, Err b => a = b | Panic, Panic => True | _, _ => False end.
Proof.
  intros f e x y (A & B & C & D & E). unfold unpack_entry. destruct (String.eqb (fst e) RELS_PART).
  { destruct (read_entry e); [|reflexivity]. rewrite <- B. destruct (parse_doc_relation s (d_reg x)); cbn [bind]; auto. repeat split; auto. }
  destruct (String.eqb (fst e) DOC_PART).
  { destruct (read_entry e); [|reflexivity]. unfold parse_doc_part. rewrite <- A, <- B. destruct (root _ _ _) as [l []]; auto. repeat split; auto. }
  destruct (has_prefix MEDIA_FOLDER (fst e)).
  { destruct (read_entry e); [|reflexivity]. unfold parse_media. rewrite <- B. repeat split; auto. }
  repeat split; cbn; auto. now rewrite E.
Qed.
Lemma entries_like : forall f l x y, same_loaded x y ->
  match unpack_entries f x l, unpack_entries f y l with Ok a, Ok b => same_loaded a b | Err a, Err b => a = b | Panic, Panic => True | _, _ => False end.
Proof.
  intros f. induction l as [|e l IH]; intros x y S; cbn [unpack_entries]; [exact S|].
  pose proof (entry_like f e x y S) as K. destruct (unpack_entry f x e), (unpack_entry f y e); cbn [bind]; try contradiction; [now apply IH|exact K|exact I].
Qed.
Lemma decl_entry : forall f x y n w0 d rest, n = RELS_PART \/ n = DOC_PART -> white w0 -> w0 <> "" -> decl_body d -> same_loaded x y ->
  (acceptable d -> match unpack_entry f x (n, Some rest), unpack_entry f y (n, Some ("<?xml" ++ w0 ++ d ++ "?>" ++ rest)) with Ok a, Ok b => same_loaded a b | Err a, Err b => a = b | Panic, Panic => True | _, _ => False end) /\
  (~ acceptable d -> exists e, unpack_entry f y (n, Some ("<?xml" ++ w0 ++ d ++ "?>" ++ rest)) = Err e).
Proof.
  intros f x y n w0 d rest N W NE B S. destruct (decl_lex w0 d rest W NE B) as [P Q]. split; intros A.
  - specialize (P A). pose proof (entry_like f (n, Some rest) x y S) as K.
    replace (unpack_entry f y (n, Some ("<?xml" ++ w0 ++ d ++ "?>" ++ rest))) with (unpack_entry f y (n, Some rest)); [exact K|].
    unfold unpack_entry. destruct N as [-> | ->]; cbn [fst].
    + change (String.eqb RELS_PART RELS_PART) with true. cbn iota. change (read_entry (RELS_PART, Some ?s)) with (Some s). cbn iota.
      unfold parse_doc_relation. rewrite P. reflexivity.
    + change (String.eqb DOC_PART RELS_PART) with false. change (String.eqb DOC_PART DOC_PART) with true. cbn iota. change (read_entry (DOC_PART, Some ?s)) with (Some s). cbn iota.
      unfold parse_doc_part. rewrite P. reflexivity.
  - specialize (Q A). unfold unpack_entry. destruct N as [-> | ->]; cbn [fst].
    + change (String.eqb RELS_PART RELS_PART) with true. cbn iota. change (read_entry (RELS_PART, Some ?s)) with (Some s). cbn iota.
      unfold parse_doc_relation. rewrite Q. eexists. reflexivity.
    + change (String.eqb DOC_PART RELS_PART) with false. change (String.eqb DOC_PART DOC_PART) with true. cbn iota. change (read_entry (DOC_PART, Some ?s)) with (Some s). cbn iota.
      unfold parse_doc_part. rewrite Q. eexists. reflexivity.
Qed.
Lemma entries_app : forall f a b x, unpack_entries f x (a ++ b)%list = bind (unpack_entries f x a) (fun y => unpack_entries f y b).
Proof. intros f. induction a as [|e a IH]; intros b x; [reflexivity|]. cbn [app unpack_entries]. destruct (unpack_entry f x e); cbn [bind]; auto. Qed.
Lemma decl_package : forall f a1 n w0 d rest a2, n = RELS_PART \/ n = DOC_PART -> white w0 -> w0 <> "" -> decl_body d ->
  let plain := unpack f (a1 ++ (n, Some rest) :: a2)%list in
  let declared := unpack f (a1 ++ (n, Some ("<?xml" ++ w0 ++ d ++ "?>" ++ rest)%string) :: a2)%list in
  (acceptable d -> (forall x, plain = Ok x -> exists y, declared = Ok y /\ same_loaded x y) /\ (forall y, declared = Ok y -> exists x, plain = Ok x)) /\
  (~ acceptable d -> forall y, declared <> Ok y).
Proof.
  intros f a1 n w0 d rest a2 N W NE B. cbn zeta. unfold unpack.
  set (x0 := mk_docx [] _ (mk_tmpl "" (zip_open (a1 ++ (n, Some rest) :: a2)%list) []) false).
  set (y0 := mk_docx [] _ (mk_tmpl "" (zip_open (a1 ++ (n, Some ("<?xml" ++ w0 ++ d ++ "?>" ++ rest)%string) :: a2)%list) []) false).
  assert (S : same_loaded x0 y0) by (repeat split). clearbody x0 y0. rewrite !entries_app. pose proof (entries_like f a1 x0 y0 S) as K.
  destruct (unpack_entries f x0 a1) as [x|e|], (unpack_entries f y0 a1) as [y|e'|]; try contradiction; cbn [bind].
  2, 3: split; [intros _; split; intros ? E; discriminate|intros _ ? E; discriminate].
  cbn [unpack_entries]. destruct (decl_entry f x y n w0 d rest N W NE B K) as [P Q]. split; intros A.
  - specialize (P A). destruct (unpack_entry f x _) as [x1|e|], (unpack_entry f y _) as [y1|e'|]; try contradiction; cbn [bind].
    2, 3: split; intros ? E; discriminate.
    pose proof (entries_like f a2 x1 y1 P) as R. destruct (unpack_entries f x1 a2) as [x2|e|], (unpack_entries f y1 a2) as [y2|e'|]; try contradiction; cbn [bind].
    2, 3: split; intros ? E; discriminate.
    split; [|eauto]. intros z E. injection E as <-. eexists. split; [reflexivity|]. destruct R as (R1 & R2 & R3 & R4 & R5). repeat split; cbn; auto. now rewrite R2.
  - specialize (Q A) as [e Q]. rewrite Q. cbn [bind]. discriminate.
Qed.
End Package.
