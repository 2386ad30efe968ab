(** C66: which calls return an error. *)
From Coq Require Import String Ascii List Bool Arith NArith ZArith.
From Verif Require StableFacts2.
From Verif Require Import GoStr Num Lib Types XmlTok Unmarshal Docx Lex Api Pack History SpecApi SpecPack SpecLex SpecForm RelsFacts SpellFacts2 SkipFacts SpecError ErrorFacts PropPanic.
Import ListNotations.
Local Open Scope list_scope.
Local Open Scope string_scope.

(** A call returns an error exactly if it is a picture call with data that is no
    picture, or Parse of a package with an entry that is refused on its own. *)
Theorem C66_calls : forall (L : GoLib) o w, decent o -> ((exists e, exec o w = Err e) <-> fails o w).
Proof. exact @err_iff. Qed.
Print Assumptions C66_calls.

(** Parse does not panic. *)
Theorem C66_no_panic : forall (L : GoLib) a w, parse a w <> Panic.
Proof. exact @parse_no_panic. Qed.
Print Assumptions C66_no_panic.

(** The relationships, however they are written: accepted exactly if every
    element Relationship has an id of the form rId and a number below 2^64. *)
Theorem C66_relationships : forall (L : GoLib) pre q a c post s w, Forall misc pre ->
  list_spelling (pre ++ Elem q a c :: post)%list s ->
  ((exists w', parse [(RELS_PART, Some s)] w = Ok w') <->
   forall q' a' c', In (Elem q' a' c') c -> snd q' = "Relationship" -> numbered a').
Proof. exact rels_accepted. Qed.
Print Assumptions C66_relationships.

(** The main part: refused exactly if it cannot be decoded. *)
Theorem C66_main : forall (L : GoLib) s w, refused w (DOC_PART, Some s) <-> snd (parse_document (Some (length w)) (lex s)) <> SOk.
Proof. exact main_refused. Qed.
Print Assumptions C66_main.

(** A media file: refused exactly if it cannot be read. *)
Theorem C66_media : forall (L : GoLib) w x o, refused w ("word/media/" ++ x, o) <->
  (o = None \/ exists s, o = Some s /\ ends_slash ("word/media/" ++ x) = true /\ s <> "").
Proof. exact media_refused. Qed.
Print Assumptions C66_media.
Theorem C66_unreadable : forall (L : GoLib) w n, looked_at n -> refused w (n, None).
Proof. exact unreadable_refused. Qed.
Print Assumptions C66_unreadable.

(** Every other entry is accepted, readable or not, and no part is required. *)
Theorem C66_other : forall (L : GoLib) w n o, ~ looked_at n -> ~ refused w (n, o).
Proof. exact other_accepted. Qed.
Print Assumptions C66_other.
Theorem C66_nothing_required : forall (L : GoLib) a w, NoDup (map fst a) -> (forall e, In e a -> ~ looked_at (fst e)) ->
  exists w' d, parse a w = Ok w' /\ w' = (w ++ [d])%list /\ d_items d = [].
Proof. exact without_parts. Qed.
Print Assumptions C66_nothing_required.

Definition err (o : op) : bool := match @run_ops ex_lib [ONew; OAddPara 0] [] with Some w => match @exec ex_lib o w with Err _ => true | _ => false end | None => false end.
Definition one (n : string) (o : option string) : op := OParse [("mimetype", None); (n, o)].
Definition rels_with (id : string) : option string := Some ("<Relationships><!-- a --><x Id=""b""/><Relationship Id=""c"" Type=""t"" r:Id=""" ++ id ++ """/></Relationships>").
Example C66_ex : map err
  [OPara 0 (ABody 0) (ODrawing true "no picture"); OPara 0 (ABody 0) (ODrawing true "P400x300"); OPara 0 (ABody 1) (ODrawing true "no picture"); OPara 0 (ABody 0) (OLink "a" "b");
   ODetached (mk_para None [] None) (ODrawing false "no picture");
   one RELS_PART (rels_with "rId1"); one RELS_PART (rels_with "rId18446744073709551615"); one RELS_PART (rels_with "rId18446744073709551616");
   one RELS_PART (rels_with "R1"); one RELS_PART (rels_with "&#x72;Id1"); one RELS_PART (rels_with "rId"); one RELS_PART (rels_with ""); one RELS_PART None; one RELS_PART (Some "<a");
   one DOC_PART (Some "<a><body><p/></body></a>"); one DOC_PART (Some "<a><body><p></body></a>"); one DOC_PART None; OParse [];
   one "word/media/a.png" (Some "x"); one "word/media/a.png" None; one "word/media/" (Some ""); one "word/media/" (Some "x"); one "word/styles.xml" None] =
  [true; false; false; false; true;
   false; false; true; true; false; true; true; true; true;
   false; true; true; false;
   false; true; false; true; false].
Proof. vm_compute. reflexivity. Qed.
(** two relationship parts in a spelling, one with and one without such ids *)
Definition ex_rel (id : string) : tree := Elem ("", "Relationships") [] [Elem ("", "Relationship") [(("", "Id"), id)] []].
Example C66_ex_spelled : (forall id, id = "rId7" \/ id = "R7" -> exists s, list_spelling ([Cmt; Chr (String "010" "")] ++ ex_rel id :: [])%list s) /\
  numbered [(("", "Id"), "rId7")] /\ ~ numbered [(("", "Id"), "R7")].
Proof.
  split; [|split].
  - intros id I. exists (write_xml (ex_rel id)). apply writes_spelling.
    + do 3 eexists. reflexivity.
    + reflexivity.
    + assert (K : xml_string id) by (destruct I as [->| ->]; apply (StableFacts2.legal_xml _ _ (le_n _)); vm_compute; reflexivity). cbn. repeat constructor. exact K.
  - rewrite numbered_iff. exists 7%N. rewrite <- id_number_spec. reflexivity.
  - rewrite numbered_iff. intros [n N]. rewrite <- id_number_spec in N. discriminate.
Qed.
