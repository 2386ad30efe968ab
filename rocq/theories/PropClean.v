(** C61: whatever bytes a document is made of, it can be saved and opened again. *)
From Coq Require Import String Ascii List Bool Arith NArith ZArith Permutation.
From Verif Require Import GoStr Num Lib Types Docx Api Text Lex Reload Pack History SpecLex SpecPack SpecReopen SpecClean PackFacts CleanFacts2 CleanFacts3.
Import ListNotations.
Local Open Scope list_scope.
Local Open Scope string_scope.

(** There is one way to clean a string; the result consists of XML characters,
    and a string of XML characters stays as it is. *)
Theorem C61_cleaning : exists c, forall s, cleans s (c s) /\ (forall s', cleans s s' -> s' = c s) /\ xml_string (c s) /\ (xml_string s -> c s = s).
Proof. exact cleaning. Qed.
Print Assumptions C61_cleaning.

(** A document is saved as if its strings had been cleaned before. *)
Theorem C61_same_bytes : forall c, (forall s, cleans s (c s)) -> forall d r, writes (clean_docx c d) r <-> writes d r.
Proof. exact clean_writes. Qed.
Print Assumptions C61_same_bytes.

(** Any document of any history that was written without error can be parsed;
    it comes back with its strings cleaned and otherwise as [reload_item] says. *)
Theorem C61_reopen : forall (L : GoLib) l w i d ar f, Forall sane_call l -> run_ops l [] = Some w -> nth_error w i = Some d ->
  (N.of_nat (length (rels (d_reg d))) < 2 ^ 62)%N -> no_media_tmpl d -> writes d (Ok ar) ->
  forall c, (forall s, cleans s (c s)) ->
  exists d', unpack f ar = Ok d' /\ d_items d' = map (reload_item (Some f)) (map (clean_item c) (d_items d)) /\
    rels (d_reg d') = map (clean_rel c) (rels (d_reg d)) /\ relns (d_reg d') = c (relns (d_reg d)) /\
    Permutation (media (d_reg d')) (media (d_reg d)) /\
    (forall m, In m (media (d_reg d)) <-> media_of (d_reg d') (fst m) = Ok (Some m)).
Proof. exact @reopen_any. Qed.
Print Assumptions C61_reopen.

(** A control character, a byte that is no UTF-8, a truncated character and the
    character U+FFFE, in text and in a link; U+1F600 stays. *)
Definition ex_lib : GoLib := {| lib_float := fun _ => None; lib_md5 := fun s => s; lib_imgsize := fun _ => None |}.
Definition CTL : string := String "001" "".
Definition BAD : string := String "255" "".
Definition CUT : string := String "229" (String "155" "").
Definition FFFE : string := String "239" (String "191" (String "190" "")).
Definition SMILE : string := String "240" (String "159" (String "152" (String "128" ""))).
Definition ex_ops : list op :=
  [ONew; OAddPara 0; OPara 0 (ABody 0) (OText ("a" ++ CTL ++ SMILE ++ BAD ++ "<b>" ++ CUT)); OPara 0 (ABody 0) (OLink ("e" ++ FFFE) ("https://" ++ CTL));
   OLoad [] [("x.png", "P")]].
Definition ex_doc : docx := match @run_ops ex_lib ex_ops [] with Some w => nth 0 w new_docx | None => new_docx end.
Definition ex_archive : archive := match pack_files ex_doc with Ok m => m | _ => [] end.
Lemma ex_sane : Forall (@sane_call ex_lib) ex_ops.
Proof.
  repeat (apply Forall_cons; [first [exact I|idtac]|]); [|apply Forall_nil]. split; [repeat constructor; intros []|]. intros m n f [<-|[]] E. discriminate E.
Qed.
Lemma ex_writes : forall d, match pack_files d with Ok m => forallb (fun x => match write_entry x with Ok _ => true | _ => false end) m | _ => false end = true ->
  writes d (Ok (match pack_files d with Ok m => m | _ => [] end)).
Proof.
  intros d E. unfold writes. destruct (pack_files d) as [m| |]; try discriminate. exists m. split; [apply Permutation_refl|]. symmetry. apply write_entries_all.
  apply Forall_forall. intros (k, v) I. rewrite forallb_forall in E. specialize (E _ I). unfold write_entry in *. cbn [fst snd] in *. destruct (65535 <? _)%N; [discriminate|]. destruct v; [|discriminate].
  destruct (_ && _); [discriminate|]. reflexivity.
Qed.
Definition ex_text : option string :=
  match @exec ex_lib (OParse ex_archive) [] with
  | Ok [d] => match get_para (d_items d) (ABody 0) with Some p => match @para_string ex_lib [d] p with Ok s => Some s | _ => None end | None => None end
  | _ => None
  end.
Example C61_ex : Forall (@sane_call ex_lib) ex_ops /\ writes ex_doc (Ok ex_archive) /\ t_list (d_tmpl ex_doc) = [] /\
  ex_text = Some ("a" ++ REPLACEMENT ++ SMILE ++ REPLACEMENT ++ "<b>" ++ REPLACEMENT ++ REPLACEMENT ++ "[e" ++ REPLACEMENT ++ "](https://" ++ REPLACEMENT ++ ")").
Proof. split; [exact ex_sane|]. split; [apply ex_writes; vm_compute; reflexivity|]. split; vm_compute; reflexivity. Qed.
