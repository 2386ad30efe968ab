(** Properties of copies of copies, and of splitting and joining. *)
From Coq Require Import String Ascii List Bool Arith NArith ZArith.
From Verif Require Import GoStr Num Lib Types Docx Text Api Keep Copy History SpecApi SpecEdit SpecNum SpecPack SpecCopy SpecJoin CopyTwice PropCopy.
Import ListNotations.
Local Open Scope list_scope.
Local Open Scope string_scope.

(** C68: the parts that SplitByParagraph returns, appended one after another to a
    new document, give the content of the source back: an item for every item, with
    the same properties, texts and sizes, and every link and picture that resolves
    in the source resolves in the new document, to the same target or bytes. *)
Theorem C68_rejoined : forall (L : GoLib) i sep w w1 d w2, nth_error w i = Some d -> split_by_paragraph i sep w = Ok w1 ->
  calls_ok (ONew :: map (OAppend (length w1)) (seq (length w) (length w1 - length w))) w1 w2 ->
  (forall e, In e w2 -> (N.of_nat (length (rels (d_reg e))) < two63)%N) ->
  exists dn, nth_error w2 (length w1) = Some dn /\ Forall2 (same_item w (length w1) (d_reg dn)) (d_items d) (d_items dn).
Proof. exact @rejoined. Qed.
Print Assumptions C68_rejoined.
(** More generally a copy of a copy is a copy of the source. *)
Theorem C68_copy_of_copy : forall w w1 k to d1 g, nth_error w1 k = Some d1 ->
  forall x y z, same_item w k (d_reg d1) x y -> same_item w1 to g y z -> same_item w to g x z.
Proof. exact item_trans. Qed.
Print Assumptions C68_copy_of_copy.

(** the document of [PropCopy.v], with a link and a picture in the first of two
    parts and a link in the second: the two are appended to a third document *)
Example C68_ex : exists w1 w2 dn, split_by_paragraph 1 ex_sep ex_world = Ok w1 /\ length w1 = 4 /\
  @calls_ok ex_lib [ONew; OAppend 4 2; OAppend 4 3] w1 w2 /\ nth_error w2 4 = Some dn /\
  map (fun p => @para_string ex_lib w2 p) (map (nth 2 (body_paras (d_items dn))) [mk_para None [] None]) = [Ok "chapter[see](http://e)"] /\
  map kind_of (d_items dn) = [KPara; KPara; KPara; KTable] /\ refer_target (d_reg dn) "rId4" = Ok "http://e" /\ picture_at (d_reg dn) "rId5" "media/image1.jpeg" "DATA".
Proof.
  do 3 eexists. split; [vm_compute; reflexivity|]. split; [reflexivity|]. split; [econstructor; [vm_compute; reflexivity|]; econstructor; [vm_compute; reflexivity|]; econstructor; [vm_compute; reflexivity|]; constructor|].
  split; [reflexivity|]. split; [vm_compute; reflexivity|]. split; [reflexivity|]. split; [vm_compute; reflexivity|]. exists "image1.jpeg", "image1.jpeg". vm_compute. auto.
Qed.
