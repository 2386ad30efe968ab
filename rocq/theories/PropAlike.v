(** AppendFile and SplitByParagraph on content with hyperlinks and pictures. *)
From Coq Require Import String Ascii List Bool Arith NArith ZArith.
From Verif Require Import GoStr Num Lib Types Docx Api Copy Pack Text History SpecApi SpecPack SpecBreak SpecVerb SpecAlike BreakFacts AlikeFacts AlikeWit.
Import ListNotations.
Local Open Scope list_scope.
Local Open Scope string_scope.

(** AppendFile succeeds, and the text it adds to the body is the text of the other
    body but for the ids of hyperlinks and picture files and the numbers and names
    of pictures. *)
Theorem C79_append : forall (L : GoLib) l w to from d s, run_ops l [] = Some w -> nth_error w to = Some d -> nth_error w from = Some s -> apart (OAppend to from) w -> portable w (d_items s) ->
  exists w' d', append_file to from w = Ok w' /\ length w' = length w /\ (forall i, i <> to -> nth_error w' i = nth_error w i) /\ nth_error w' to = Some d' /\
    forall ar ars ar' x y z, writes d (Ok ar) -> writes s (Ok ars) -> writes d' (Ok ar') -> In (DOC_NAME, Some x) ar -> In (DOC_NAME, Some y) ars -> In (DOC_NAME, Some z) ar' ->
      exists start bd start2 bs start3 bs', opens start bd x /\ opens start2 bs y /\ opens start3 (bd ++ bs') z /\ alike bs bs'.
Proof. exact @history_append. Qed.
Print Assumptions C79_append.

(** SplitByParagraph: so are the texts of the bodies of the parts, one after the
    other. *)
Theorem C79_split : forall (L : GoLib) l w i sep d, run_ops l [] = Some w -> nth_error w i = Some d -> (forall p, In (IPara p) (d_items d) -> exists b, sep p = Ok b) ->
  Forall (para_uses (fun f => forall k, f = Some k -> k < length w)) (body_paras (d_items d)) -> portable w (d_items d) ->
  exists ds, split_by_paragraph i sep w = Ok (w ++ ds)%list /\
    forall ar x, writes d (Ok ar) -> In (DOC_NAME, Some x) ar ->
      exists start body bs, opens start body x /\ alike body (sconcat bs) /\
        Forall2 (fun e b => forall are z, writes e (Ok are) -> In (DOC_NAME, Some z) are -> exists st, opens st b z) ds bs.
Proof. exact @history_split. Qed.
Print Assumptions C79_split.

(** The condition on the owners of content holds for all documents if there is no
    LoadBodyItems and no opened package has an entry twice. *)
Theorem C79_own : forall (L : GoLib) l w, Forall own_pieces l -> run_ops l [] = Some w ->
  (forall to from, to <> from -> apart (OAppend to from) w) /\
  (forall i d, nth_error w i = Some d -> Forall (para_uses (fun f => forall k, f = Some k -> k < length w)) (body_paras (d_items d))).
Proof. exact @history_own. Qed.
Print Assumptions C79_own.

Example C79_ex : @run_ops ex_lib (ex_ops "") [] = Some (ex_world "") /\ Forall own_pieces (ex_ops "") /\ apart (OAppend 0 1) (ex_world "") /\
  (exists s, nth_error (ex_world "") 1 = Some s /\ portable (ex_world "") (d_items s)) /\
  match ex_world "", append_file 0 1 (ex_world "") with
  | [_; s], Ok [d'; _] =>
      strip (ex_main s) = "<w:p><w:r><w:t>see</w:t></w:r><w:hyperlink r:id=""rId9""><w:r><w:t>there</w:t></w:r></w:hyperlink></w:p>" ++
        ("<w:p><w:r><w:drawing><wp:inline distT=""0"" distB=""0"" distL=""0"" distR=""0""><wp:docPr id=""7"" name=""old""></wp:docPr><a:graphic><a:graphicData uri=""""><pic:pic><pic:nvPicPr>" ++
        "<pic:cNvPr id=""8"" name=""older""></pic:cNvPr><pic:cNvPicPr></pic:cNvPicPr></pic:nvPicPr><pic:blipFill><a:blip r:embed=""rId7""></a:blip><a:stretch></a:stretch></pic:blipFill></pic:pic></a:graphicData></a:graphic></wp:inline></w:drawing></w:r></w:p>") /\
      strip (ex_main d') = "<w:p><w:r><w:rPr></w:rPr><w:t>a</w:t></w:r></w:p><w:p><w:r><w:t>see</w:t></w:r><w:hyperlink r:id=""rId4""><w:r><w:t>there</w:t></w:r></w:hyperlink></w:p>" ++
        ("<w:p><w:r><w:drawing><wp:inline distT=""0"" distB=""0"" distL=""0"" distR=""0""><wp:docPr id=""1"" name=""图片 1""></wp:docPr><a:graphic><a:graphicData uri=""""><pic:pic><pic:nvPicPr>" ++
        "<pic:cNvPr id=""1"" name=""图片 1""></pic:cNvPr><pic:cNvPicPr></pic:cNvPicPr></pic:nvPicPr><pic:blipFill><a:blip r:embed=""rId5""></a:blip><a:stretch></a:stretch></pic:blipFill></pic:pic></a:graphicData></a:graphic></wp:inline></w:drawing></w:r></w:p>")
  | _, _ => False
  end.
Proof.
  assert (R := ex_runs "" ltac:(vm_compute; reflexivity)). split; [exact R|]. split; [exact (ex_own "")|]. split.
  { refine (proj1 (history_own ex_lib (ex_ops "") _ (ex_own "") R) 0 1 _). discriminate. }
  split; [exact ex_portable|]. vm_compute. split; reflexivity.
Qed.
(** cut before the picture *)
Example C79_split_ex : match split_by_paragraph 1 (fun p => Ok (Nat.eqb (length (para_children p)) 1)) (ex_world "") with
  | Ok [_; s; a; b] => strip (ex_main a) = "<w:p><w:r><w:t>see</w:t></w:r><w:hyperlink r:id=""rId4""><w:r><w:t>there</w:t></w:r></w:hyperlink></w:p>" /\
      index 0 "<a:blip r:embed=""rId4"">" (ex_main b) <> None
  | _ => False
  end.
Proof. vm_compute. split; [reflexivity|discriminate]. Qed.

(** Without the condition on transparency it does not hold: AppendFile loses the
    transparency of a picture. *)
Theorem C79_transparency_refuted : exists (L : GoLib) l w d s w' d' m ms m', Forall own_pieces l /\ run_ops l [] = Some w /\ nth_error w 0 = Some d /\ nth_error w 1 = Some s /\
  append_file 0 1 w = Ok w' /\ nth_error w' 0 = Some d' /\ pack_files d = Ok m /\ pack_files s = Ok ms /\ pack_files d' = Ok m' /\
  (exists y, In (DOC_NAME, Some y) ms /\ index 0 "<a:alphaModFix amt=""50"">" y <> None) /\
  (forall z, In (DOC_NAME, Some z) m' -> index 0 "<a:alphaModFix" z = None /\ index 0 "<a:blip " z <> None).
Proof. exact ex_lost. Qed.
Print Assumptions C79_transparency_refuted.
