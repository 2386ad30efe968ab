(** Witnesses for copies with hyperlinks and pictures. *)
From Coq Require Import String Ascii List Bool Arith NArith ZArith.
From Verif Require Import GoStr Num Lib Types Docx Api Copy Pack Text History SpecApi SpecPack SpecBreak SpecVerb SpecAlike BreakFacts AlikeFacts.
Import ListNotations.
Local Open Scope list_scope.
Local Open Scope string_scope.

(** A document, and a package with a text, a hyperlink and a picture *)
Definition ex_lib : GoLib := {| lib_float := fun _ => None; lib_md5 := fun s => s; lib_imgsize := fun s => None |}.
Definition ex_picture (alpha : string) : string :=
  "<w:p><w:r><w:drawing><wp:inline><wp:docPr id=""7"" name=""old""></wp:docPr><a:graphic><a:graphicData><pic:pic><pic:nvPicPr><pic:cNvPr id=""8"" name=""older""></pic:cNvPr></pic:nvPicPr>" ++
  "<pic:blipFill><a:blip r:embed=""rId7"">" ++ alpha ++ "</a:blip></pic:blipFill></pic:pic></a:graphicData></a:graphic></wp:inline></w:drawing></w:r></w:p>".
Definition ex_package (alpha : string) : archive :=
  [("word/_rels/document.xml.rels",
    Some "<Relationships><Relationship Id=""rId7"" Type=""t"" Target=""media/a.png""/><Relationship Id=""rId9"" Type=""t"" Target=""http://e"" TargetMode=""External""/></Relationships>");
   ("word/document.xml",
    Some ("<w:document><w:body><w:p><w:r><w:t>see</w:t></w:r><w:hyperlink r:id=""rId9""><w:r><w:t>there</w:t></w:r></w:hyperlink></w:p>" ++ ex_picture alpha ++ "</w:body></w:document>"));
   ("word/media/a.png", Some "P")].
Definition ex_ops (alpha : string) : list op := [ONew; OAddPara 0; OPara 0 (ABody 0) (OText "a"); OParse (ex_package alpha)].
Definition ex_world (alpha : string) : world := match @run_ops ex_lib (ex_ops alpha) [] with Some w => w | None => [] end.
Definition ex_main (d : docx) : string :=
  match pack_files d with Ok m => match find (fun e => String.eqb (fst e) DOC_NAME) m with Some (_, Some s) => s | _ => "" end | _ => "" end.
Definition strip (s : string) : string :=
  match index 0 "<w:body>" s with Some i => substring (i + 8) (String.length s - i - 8 - 22) s | None => "" end.
Lemma ex_own : forall alpha, Forall (@own_pieces) (ex_ops alpha).
Proof. intros alpha. do 3 (constructor; [exact I|]). constructor; [|constructor]. cbn. constructor; [|constructor; [|constructor; [|constructor]]]; cbn; intuition discriminate. Qed.
Definition ex_src : docx := Eval vm_compute in match nth_error (ex_world "") 1 with Some s => s | None => new_docx end.
Lemma ex_at : nth_error (ex_world "") 1 = Some ex_src.
Proof. vm_cast_no_check (eq_refl (Some ex_src)). Qed.
Lemma any_portable : forall w, nth_error w 1 = Some ex_src -> portable w (d_items ex_src).
Proof.
  intros w N. unfold portable. cbn [d_items ex_src body_paras item_paras flat_map app]. 

  apply Forall_cons; [|apply Forall_cons; [|apply Forall_nil]].
  - intros c [<-|[<-|[]]].
    + repeat constructor.
    + split; [|repeat constructor]. exists ex_src, "http://e". split; [exact N|]. eexists [_]. eexists. eexists. split; [reflexivity|]. split; [reflexivity|]. split; [reflexivity|].
      cbn. intros [K|[]]. discriminate K.
  - intros c [<-|[]]. constructor; [|constructor]. split; [|reflexivity]. right.
    do 5 eexists. exists ex_src, "media/", "a.png". do 5 (split; [reflexivity|]). split; [discriminate|]. split; [reflexivity|]. split; [exact N|]. split; [|split; [reflexivity|cbn; auto]].
    exists []. do 2 eexists. split; [reflexivity|]. split; [reflexivity|]. split; [reflexivity|]. intros [].
Qed.
Lemma ex_portable : exists s, nth_error (ex_world "") 1 = Some s /\ portable (ex_world "") (d_items s).
Proof. exists ex_src. split; [exact ex_at|]. apply any_portable. exact ex_at. Qed.
Definition ex_alpha : string := "<a:alphaModFix amt=""50""/>".
Lemma ex_runs : forall alpha, match @run_ops ex_lib (ex_ops alpha) [] with Some _ => true | None => false end = true -> @run_ops ex_lib (ex_ops alpha) [] = Some (ex_world alpha).
Proof. intros alpha K. unfold ex_world. destruct (@run_ops ex_lib (ex_ops alpha) []); [reflexivity|discriminate K]. Qed.
Definition has (p s : string) : bool := match index 0 p s with Some _ => true | None => false end.
Definition lost_check (w : world) : bool :=
  match nth_error w 0, nth_error w 1, append_file 0 1 w with
  | Some d, Some s, Ok w' =>
      match nth_error w' 0 with
      | Some d' =>
          match pack_files d, pack_files s, pack_files d' with
          | Ok m, Ok ms, Ok m' =>
              existsb (fun e => match snd e with Some y => String.eqb (fst e) DOC_NAME && has "<a:alphaModFix amt=""50"">" y | None => false end) ms &&
              forallb (fun e => match snd e with Some z => negb (String.eqb (fst e) DOC_NAME) || (negb (has "<a:alphaModFix" z) && has "<a:blip " z) | None => true end) m'
          | _, _, _ => false
          end
      | None => false
      end
  | _, _, _ => false
  end.
Lemma ex_starts : match @run_ops ex_lib (ex_ops ex_alpha) [] with Some _ => true | None => false end = true.
Proof. vm_compute. reflexivity. Qed.
Lemma ex_checked : lost_check (ex_world ex_alpha) = true.
Proof. vm_compute. reflexivity. Qed.
Lemma checked_lost : forall w, lost_check w = true -> exists d s w' d' m ms m', nth_error w 0 = Some d /\ nth_error w 1 = Some s /\
  append_file 0 1 w = Ok w' /\ nth_error w' 0 = Some d' /\ pack_files d = Ok m /\ pack_files s = Ok ms /\ pack_files d' = Ok m' /\
  (exists y, In (DOC_NAME, Some y) ms /\ index 0 "<a:alphaModFix amt=""50"">" y <> None) /\
  (forall z, In (DOC_NAME, Some z) m' -> index 0 "<a:alphaModFix" z = None /\ index 0 "<a:blip " z <> None).
Proof.
  intros w K.
  unfold lost_check in K. destruct (nth_error w 0) as [d|] eqn:N0; [|discriminate]. destruct (nth_error w 1) as [s|] eqn:N1; [|discriminate].
  destruct (append_file 0 1 w) as [w'| |] eqn:A; try discriminate. destruct (nth_error w' 0) as [d'|] eqn:N2; [|discriminate].
  destruct (pack_files d) as [m| |] eqn:P1; try discriminate. destruct (pack_files s) as [ms| |] eqn:P2; try discriminate. destruct (pack_files d') as [m'| |] eqn:P3; try discriminate.
  exists d, s, w', d', m, ms, m'. apply andb_prop in K. destruct K as [K1 K2]. do 7 (split; [first [reflexivity|assumption]|]). split.
  - apply existsb_exists in K1. destruct K1 as ([n [y|]] & I & K1); [|discriminate K1]. cbn in K1. apply andb_prop in K1. destruct K1 as [K1 K3]. apply String.eqb_eq in K1. subst n.
    exists y. split; [exact I|]. unfold has in K3. destruct (index 0 _ y); [discriminate|discriminate K3].
  - intros z I. rewrite forallb_forall in K2. specialize (K2 _ I). cbn in K2. unfold has in K2. destruct (index 0 "<a:alphaModFix" z); [discriminate|]. destruct (index 0 "<a:blip " z); [|discriminate]. split; [reflexivity|discriminate].
Qed.
Lemma ex_lost : exists (L : GoLib) l w d s w' d' m ms m', Forall own_pieces l /\ run_ops l [] = Some w /\ nth_error w 0 = Some d /\ nth_error w 1 = Some s /\
  append_file 0 1 w = Ok w' /\ nth_error w' 0 = Some d' /\ pack_files d = Ok m /\ pack_files s = Ok ms /\ pack_files d' = Ok m' /\
  (exists y, In (DOC_NAME, Some y) ms /\ index 0 "<a:alphaModFix amt=""50"">" y <> None) /\
  (forall z, In (DOC_NAME, Some z) m' -> index 0 "<a:alphaModFix" z = None /\ index 0 "<a:blip " z <> None).
Proof.
  destruct (checked_lost _ ex_checked) as (d & s & w' & d' & m & ms & m' & K). exists ex_lib, (ex_ops ex_alpha), (ex_world ex_alpha), d, s, w', d', m, ms, m'.
  split; [exact (ex_own _)|]. split; [exact (ex_runs ex_alpha ex_starts)|exact K].
Qed.
