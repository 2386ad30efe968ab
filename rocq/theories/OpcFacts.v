(** Packages of documents with the default theme are complete. *)
From Coq Require Import String Ascii List Bool Arith NArith ZArith Lia Permutation.
From Verif Require Import GoStr Num Lib Types XmlTok Docx Api Keep Copy Marshal Lex Rels Pack History Theme SpecApi SpecLex SpecPack SpecOpc
  SpecEdit LexFacts LexFacts2 LexFacts3 RegFacts HistFacts HistFacts2 RelsFacts PackFacts PackFacts2 PackFacts3 PackFacts4 PackFacts5 IdFacts ApiFacts StableFacts2 CopyFacts NewFacts.
Import ListNotations.
Local Open Scope list_scope.
Local Open Scope string_scope.

(** ** relationships of a document that was not loaded *)
Definition placed (g : reg) (r : rel) : Prop :=
  rel_mode r = "External" \/ rel_mode r = "" /\
  (In (rel_target r) ["styles.xml"; "theme/theme1.xml"; "fontTable.xml"] \/ exists m, In m (media g) /\ rel_target r = "media/" ++ fst m).
Definition well_placed (g : reg) : Prop := forall r, In r (rels g) -> placed g r.
Lemma placed_more : forall g g' r, (forall m, In m (media g) -> In m (media g')) -> placed g r -> placed g' r.
Proof. intros g g' r M [E|(E & [B|(m & I & T)])]; [now left|right; split; auto|right; split; [assumption|right; exists m; auto]]. Qed.
Lemma step_placed : forall g g', reg_step g g' -> well_placed g -> well_placed g'.
Proof.
  intros g g' S W. destruct S as [g|n g|l g|f d g].
  - exact W.
  - exact W.
  - intros r I. cbn in I. apply in_app_iff in I as [I|[<-|[]]].
    + apply (placed_more g); auto.
    + left. reflexivity.
  - intros r I. cbn in I. apply in_app_iff in I as [I|[<-|[]]].
    + apply (placed_more g); auto. intros m K. cbn. apply in_app_iff. now left.
    + right. split; [reflexivity|]. right. eexists. split; [cbn; apply in_app_iff; right; left; reflexivity|reflexivity].
Qed.
Lemma steps_placed : forall g g', reg_steps g g' -> well_placed g -> well_placed g'.
Proof. intros g g' S. induction S; auto. intros W. apply IHS. eapply step_placed; eauto. Qed.
Lemma base_placed : forall g, rels g = base_rels -> well_placed g.
Proof. intros g E r I. rewrite E in I. cbn in I. right. destruct I as [<-|[<-|[<-|[]]]]; split; auto; left; cbn; auto. Qed.

(** ** every document of a history without Parse *)
Section Hist.
Context `{GoLib}.
Variable Q : reg -> Prop.
Hypothesis Q_step : forall g g', reg_step g g' -> Q g -> Q g'.
Hypothesis Q_new : Q empty_reg.
(** what a call brings in from outside *)
Definition admits (o : op) : Prop :=
  match o with OLoad _ ms => Q (load_reg ms) | OParse a => forall f d, unpack f a = Ok d -> Q (d_reg d) | _ => True end.
Definition regs (w : world) : Prop := forall i d, nth_error w i = Some d -> Q (d_reg d).
Lemma Q_steps : forall g g', reg_steps g g' -> Q g -> Q g'.
Proof. intros g g' S. induction S; eauto. Qed.
Lemma grows_regs : forall w w', grows w w' -> length w' = length w -> regs w -> regs w'.
Proof.
  intros w w' G L R i d N. destruct (nth_error w i) as [e|] eqn:E.
  - destruct (G i e E) as (e' & A & B). rewrite N in A. injection A as ->. eapply Q_steps; eauto.
  - apply nth_error_None in E. assert (i < length w') by (apply nth_error_Some; congruence). lia.
Qed.
Lemma app_regs : forall w x, regs w -> Q (d_reg x) -> regs (w ++ [x])%list.
Proof.
  intros w x R K i d N. destruct (lt_dec i (length w)) as [L|L]; [rewrite nth_error_app1 in N by lia; eauto|].
  rewrite nth_error_app2 in N by lia. destruct (i - length w) as [|k]; [injection N as <-; exact K|destruct k; discriminate].
Qed.
Lemma on_doc_length : forall w i k w', on_doc w i k = Ok w' -> length w' = length w.
Proof. intros w i k w' E. unfold on_doc in E. destruct (nth_error w i); [|discriminate]. bok E. inversion E. apply set_nth_length. Qed.
Lemma parts_regs : forall t ps w w', parts_of t ps w w' -> regs w -> regs w'.
Proof.
  induction 1 as [w|s ps w w1 w2 A P IH]; intros R; [exact R|]. apply IH. eapply grows_regs; [eapply append_items_grows; eauto|exact (proj1 (append_items_only _ _ _ _ A))|].
  unfold new_part. now apply app_regs.
Qed.
Lemma exec_regs : forall o w w', exec o w = Ok w' -> admits o -> regs w -> regs w'.
Proof.
  intros o w w' E NP R. pose proof (exec_grows _ _ _ E) as G. destruct o; cbn in E;
    try (apply (grows_regs w); [exact G|eapply on_doc_length; exact E|exact R]).
  - injection E as <-. now apply app_regs.
  - injection E as <-. apply app_regs; [exact R|exact NP].
  - apply (grows_regs w); [exact G| |exact R]. destruct (nth_error w d) as [x|]; [|discriminate]. destruct (get_para (d_items x) a); [|discriminate].
    bok E. destruct v as [w1 p1]. apply on_doc_length in E. rewrite E. now apply exec_pop_items in E0 as (_ & K & _).
  - apply (grows_regs w); [exact G| |exact R]. bok E. destruct v as [w1 p1]. injection E as <-. now apply exec_pop_items in E0 as (_ & K & _).
  - apply (grows_regs w); [exact G| |exact R]. destruct (nth_error w d); [|discriminate]. unfold append_file in E. destruct (nth_error w from); [|discriminate].
    exact (proj1 (append_items_only _ _ _ _ E)).
  - destruct (nth_error w d) as [x|] eqn:N; [|unfold split_by_paragraph in E; rewrite N in E; discriminate].
    destruct (split_parts _ _ _ _ _ N E) as (ps & _ & P). eapply parts_regs; eauto.
  - unfold parse in E. bok E. injection E as <-. apply app_regs; [exact R|eapply NP; eauto].
Qed.
Lemma run_regs : forall l w w', run_ops l w = Some w' -> Forall admits l -> regs w -> regs w'.
Proof.
  induction l as [|o l IH]; intros w w' E F R; cbn in E; [now injection E as <-|]. inversion F; subst.
  destruct (exec o w) eqn:X; [eapply IH; eauto; eapply exec_regs; eauto|eauto|discriminate].
Qed.
End Hist.
Lemma history_placed `{GoLib} : forall l w i d, run_ops l [] = Some w -> Forall no_parse l -> nth_error w i = Some d -> well_placed (d_reg d).
Proof.
  intros l w i d R F N. apply (run_regs well_placed step_placed) with (l := l) (w := []) (w' := w) (i := i); try assumption.
  - apply base_placed. reflexivity.
  - eapply Forall_impl; [|exact F]. intros [] K; cbn; auto; [apply base_placed; reflexivity|destruct K].
  - intros k x K. destruct k; discriminate.
Qed.

(** ** the relationships that are written *)
Lemma elems_app : forall f (a b : list token), flat_map f (a ++ b)%list = (flat_map (B := list attr) f a ++ flat_map f b)%list.
Proof. intros. apply flat_map_app. Qed.
Definition rel_attrs (r : rel) : list attr := (at_ (nn "Id") (rel_id r) ++ at_ (nn "Type") (rel_type r) ++ at_ (nn "Target") (rel_target r) ++ ato (nn "TargetMode") (rel_mode r))%list.
Lemma written_rels : forall g a, In a (elems (write_xml (m_rels g)) "Relationship") -> exists r, In r (rels g) /\
  Forall2 (fun x y => fst x = fst y /\ cleaned (snd x) (snd y)) (rel_attrs r) a.
Proof.
  intros g a I. unfold elems in I. destruct (lex_write_any (m_rels g)) as (t' & C & K); [unfold m_rels; eauto|apply ok_rels|]. rewrite K in I.
  unfold m_rels in C. inversion C as [? ? a' ? c' FA FC|]; subst. cbn [flat_map app] in I. cbn [toks] in I. cbn [flat_map snd nn String.eqb Ascii.eqb Bool.eqb app] in I.
  rewrite flat_map_app in I. apply in_app_iff in I as [I|[]]. fold (ftoks c') in I.
  remember (map m_rel (rels g)) as l eqn:E. assert (Z : forall t, In t l -> exists r, In r (rels g) /\ t = m_rel r) by (subst l; intros t J; apply in_map_iff in J as (r & <- & J); eauto).
  clear E K C FA. induction FC as [|t t' l c' X FC IH]; [destruct I|]. unfold ftoks in I. cbn [flat_map] in I. rewrite flat_map_app in I. apply in_app_iff in I as [I|I].
  - destruct (Z t (or_introl eq_refl)) as (r & R & ->). unfold m_rel in X. inversion X as [? ? a1 ? c1 FA FC'|]; subst. inversion FC'; subst. cbn in I. destruct I as [<-|[]]. eauto.
  - apply IH; auto. intros t0 J. apply Z. now right.
Qed.
Lemma xml_external : xml_string "External".
Proof. apply (legal_xml _ _ (le_n _)). vm_compute. reflexivity. Qed.
Lemma written_closed : forall has g, (forall r, In r (rels g) -> rel_mode r = "External" \/ xml_string (rel_target r) /\ found has "word/" (rel_target r)) ->
  closed_rels has "word/" (write_xml (m_rels g)).
Proof.
  intros has g P a I. apply written_rels in I as (r & R & F). destruct r as [i t g' m]. unfold rel_attrs, at_ in F. cbn [rel_id rel_type rel_target rel_mode app] in F.
  inversion F as [|? x1 ? l1 (E1 & _) F1]; subst. inversion F1 as [|? x2 ? l2 (E2 & _) F2]; subst. inversion F2 as [|? x3 ? l3 (E3 & (_ & C3 & _)) F3]; subst.
  cbn [fst snd] in *. destruct x1 as (q1, v1), x2 as (q2, v2), x3 as (q3, v3). cbn [fst snd] in *. subst q1 q2 q3.
  destruct (P _ R) as [M|(X & HC)]; cbn [rel_mode rel_target] in *.
  - left. subst m. unfold ato in F3. cbn [String.eqb] in F3. inversion F3 as [|? x4 ? l4 (E4 & (_ & C4 & _)) F4]; subst. destruct x4 as (q4, v4). cbn [fst snd] in *. subst q4.
    rewrite (C4 xml_external). reflexivity.
  - right. rewrite (C3 X). exists g'. split; [reflexivity|exact HC].
Qed.

(** ** when a saved package is complete *)
Definition media_typed (ct : string) (d : docx) : Prop := forall m, In m (media (d_reg d)) -> exists ty, content_type ct ("word/media/" ++ fst m) ty.
Lemma media_part : forall d ar m, writes d (Ok ar) -> In m (media (d_reg d)) -> exists c, files_of ar ("word/media/" ++ fst m) c.
Proof.
  intros d ar m W I. destruct (written_parts d ar W) as (_ & G).
  assert (E : exists y, last_media (media (d_reg d)) (fst m) y).
  { destruct (last_named (fst m) (media (d_reg d))) as [y|] eqn:L; [exists y; now apply last_named_spec|]. exfalso.
    apply last_named_none_iff in L. apply L, in_map, I. }
  destruct E as (y & E). exists (snd y). apply G. eexists. split; [reflexivity|]. now apply part_media.
Qed.
Lemma rels_part : forall d ar, writes d (Ok ar) -> files_of ar MAIN_RELS (write_xml (m_rels (d_reg d))).
Proof. intros d ar W. apply (proj2 (written_parts d ar W)). eexists. split; [reflexivity|apply part_rels]. Qed.
Lemma doc_part : forall d ar, writes d (Ok ar) -> exists c, files_of ar MAIN_PART c.
Proof. intros d ar W. eexists. apply (proj2 (written_parts d ar W)). eexists. split; [reflexivity|apply part_doc]. Qed.
Lemma file_once : forall d ar n b b', writes d (Ok ar) -> files_of ar n b -> files_of ar n b' -> b = b'.
Proof.
  intros d ar n b b' W A B. destruct (written_parts d ar W) as (N & _). unfold files_of in *. apply fget_in in A; [|exact N]. apply fget_in in B; [|exact N]. congruence.
Qed.
Lemma complete_iff : forall d ar ct b, writes d (Ok ar) -> files_of ar TYPES_NAME ct -> files_of ar ROOT_RELS b ->
  closed_rels (files_of ar) "" b ->
  (exists a t, In a (elems b "Relationship") /\ value "Type" a = Some REL_MAIN /\ value "Target" a = Some t /\ points "" t MAIN_PART) ->
  content_type ct MAIN_PART TYPE_MAIN -> content_type ct ROOT_RELS TYPE_RELS -> content_type ct MAIN_RELS TYPE_RELS ->
  (forall n c, files_of ar n c -> n <> TYPES_NAME -> (forall m, In m (media (d_reg d)) -> n <> "word/media/" ++ fst m) -> exists ty, content_type ct n ty) ->
  (forall r, In r (rels (d_reg d)) -> rel_mode r = "External" \/ xml_string (rel_target r) /\ found (files_of ar) "word/" (rel_target r)) ->
  (complete (files_of ar) <-> media_typed ct d).
Proof.
  intros d ar ct b W HT HR CR MP C1 C2 C3 CP PL. split.
  - intros [(ct' & T & A & _) _ _] m I. pose proof (file_once d ar _ _ _ W HT T) as <-. destruct (media_part d ar m W I) as (c & F).
    apply (A _ c F). discriminate.
  - intros M. constructor.
    + exists ct. split; [exact HT|]. split; [|auto]. intros n c F N.
      destruct (in_dec string_dec n (map (fun m : mediaT => "word/media/" ++ fst m) (media (d_reg d)))) as [I|I].
      * apply in_map_iff in I as (m & <- & I). now apply M.
      * apply (CP n c F N). intros m J ->. apply I. apply in_map_iff. eauto.
    + exists b. auto.
    + destruct (doc_part d ar W) as (c & F). exists (write_xml (m_rels (d_reg d))), c. split; [now apply rels_part|]. split; [exact F|]. now apply written_closed.
Qed.

(** ** with the default theme *)
Lemma extension_app : forall a n x, count "." a = 0 -> (extension (a ++ n) x <-> extension n x).
Proof.
  intros a n x Z. split.
  - intros (p & E & C). revert p E. induction a as [|c a IH]; intros p E; [exists p; auto|]. cbn in Z. destruct (Ascii.eqb c ".") eqn:D; [discriminate|].
    destruct p as [|c' p]; cbn in E; injection E as E1 E; [subst c; discriminate|]. exact (IH Z p E).
  - intros (p & -> & C). exists (a ++ p). split; [now rewrite sapp_assoc|exact C].
Qed.
Lemma type_default : forall n, (forall ty, ~ overrides TYPES_FILE n ty) -> ((exists ty, content_type TYPES_FILE n ty) <-> exists x, extension n x /\ In (lower x) typed).
Proof.
  intros n NO.
  assert (E : elems TYPES_FILE "Default" = map (fun x => [((("", "Extension") : qname), fst x); (("", "ContentType"), snd x)])
    [("jpeg", "image/jpeg"); ("png", "image/png"); ("webp", "image/webp"); ("rels", TYPE_RELS); ("xml", "application/xml")]) by (vm_compute; reflexivity).
  split.
  - intros (ty & [O|(_ & a & v & x & I & V & LX & X & T)]); [exfalso; eapply NO; eauto|]. exists x. split; [exact X|]. rewrite <- LX. rewrite E in I. apply in_map_iff in I as (y & <- & I).
    cbn in I. unfold value in V. cbn in V. injection V as <-. repeat (destruct I as [<-|I]; [vm_compute; auto 8|]). destruct I.
  - intros (x & X & I).
    assert (K : exists ty, In [((("", "Extension") : qname), lower x); (("", "ContentType"), ty)] (elems TYPES_FILE "Default") /\ lower (lower x) = lower x).
    { rewrite E. cbn in I. repeat (destruct I as [<-|I]; [eexists; split; [cbn; eauto 10|reflexivity]|]). destruct I. }
    destruct K as (ty & K & LL). exists ty. right. split; [exact NO|]. eexists _, (lower x), x. split; [exact K|]. split; [reflexivity|]. split; [exact LL|]. split; [exact X|reflexivity].
Qed.
Lemma no_media_override : forall n ty, ~ overrides TYPES_FILE ("word/media/" ++ n) ty.
Proof.
  intros n ty (a & I & (v & V & LV) & _). revert V LV.
  assert (E : map (value "PartName") (elems TYPES_FILE "Override") = map Some ["/word/document.xml"; "/word/styles.xml"; "/word/fontTable.xml"; "/word/theme/theme1.xml"; "/docProps/core.xml"; "/docProps/app.xml"]) by (vm_compute; reflexivity).
  apply (in_map (value "PartName")) in I. rewrite E in I. intros V. rewrite V in I. cbn in I.
  intuition (match goal with Q : Some _ = Some v |- _ => injection Q as <- end; discriminate).
Qed.
Definition default_parts : list (string * string) :=
  [(MAIN_RELS, TYPE_RELS); (MAIN_PART, TYPE_MAIN); (ROOT_RELS, TYPE_RELS);
   ("docProps/app.xml", "application/vnd.openxmlformats-officedocument.extended-properties+xml");
   ("docProps/core.xml", "application/vnd.openxmlformats-package.core-properties+xml");
   ("word/theme/theme1.xml", "application/vnd.openxmlformats-officedocument.theme+xml");
   ("word/fontTable.xml", "application/vnd.openxmlformats-officedocument.wordprocessingml.fontTable+xml");
   ("word/styles.xml", "application/vnd.openxmlformats-officedocument.wordprocessingml.styles+xml")].
Lemma default_types : forall n ty, In (n, ty) default_parts -> content_type TYPES_FILE n ty.
Proof.
  assert (EO : elems TYPES_FILE "Override" = map (fun x => [((("", "PartName") : qname), "/" ++ fst x); (("", "ContentType"), snd x)])
    (map (nth_default ("", "") default_parts) [1; 7; 6; 5; 4; 3])) by (vm_compute; reflexivity).
  assert (R : forall n, extension n "rels" -> (forall v, In v (map (fun x => "/" ++ fst x) (map (nth_default ("", "") default_parts) [1; 7; 6; 5; 4; 3])) -> lower v <> lower ("/" ++ n)) -> content_type TYPES_FILE n TYPE_RELS).
  { intros n X D. right. split.
    - intros ty (a & I & (v & V & LV) & _). rewrite EO in I. apply in_map_iff in I as (y & <- & I). cbn [value find snd fst String.eqb Ascii.eqb Bool.eqb option_map] in V. injection V as <-.
      eapply D; [|exact LV]. apply in_map_iff. exists y. auto.
    - exists [((("", "Extension") : qname), "rels"); (("", "ContentType"), TYPE_RELS)], "rels", "rels". split; [vm_compute; auto 10|auto]. }
  assert (O : forall n ty, In (n, ty) (map (nth_default ("", "") default_parts) [1; 7; 6; 5; 4; 3]) -> content_type TYPES_FILE n ty).
  { intros n ty I. left. exists [((("", "PartName") : qname), "/" ++ n); (("", "ContentType"), ty)]. split; [|split; [exists ("/" ++ n); auto|reflexivity]].
    rewrite EO. apply in_map_iff. exists (n, ty). auto. }
  intros n ty I. cbn [default_parts In] in I. destruct I as [E|[E|[E|I]]].
  - injection E as <- <-. apply R; [exists "word/_rels/document.xml"; auto|]. intros v V. repeat (destruct V as [<-|V]; [vm_compute; discriminate|]). destruct V.
  - injection E as <- <-. apply O. vm_compute. auto.
  - injection E as <- <-. apply R; [exists "_rels/"; auto|]. intros v V. repeat (destruct V as [<-|V]; [vm_compute; discriminate|]). destruct V.
  - apply O. cbn. tauto.
Qed.

Lemma default_part : forall x d ar n, d_tmpl d = default_theme x -> writes d (Ok ar) -> In n default_files -> exists c,
  files_of ar n c /\ template_fs x ("xml/default/" ++ n) = FData c.
Proof.
  intros x d ar n T W I.
  assert (F : exists c, t_fs (d_tmpl d) (tmpl_path (d_tmpl d) n) = FData c /\ template_fs x ("xml/default/" ++ n) = FData c).
  { rewrite T. unfold tmpl_path. cbn [t_fs t_name default_theme String.eqb]. repeat (destruct I as [<-|I]; [eexists; split; reflexivity|]). destruct I. }
  destruct F as (c & F & F'). exists c. split; [|exact F']. apply (proj2 (written_parts d ar W)). exists c. split; [reflexivity|]. apply part_tmpl.
  - rewrite T. exact I.
  - exact F.
  - repeat (destruct I as [<-|I]; [discriminate|]). destruct I.
  - repeat (destruct I as [<-|I]; [discriminate|]). destruct I.
  - intros y m E. exfalso. clear - I E. repeat (destruct I as [<-|I]; [discriminate|]). destruct I.
Qed.
Lemma default_complete : forall x d ar, d_tmpl d = default_theme x -> writes d (Ok ar) -> well_placed (d_reg d) ->
  (forall m, In m (media (d_reg d)) -> xml_string (fst m)) ->
  (complete (files_of ar) <-> forall m, In m (media (d_reg d)) -> exists e, extension (fst m) e /\ In (lower e) typed).
Proof.
  intros x d ar T W WP XM. pose proof (fun n => default_part x d ar n T W) as P.
  assert (TY : files_of ar TYPES_NAME TYPES_FILE) by (destruct (P TYPES_NAME) as (c & F & E); [cbn; auto 10|injection E as <-; exact F]).
  assert (RT : files_of ar ROOT_RELS RELS_FILE) by (destruct (P ROOT_RELS) as (c & F & E); [cbn; auto 10|injection E as <-; exact F]).
  destruct (doc_part d ar W) as (dc & DC).
  assert (FD : forall dir n c, files_of ar (dir ++ n) c -> found (files_of ar) dir n) by (intros dir n c F; exists (dir ++ n), (dir ++ n), c; split; [constructor|auto]).
  assert (ER : map (fun a => (value "Type" a, value "Target" a)) (elems RELS_FILE "Relationship") =
    [(Some "http://schemas.openxmlformats.org/officeDocument/2006/relationships/extended-properties", Some "docProps/app.xml");
     (Some "http://schemas.openxmlformats.org/package/2006/relationships/metadata/core-properties", Some "docProps/core.xml"); (Some REL_MAIN, Some MAIN_PART)]) by (vm_compute; reflexivity).
  rewrite (complete_iff d ar TYPES_FILE RELS_FILE W TY RT).
  - unfold media_typed. split; intros K m I; specialize (K m I).
    + apply type_default in K; [|intros; apply no_media_override]. destruct K as (e & X & IN). exists e. split; [|exact IN]. now apply extension_app in X.
    + apply type_default; [intros; apply no_media_override|]. destruct K as (e & X & IN). exists e. split; [|exact IN]. now apply extension_app.
  - intros a I. right. apply (in_map (fun a => (value "Type" a, value "Target" a))) in I. rewrite ER in I. cbn [In] in I. destruct I as [E|[E|[E|[]]]]; injection E as _ E; eexists; (split; [symmetry; exact E|]).
    + destruct (P "docProps/app.xml") as (c & F & _); [cbn; auto 10|]. eapply FD. exact F.
    + destruct (P "docProps/core.xml") as (c & F & _); [cbn; auto 10|]. eapply FD. exact F.
    + eapply FD. exact DC.
  - assert (I : In (Some REL_MAIN, Some MAIN_PART) (map (fun a => (value "Type" a, value "Target" a)) (elems RELS_FILE "Relationship"))) by (rewrite ER; cbn; auto).
    apply in_map_iff in I as (a & E & I). injection E as E1 E2. exists a, MAIN_PART. repeat split; auto. apply (pt_rel "" MAIN_PART).
  - apply default_types. cbn. auto.
  - apply default_types. cbn. auto.
  - apply default_types. cbn. auto.
  - intros n c F N NM. assert (IN : exists ty, In (n, ty) default_parts); [|destruct IN as (ty & IN); exists ty; now apply default_types].
    apply (proj2 (written_parts d ar W)) in F as (s & _ & Q). inversion Q as [A B|A B|n' y LM A B|n' c' LM G X1 X2 X3 A B]; subst.
    + eexists. cbn. left. reflexivity.
    + eexists. cbn. right. left. reflexivity.
    + exfalso. destruct LM as (l1 & l2 & E & E1 & _). apply (NM y); [rewrite E; apply in_app_iff; right; now left|congruence].
    + rewrite T in LM. cbn in LM. destruct LM as [<-|[<-|[<-|[<-|[<-|[<-|[<-|[]]]]]]]]; try (now contradiction N); eexists; cbn; eauto 12.
  - intros r I. destruct (WP r I) as [M|(_ & [B|(m & J & E)])]; [now left|right|right].
    + assert (XS : xml_string (rel_target r)) by (cbn in B; destruct B as [<-|[<-|[<-|[]]]]; apply (legal_xml _ _ (le_n _)); vm_compute; reflexivity). split; [exact XS|].
      destruct (P ("word/" ++ rel_target r)) as (c & F & _); [cbn in B; destruct B as [<-|[<-|[<-|[]]]]; cbn; auto 12|]. eapply FD. exact F.
    + rewrite E. split; [|destruct (media_part d ar m W J) as (c & F); eapply FD; exact F].
      apply xml_app; [apply (legal_xml _ _ (le_n _)); vm_compute; reflexivity|auto].
Qed.
