(** The demo document of cmd/main: its strings, its file, what is printed. *)
From Coq Require Import String Ascii List Bool Arith NArith ZArith Lia Permutation.
From Verif Require Import GoStr Num Lib Types Docx Api Keep Copy Text Lex Rels Pack Theme History Reload SpecLex SpecPack SpecReopen SpecCmd SpecDemo Cmd Demo
  HistFacts HistFacts2 RelsFacts PackFacts PackFacts2 PackFacts3 LexFacts3 HistInv ValFacts ValFacts2 ValHist OpcFacts OpcFacts2 StableFacts2 HomeFacts ReopenFacts ReopenFacts2 VerbFacts CmdFacts CmdFacts2 CmdFacts3 DemoFacts.
Import ListNotations.
Local Open Scope list_scope.
Local Open Scope string_scope.

(** ** its texts *)
Section Texts.
Context `{GoLib}.
Definition text_of (w : world) (x : item) : list (res string) := match x with IPara p => [para_string w p] | ITable t => [table_string w t] | ISect _ => [] end.
Lemma texts_shown : forall w l ls, flat_map (text_of w) l = map (@Ok string) ls -> shown w l ls.
Proof.
  intros w. induction l as [|[p|t|s] l IH]; intros ls E; cbn in E.
  - destruct ls; [constructor|discriminate].
  - destruct ls as [|s ls]; [discriminate|]. cbn in E. injection E as E1 E2. constructor; auto.
  - destruct ls as [|s' ls]; [discriminate|]. cbn in E. injection E as E1 E2. constructor; auto.
  - constructor. auto.
Qed.
Variable rd : string -> res string.
Variables (t : tmpl) (p1 p2 p3 : string).
Variables (a1 b1 c1 d1 a2 b2 c2 d2 a3 b3 c3 d3 a4 b4 : i64).
Local Notation M := (made_of rd t p1 p2 p3 a1 b1 c1 d1 a2 b2 c2 d2 a3 b3 c3 d3 a4 b4).
Local Notation I := (map (reload_item (Some 0)) (d_items M)).
Local Notation D := (set_d_items I M).
Lemma made_texts : flat_map (text_of [D]) I = map (@Ok string) (demo_texts (lib_md5 p1) (lib_md5 p2) (lib_md5 p3) true).
Proof. vm_compute. fold append. rewrite ?sapp_nil_r, <- ?GoStr.sapp_assoc. reflexivity. Qed.
Lemma made_clean : flat_map (text_of [D]) (drop_drawing_of "NilPicture" I) = map (@Ok string) (demo_texts (lib_md5 p1) (lib_md5 p2) (lib_md5 p3) false).
Proof. vm_compute. fold append. rewrite ?sapp_nil_r, <- ?GoStr.sapp_assoc. reflexivity. Qed.
Lemma made_steady : map (reload_item (Some 0)) I = I.
Proof. vm_compute. reflexivity. Qed.
Lemma made_steady2 : map (reload_item (Some 0)) (drop_drawing_of "NilPicture" I) = drop_drawing_of "NilPicture" I.
Proof. vm_compute. reflexivity. Qed.
Lemma made_nums : forallb (fun r => match id_number (rel_id r) with Some _ => true | None => false end) (rels (d_reg M)) = true.
Proof. vm_compute. reflexivity. Qed.
Lemma made_media : map fst (media (d_reg M)) = ["image1.jpeg"; "image2.jpeg"; "image3.webp"; "image4.png"].
Proof. vm_compute. reflexivity. Qed.
Lemma made_tmpl : d_tmpl M = t.
Proof. vm_compute. reflexivity. Qed.
End Texts.

(** ** its strings *)
Section Legal.
Context `{GoLib}.
Variable rd : string -> res string.
Notation xs := xml_string.
Definition clean_call (o : op) : Prop := Forall xs (call_strings o) /\ match o with OPara _ _ (ODrawing _ _) | ODetached _ (ODrawing _ _) | OLoad _ _ | OParse _ => False | _ => True end.
Definition clean_step_of (s : step) : Prop :=
  match s with
  | Do o => clean_call o
  | Pic _ _ f => forall data a b fmt, rd f = Ok data -> lib_imgsize data = Some (a, b, fmt) -> xs fmt
  | _ => True
  end.
Lemma given_ok : forall o w w', exec o w = Ok w' -> given xs xs o -> ok_world xs xs w -> ok_world xs xs w'.
Proof.
  intros o w w' E G F. apply (exec_ok xs xs) with (o := o) (w := w); auto.
  - apply xml_nil.
  - apply xml_itoa.
  - apply xml_api.
  - intros n. apply xml_app; [now apply xml_by|apply xml_itoau].
  - intros s z X. apply xml_app; [exact X|]. apply xml_app; [now apply xml_by|apply xml_itoa].
  - intros n f X. repeat (apply xml_app; [first [now apply xml_by|apply xml_itoau]|]). exact X.
  - intros s X. now apply xml_after.
  - apply xml_nil.
  - intros c s [->| ->] X; now apply xml_split.
Qed.
Lemma child_ok : forall i k f w w', on_child i k f w = Ok w' -> (forall c c', f c = Ok c' -> ok_rchild xs xs c -> ok_rchild xs xs c') -> ok_world xs xs w -> ok_world xs xs w'.
Proof.
  intros i k f w w' E K F. unfold on_child in E. apply (on_doc_ok xs xs _ _ _ _ E); [|exact F]. intros d d' Q (D1 & D2).
  destruct (get_para (d_items d) (ABody i)) as [p|] eqn:G; [|discriminate]. destruct (nth_error (para_children p) k) as [[r|id r|q]|] eqn:N; try discriminate.
  destruct (runR_children r) as [|c l] eqn:C; [discriminate|]. destruct (f c) as [c'| |] eqn:Fc; cbn [bind] in Q; try discriminate. injection Q as <-.
  pose proof (get_para_ok xs xs _ _ _ G D1) as P. pose proof (children_ok xs xs _ P) as CH. pose proof (nth_all _ _ _ _ _ CH N) as R. cbn [ok_pchild] in R.
  split; [|exact D2]. cbn [d_items set_d_items]. apply (put_para_ok xs xs (d_items d) (ABody i)); [|exact D1]. apply set_children_ok; [|exact P]. apply set_nth_all; [exact CH|]. cbn [ok_pchild].
  unfold ok_runR in *. cbn [runR_space runR_rpr runR_instr runR_children set_runR_children]. rewrite C in R. destruct R as (R1 & R2 & R3 & R4). inversion R4 as [|? ? R5 R6]; subst.
  repeat (split; [assumption|]). constructor; [now apply (K c)|assumption].
Qed.
Lemma behind_ok : forall c c', behind_child c = Ok c' -> ok_rchild xs xs c -> ok_rchild xs xs c'.
Proof.
  intros [t|t|t|i [a|]] c' E S; cbn [behind_child] in E; try discriminate.
  destruct (anchorR_posH a) as [h|] eqn:Ph; [|discriminate]. destruct (anchorR_extent a) as [e|]; [|discriminate]. destruct (anchorR_graphic a) as [g|] eqn:G; [|discriminate].
  destruct (graphicR_data g) as [d|] eqn:D; [|discriminate]. destruct (gdataR_pic d) as [p|] eqn:P; [|discriminate]. destruct (pic_blip p) as [b|] eqn:B; [|discriminate].
  injection E as <-. cbn [ok_rchild oko] in *. destruct S as (S1 & S2). split; [exact S1|]. unfold ok_anchorR, inline, anchor, graphic, gdata in *. rewrite Ph, G in S2. destruct S2 as (A1 & A2 & A3 & A4 & A5 & A6).
  cbn [oko] in A6. unfold ok_graphicR, graphic, gdata in A6. rewrite D in A6. destruct A6 as (A6 & A7). cbn [oko] in A7. unfold ok_gdataR, gdata in A7. rewrite P in A7. destruct A7 as (A7 & A8 & A9).
  cbn [oko] in A8. unfold ok_pic in A8. rewrite B in A8. destruct A8 as (A8 & B1 & B2 & B3).
  split; [exact A1|]. split; [exact A2|]. split; [exact A3|]. split; [exact A4|]. split; [exact A5|]. cbn. split; [exact A6|]. cbn. split; [exact A7|]. split; [|exact A9]. cbn.
  split; [exact A8|]. split; [exact B1|]. split; [exact B2|exact B3].
Qed.
Lemma scale_ok : forall anch n m c c', scale_child anch n m c = Ok c' -> ok_rchild xs xs c -> ok_rchild xs xs c'.
Proof.
  intros anch n m c c' E S. unfold scale_child in E. destruct (match c with RDraw _ _ => _ | _ => None end) as [e|]; [|discriminate]. eapply size_ok; [exact E|exact S].
Qed.
Lemma middle_ok : forall c c', middle_cell c = Ok c' -> ok_cell xs xs c -> ok_cell xs xs c'.
Proof.
  intros c c' E (S1 & S2). unfold middle_cell in E. destruct (cell_props c) as [q|] eqn:Q; [|discriminate]. injection E as <-. cbn [oko] in S1. destruct S1 as (A1 & A2 & A3 & A4 & A5).
  split; [|exact S2]. cbn. repeat (split; [assumption|]). cbn. now apply xml_by.
Qed.
Lemma cell_ok : forall i r c f w w', on_cell i r c f w = Ok w' -> (forall c c', f c = Ok c' -> ok_cell xs xs c -> ok_cell xs xs c') -> ok_world xs xs w -> ok_world xs xs w'.
Proof.
  intros i r c f w w' E K F. unfold on_cell in E. apply (on_doc_ok xs xs _ _ _ _ E); [|exact F]. intros d d' Q (D1 & D2).
  destruct (get_cell (d_items d) i r c) as [v|] eqn:G; [|discriminate]. destruct (f v) as [v'| |] eqn:Fv; cbn [bind] in Q; try discriminate. injection Q as <-. split; [|exact D2].
  cbn [d_items set_d_items]. apply put_cell_ok; [|exact D1]. apply (K v); [exact Fv|]. eapply get_cell_ok; eauto.
Qed.
Lemma step_ok : forall s w w', exec_step rd s w = Ok w' -> clean_step_of s -> ok_world xs xs w -> ok_world xs xs w'.
Proof.
  intros s w w' E C F. destruct s as [o|i anch f|i k anch n m|i k|i r c]; cbn [exec_step clean_step_of] in *.
  - apply (given_ok o w); auto. apply legal_given. destruct C as (C1 & C2). split; [exact C1|]. destruct o; auto; try destruct o; auto; destruct C2.
  - destruct (rd f) as [data| |] eqn:R; cbn [bind] in E; try discriminate. apply (given_ok _ _ _ E); auto. cbn [given given_pop]. intros a b fm. apply (C data a b fm). reflexivity.
  - eapply child_ok; [exact E| |exact F]. intros c c'. apply scale_ok.
  - eapply child_ok; [exact E| |exact F]. exact behind_ok.
  - eapply cell_ok; [exact E| |exact F]. exact middle_ok.
Qed.
Lemma run_ok : forall l w w', run_steps rd l w = Ok w' -> Forall clean_step_of l -> ok_world xs xs w -> ok_world xs xs w'.
Proof.
  induction l as [|s l IH]; intros w w' E C F; cbn [run_steps] in E; [now injection E as <-|]. inversion C; subst. destruct (exec_step rd s w) as [w1| |] eqn:S; cbn [bind] in E; try discriminate.
  eapply IH; eauto. eapply step_ok; eauto.
Qed.
(** all strings are legal *)
Definition clean_bool (s : step) : bool :=
  match s with
  | Do o => forallb legal (call_strings o) && match o with OPara _ _ (ODrawing _ _) | ODetached _ (ODrawing _ _) | OLoad _ _ | OParse _ => false | _ => true end
  | Pic _ _ f => existsb (String.eqb f) [JPG; WEBP; PNG]
  | _ => true
  end.
Lemma clean_demo : forall x, forallb clean_bool (demo_steps x) = true.
Proof. intros x. unfold demo_steps, demo_picture. generalize (default_theme x). intros T. vm_compute. reflexivity. Qed.
Lemma demo_clean : forall x, (forall f data a b fmt, In f [JPG; WEBP; PNG] -> rd f = Ok data -> lib_imgsize data = Some (a, b, fmt) -> xs fmt) -> Forall clean_step_of (demo_steps x).
Proof.
  intros x K. apply Forall_forall. intros s I. pose proof (proj1 (forallb_forall _ _) (clean_demo x) s I) as C. destruct s as [o|i anch f|i k anch n m|i k|i r c]; cbn [clean_bool clean_step_of] in *; auto.
  - apply andb_prop in C as (C1 & C2). split; [apply Forall_forall; intros y J; apply xml_by; now apply (proj1 (forallb_forall _ _) C1)|]. destruct o; auto; try destruct o; auto; discriminate.
  - apply existsb_exists in C as (y & J & Q). apply String.eqb_eq in Q. subst y. intros data a b fmt. now apply K.
Qed.
End Legal.
