(** The document made by cmd/main without -a. *)
From Coq Require Import String Ascii List Bool Arith NArith ZArith Lia Permutation.
From Verif Require Import GoStr Num Lib Types Docx Api Keep Copy Text Pack Theme History Reload SpecLex SpecPack SpecReopen SpecCmd Cmd Demo
  HistFacts HistFacts2 RelsFacts PackFacts PackFacts2 PackFacts3 LexFacts3 ValFacts ValFacts2 ValHist OpcFacts OpcFacts2 StableFacts2 HomeFacts ReopenFacts ReopenFacts2 VerbFacts CmdFacts CmdFacts2 CmdFacts3.
Import ListNotations.
Local Open Scope list_scope.
Local Open Scope string_scope.

Section Build.
Context `{GoLib}.
Variable rd : string -> res string.

Lemma steps_app : forall a b w, run_steps rd (a ++ b)%list w = bind (run_steps rd a w) (run_steps rd b).
Proof. induction a as [|s a IH]; intros b w; cbn [app run_steps]; [reflexivity|]. destruct (exec_step rd s w); cbn [bind]; auto. Qed.

(** ** a picture with a known size *)
Definition put_pic (i : nat) (anch : bool) (data fmt : string) (ew eh : i64) (w : world) : res world :=
  match nth_error w 0 with
  | None => Panic
  | Some x =>
      match get_para (d_items x) (ABody i) with
      | None => Panic
      | Some p =>
          bind (on_file w (para_file p) (new_image fmt data)) (fun '((idn, id, r), w') =>
          on_doc w' 0 (fun y => Ok (set_d_items (put_para (d_items y) (ABody i)
            (add_child (PRun (api_run [if anch then RDraw None (Some (pic_anchor idn id (pic_title id) r ew eh)) else RDraw (Some (pic_inline idn id (pic_title id) r ew eh)) None])) p)) y)))
      end
  end.
Lemma pic_step : forall i anch f data sw sh fmt ew eh w, rd f = Ok data -> lib_imgsize data = Some (sw, sh, fmt) -> pic_size sw sh = Ok (ew, eh) ->
  exec_step rd (Pic i anch f) w = put_pic i anch data fmt ew eh w.
Proof.
  intros i anch f data sw sh fmt ew eh w R I P. cbn [exec_step]. rewrite R. cbn [bind exec]. unfold put_pic. destruct (nth_error w 0) as [x|]; [|reflexivity].
  destruct (get_para (d_items x) (ABody i)) as [p|]; [|reflexivity]. cbn [exec_pop]. unfold add_drawing. rewrite I. destruct (on_file w (para_file p) (new_image fmt data)) as [[[[idn id] r] w']| |]; cbn [bind]; try reflexivity.
  rewrite P. cbn [bind]. destruct anch; reflexivity.
Qed.
Definition extent_at (i k : nat) (anch : bool) (w : world) : option xy :=
  match nth_error w 0 with
  | Some x =>
      match get_para (d_items x) (ABody i) with
      | Some p => match nth_error (para_children p) k with
                  | Some (PRun r) => match runR_children r with
                                     | RDraw (Some y) _ :: _ => if anch then None else inlineR_extent y
                                     | RDraw None (Some y) :: _ => if anch then anchorR_extent y else None
                                     | _ => None
                                     end
                  | _ => None
                  end
      | None => None
      end
  | None => None
  end.
Definition ext_in (r : res world) (i k : nat) (anch : bool) : option xy := match r with Ok w => extent_at i k anch w | _ => None end.
Lemma scale_step : forall i k anch n m w e, extent_at i k anch w = Some e ->
  exec_step rd (Scale i k anch n m) w = on_child i k (child_size anch (scaled n m (xy_x e)) (scaled n m (xy_y e))) w.
Proof.
  intros i k anch n m w e E. cbn [exec_step]. unfold extent_at, on_child, on_doc in *. destruct (nth_error w 0) as [x|]; [|discriminate].
  destruct (get_para (d_items x) (ABody i)) as [p|]; [|discriminate]. destruct (nth_error (para_children p) k) as [[r|id r|q]|]; try discriminate.
  destruct (runR_children r) as [|c l]; [discriminate|]. unfold scale_child. destruct c as [| | |[y|] [z|]]; try discriminate; destruct anch; try discriminate; rewrite E; reflexivity.
Qed.

(** ** the stages *)
Variables (t : tmpl) (p1 p2 p3 : string).
Variables (a1 b1 c1 d1 a2 b2 c2 d2 a3 b3 c3 d3 a4 b4 : i64).
Definition seg0 : list step := ([Do ONew; Do (OTemplate 0 t); Do (OPage 0 false)] ++ centered 1 "distribute")%list.
Definition seg3 : list step := (Behind 1 0 :: demo_styles ++ demo_text ++ centered 5 "center")%list.
Definition seg6 : list step := [Do (OPara 0 (ABody 5) OTab); Do (OPara 0 (ABody 5) (ORun 1 RAddTab))].
Definition seg9 : list step := ([Do (OAddPara 0); Do (OPara 0 (ABody 6) OBreak)] ++ centered 7 "center" ++ styled 7 0 "一行1个 横向 inline" [RSize "44"] ++ [Do (OAddPara 0)])%list.
Definition seg11 : list step := (demo_table ++ demo_twips ++ demo_shapes)%list.
Local Notation R0 := (run_steps rd seg0 []).
Local Notation R1 := (bind R0 (put_pic 1 true p1 "jpeg" a1 b1)).
Local Notation R2 := (bind R1 (on_child 1 0 (child_size true c1 d1))).
Local Notation R3 := (bind R2 (run_steps rd seg3)).
Local Notation R4 := (bind R3 (put_pic 5 false p1 "jpeg" a2 b2)).
Local Notation R5 := (bind R4 (on_child 5 0 (child_size false c2 d2))).
Local Notation R6 := (bind R5 (run_steps rd seg6)).
Local Notation R7 := (bind R6 (put_pic 5 false p2 "webp" a3 b3)).
Local Notation R8 := (bind R7 (on_child 5 2 (child_size false c3 d3))).
Local Notation R9 := (bind R8 (run_steps rd seg9)).
Local Notation R10 := (bind R9 (put_pic 8 false p3 "png" a4 b4)).
Local Notation R11 := (bind R10 (run_steps rd seg11)).
Definition got (r : res world) : docx := match r with Ok (d :: _) => d | _ => new_docx end.
Definition made_of : docx := got R11.
Lemma E1 : ext_in R1 1 0 true = Some (mk_xy a1 b1). Proof. vm_compute. reflexivity. Qed.
Lemma E4 : ext_in R4 5 0 false = Some (mk_xy a2 b2). Proof. vm_compute. reflexivity. Qed.
Lemma E7 : ext_in R7 5 2 false = Some (mk_xy a3 b3). Proof. vm_compute. reflexivity. Qed.
Lemma built : R11 = Ok [made_of]. Proof. vm_compute. reflexivity. Qed.
End Build.

Section Chain.
Context `{GoLib}.
Variable rd : string -> res string.
Lemma bind_app : forall (r : res world) a l, bind r (run_steps rd (a ++ l)%list) = bind (bind r (run_steps rd a)) (run_steps rd l).
Proof. intros [w| |] a l; cbn [bind]; [apply steps_app|reflexivity|reflexivity]. Qed.
Lemma bind_step : forall (r : res world) s f l, (forall w, r = Ok w -> exec_step rd s w = f w) -> bind r (run_steps rd (s :: l)) = bind (bind r f) (run_steps rd l).
Proof. intros [w| |] s f l K; cbn [bind run_steps]; [now rewrite (K w)|reflexivity|reflexivity]. Qed.
Lemma chain : forall g0 g3 g6 g9 g11 p1 p2 p3 a1 b1 a2 b2 a3 b3 s1w s1h s2w s2h s3w s3h r0 r1 r2 r3 r4 r5 r6 r7 r8 r9 r10 r11,
  rd JPG = Ok p1 -> rd WEBP = Ok p2 -> rd PNG = Ok p3 -> lib_imgsize p1 = Some (s1w, s1h, "jpeg") -> lib_imgsize p2 = Some (s2w, s2h, "webp") -> lib_imgsize p3 = Some (s3w, s3h, "png") ->
  pic_size s1w s1h = Ok (a1, b1) -> pic_size s2w s2h = Ok (a2, b2) -> pic_size s3w s3h = Ok (a3, b3) ->
  r0 = run_steps rd g0 [] -> r1 = bind r0 (put_pic 1 true p1 "jpeg" a1 b1) -> r2 = bind r1 (on_child 1 0 (child_size true (scaled 1 4 a1) (scaled 1 4 b1))) ->
  r3 = bind r2 (run_steps rd g3) -> r4 = bind r3 (put_pic 5 false p1 "jpeg" a1 b1) -> r5 = bind r4 (on_child 5 0 (child_size false (scaled 4 5 a1) (scaled 4 5 b1))) ->
  r6 = bind r5 (run_steps rd g6) -> r7 = bind r6 (put_pic 5 false p2 "webp" a2 b2) -> r8 = bind r7 (on_child 5 2 (child_size false (scaled 4 5 a2) (scaled 4 5 b2))) ->
  r9 = bind r8 (run_steps rd g9) -> r10 = bind r9 (put_pic 8 false p3 "png" a3 b3) -> r11 = bind r10 (run_steps rd g11) ->
  ext_in r1 1 0 true = Some (mk_xy a1 b1) ->
  ext_in r4 5 0 false = Some (mk_xy a1 b1) ->
  ext_in r7 5 2 false = Some (mk_xy a2 b2) ->
  run_steps rd (g0 ++ Pic 1 true JPG :: Scale 1 0 true 1 4 :: g3 ++ Pic 5 false JPG :: Scale 5 0 false 4 5 :: g6 ++ Pic 5 false WEBP :: Scale 5 2 false 4 5 :: g9 ++ Pic 8 false PNG :: g11)%list [] = r11.
Proof.
  intros g0 g3 g6 g9 g11 p1 p2 p3 a1 b1 a2 b2 a3 b3 s1w s1h s2w s2h s3w s3h r0 r1 r2 r3 r4 r5 r6 r7 r8 r9 r10 r11 D1 D2 D3 I1 I2 I3 S1 S2 S3 Q0 Q1 Q2 Q3 Q4 Q5 Q6 Q7 Q8 Q9 Q10 Q11 X1 X4 X7.
  assert (P : forall i anch f data sw sh fmt ew eh (r : res world), rd f = Ok data -> lib_imgsize data = Some (sw, sh, fmt) -> pic_size sw sh = Ok (ew, eh) ->
    forall w, r = Ok w -> exec_step rd (Pic i anch f) w = put_pic i anch data fmt ew eh w) by (intros; now apply (pic_step rd i anch f data sw sh fmt ew eh)).
  assert (Sc : forall i k anch n m e (r : res world), ext_in r i k anch = Some e ->
    forall w, r = Ok w -> exec_step rd (Scale i k anch n m) w = on_child i k (child_size anch (scaled n m (xy_x e)) (scaled n m (xy_y e))) w) by (intros i k anch n m e r X w ->; now apply scale_step).
  rewrite steps_app, <- Q0. rewrite (bind_step r0 _ _ _ (P 1 true JPG _ _ _ _ _ _ r0 D1 I1 S1)), <- Q1. rewrite (bind_step r1 _ _ _ (Sc _ _ _ 1 4 _ r1 X1)%Z). cbn [xy_x xy_y]. rewrite <- Q2.
  rewrite bind_app, <- Q3. rewrite (bind_step r3 _ _ _ (P 5 false JPG _ _ _ _ _ _ r3 D1 I1 S1)), <- Q4. rewrite (bind_step r4 _ _ _ (Sc _ _ _ 4 5 _ r4 X4)%Z). cbn [xy_x xy_y]. rewrite <- Q5.
  rewrite bind_app, <- Q6. rewrite (bind_step r6 _ _ _ (P 5 false WEBP _ _ _ _ _ _ r6 D2 I2 S2)), <- Q7. rewrite (bind_step r7 _ _ _ (Sc _ _ _ 4 5 _ r7 X7)%Z). cbn [xy_x xy_y]. rewrite <- Q8.
  rewrite bind_app, <- Q9. rewrite (bind_step r9 _ _ _ (P 8 false PNG _ _ _ _ _ _ r9 D3 I3 S3)), <- Q10. now rewrite <- Q11.
Qed.

Lemma chain2 : forall g0 g3 g6 g9 g11 p1 p2 p3 a1 b1 a2 b2 a3 b3 s1w s1h s2w s2h s3w s3h,
  rd JPG = Ok p1 -> rd WEBP = Ok p2 -> rd PNG = Ok p3 -> lib_imgsize p1 = Some (s1w, s1h, "jpeg") -> lib_imgsize p2 = Some (s2w, s2h, "webp") -> lib_imgsize p3 = Some (s3w, s3h, "png") ->
  pic_size s1w s1h = Ok (a1, b1) -> pic_size s2w s2h = Ok (a2, b2) -> pic_size s3w s3h = Ok (a3, b3) ->
  ext_in (bind (run_steps rd g0 []) (put_pic 1 true p1 "jpeg" a1 b1)) 1 0 true = Some (mk_xy a1 b1) ->
  ext_in (bind (bind (bind (bind (run_steps rd g0 []) (put_pic 1 true p1 "jpeg" a1 b1)) (on_child 1 0 (child_size true (scaled 1 4 a1) (scaled 1 4 b1)))) (run_steps rd g3)) (put_pic 5 false p1 "jpeg" a1 b1)) 5 0 false = Some (mk_xy a1 b1) ->
  ext_in (bind (bind (bind (bind (bind (bind (bind (run_steps rd g0 []) (put_pic 1 true p1 "jpeg" a1 b1)) (on_child 1 0 (child_size true (scaled 1 4 a1) (scaled 1 4 b1)))) (run_steps rd g3)) (put_pic 5 false p1 "jpeg" a1 b1)) (on_child 5 0 (child_size false (scaled 4 5 a1) (scaled 4 5 b1)))) (run_steps rd g6)) (put_pic 5 false p2 "webp" a2 b2)) 5 2 false = Some (mk_xy a2 b2) ->
  run_steps rd (g0 ++ Pic 1 true JPG :: Scale 1 0 true 1 4 :: g3 ++ Pic 5 false JPG :: Scale 5 0 false 4 5 :: g6 ++ Pic 5 false WEBP :: Scale 5 2 false 4 5 :: g9 ++ Pic 8 false PNG :: g11)%list [] = bind (bind (bind (bind (bind (bind (bind (bind (bind (bind (bind (run_steps rd g0 []) (put_pic 1 true p1 "jpeg" a1 b1)) (on_child 1 0 (child_size true (scaled 1 4 a1) (scaled 1 4 b1)))) (run_steps rd g3)) (put_pic 5 false p1 "jpeg" a1 b1)) (on_child 5 0 (child_size false (scaled 4 5 a1) (scaled 4 5 b1)))) (run_steps rd g6)) (put_pic 5 false p2 "webp" a2 b2)) (on_child 5 2 (child_size false (scaled 4 5 a2) (scaled 4 5 b2)))) (run_steps rd g9)) (put_pic 8 false p3 "png" a3 b3)) (run_steps rd g11).
Proof. intros. eapply (chain g0 g3 g6 g9 g11 p1 p2 p3 a1 b1 a2 b2 a3 b3 s1w s1h s2w s2h s3w s3h); try eassumption; reflexivity. Qed.

Local Opaque run_steps put_pic on_child bind extent_at ext_in.
(** the document for the three pictures *)
Definition made_doc (t : tmpl) (p1 p2 p3 : string) (a1 b1 a2 b2 a3 b3 : i64) : docx :=
  made_of rd t p1 p2 p3 a1 b1 (scaled 1 4 a1) (scaled 1 4 b1) a1 b1 (scaled 4 5 a1) (scaled 4 5 b1) a2 b2 (scaled 4 5 a2) (scaled 4 5 b2) a3 b3.
Lemma list_of : forall x, demo_steps x = (seg0 (default_theme x) ++ Pic 1 true JPG :: Scale 1 0 true 1 4 :: seg3 ++ Pic 5 false JPG :: Scale 5 0 false 4 5 :: seg6 ++ Pic 5 false WEBP :: Scale 5 2 false 4 5 :: seg9 ++ Pic 8 false PNG :: seg11)%list.
Proof. reflexivity. Qed.
Lemma steps_done : forall x p1 p2 p3 a1 b1 a2 b2 a3 b3 s1w s1h s2w s2h s3w s3h,
  rd JPG = Ok p1 -> rd WEBP = Ok p2 -> rd PNG = Ok p3 -> lib_imgsize p1 = Some (s1w, s1h, "jpeg") -> lib_imgsize p2 = Some (s2w, s2h, "webp") -> lib_imgsize p3 = Some (s3w, s3h, "png") ->
  pic_size s1w s1h = Ok (a1, b1) -> pic_size s2w s2h = Ok (a2, b2) -> pic_size s3w s3h = Ok (a3, b3) ->
  run_steps rd (demo_steps x) [] = Ok [made_doc (default_theme x) p1 p2 p3 a1 b1 a2 b2 a3 b3].
Proof.
  intros x p1 p2 p3 a1 b1 a2 b2 a3 b3 s1w s1h s2w s2h s3w s3h D1 D2 D3 I1 I2 I3 S1 S2 S3. rewrite list_of. unfold made_doc. rewrite <- built.
  generalize (default_theme x). intros T. apply (chain2 (seg0 T) seg3 seg6 seg9 seg11 p1 p2 p3 a1 b1 a2 b2 a3 b3 s1w s1h s2w s2h s3w s3h D1 D2 D3 I1 I2 I3 S1 S2 S3).
  - exact (@E1 _ rd T p1 a1 b1).
  - exact (@E4 _ rd T p1 a1 b1 (scaled 1 4 a1) (scaled 1 4 b1) a1 b1).
  - exact (@E7 _ rd T p1 p2 a1 b1 (scaled 1 4 a1) (scaled 1 4 b1) a1 b1 (scaled 4 5 a1) (scaled 4 5 b1) a2 b2).
Qed.
End Chain.
