(** The demo document of cmd/main: the look of it. *)
From Coq Require Import String Ascii List Bool Arith NArith ZArith Lia Permutation.
From Verif Require Import GoStr Num Lib Types Docx Api Keep Copy Text Pack Theme History SpecApi SpecEdit SpecPack SpecCmd SpecSize SpecDemo Cmd Demo SizeFacts CmdFacts CmdFacts3 DemoFacts DemoFacts2 DemoFacts3.
Import ListNotations.
Local Open Scope list_scope.
Local Open Scope string_scope.

Section Looks.
Context `{GoLib}.
Variable rd : string -> res string.
Variables (t : tmpl) (p1 p2 p3 : string).
Variables (a1 b1 c1 d1 a2 b2 c2 d2 a3 b3 c3 d3 a4 b4 : i64).
Local Notation M := (made_of rd t p1 p2 p3 a1 b1 c1 d1 a2 b2 c2 d2 a3 b3 c3 d3 a4 b4).
Lemma made_kinds : map kind_of (d_items M) = [KSect; KPara; KPara; KPara; KPara; KPara; KPara; KPara; KPara; KPara; KTable; KPara; KTable; KPara].
Proof. vm_compute. reflexivity. Qed.
Lemma made_looks : looks (d_items M) = demo_looks.
Proof. vm_compute. reflexivity. Qed.
Lemma made_tables : tables (d_items M) = demo_tables.
Proof. vm_compute. reflexivity. Qed.
Lemma made_outlines : flat_map outline (drawings (d_items M)) = demo_outlines.
Proof. vm_compute. reflexivity. Qed.
Lemma made_outer : map outer_size (drawings (d_items M)) =
  [Some (iv c1, iv d1); Some (iv c2, iv d2); Some (iv c3, iv d3); Some (iv a4, iv b4); Some (808355, 238760); Some (808355, 238760)]%Z.
Proof. vm_compute. reflexivity. Qed.
Lemma made_inner : map inner_size (drawings (d_items M)) = [Some (iv c1, iv d1); Some (iv c2, iv d2); Some (iv c3, iv d3); Some (iv a4, iv b4); None; None].
Proof. vm_compute. reflexivity. Qed.
Lemma made_placed : map placed (firstn 1 (drawings (d_items M))) = [Some (1, iv c1, Some 50000)]%Z.
Proof. vm_compute. reflexivity. Qed.
End Looks.

Lemma size_some : forall w h, iv w <> 0%Z -> exists a b, pic_size w h = Ok (a, b).
Proof.
  intros w h W. unfold pic_size. destruct (i64_eqb w i0) eqn:E; [unfold i64_eqb in E; apply Z.eqb_eq in E; contradiction|]. destruct (wide w h); eauto.
Qed.
Lemma size_need : forall w h a b, pic_size w h = Ok (a, b) -> iv w <> 0%Z.
Proof. intros w h a b E Z. unfold pic_size in E. unfold i64_eqb in E. rewrite Z in E. discriminate. Qed.
Lemma scaled_is : forall n m v, (0 < n < 100)%Z -> (0 < m < 100)%Z -> (0 <= iv v < 2 ^ 56)%Z -> iv (scaled n m v) = (iv v * n / m)%Z.
Proof.
  intros n m v N M V. unfold scaled, iquot, imul. rewrite (small_i64 n) by lia. rewrite (small_i64 m) by lia. rewrite (small_i64 (iv v * n)) by nia. rewrite Z.quot_div_nonneg by nia.
  apply small_i64. split; [apply Z.div_pos; nia|]. apply Z.div_lt_upper_bound; nia.
Qed.
Lemma fitted_bound : forall w h, (0 < w < 2 ^ 32)%Z -> (0 <= h < 2 ^ 32)%Z -> (0 <= fst (fitted w h) < 2 ^ 56)%Z /\ (0 <= snd (fitted w h) < 2 ^ 56)%Z.
Proof.
  intros w h W Hh. assert (Q : (0 <= 5274310 * h / w < 2 ^ 56)%Z) by (split; [apply Z.div_pos; lia|apply Z.div_lt_upper_bound; nia]). unfold fitted.
  destruct (6 * h <? 5 * w)%Z; cbn [fst snd]; (split; [lia|]); [exact Q|]. split; [apply Z.div_pos; lia|]. apply Z.div_lt_upper_bound; lia.
Qed.

Section Final.
Context `{GoLib}.
Variable x : assets.
Variable sys : system.
Variable fl : flags.
Variable rd : string -> res string.
Variable entries : docx -> archive.
Hypothesis Wr : forall d, (exists ar, writes d (Ok ar)) -> writes d (Ok (entries d)).

Lemma prints : forall p1 p2 p3 w1 h1 w2 h2 w3 h3, picture_in rd "testdata/fumiama.JPG" "jpeg" p1 w1 h1 -> picture_in rd "testdata/fumiama2x.webp" "webp" p2 w2 h2 ->
  picture_in rd "testdata/fumiamayoko.png" "png" p3 w3 h3 -> forall es u, demo x sys fl rd entries = (es, Some u) ->
  lines es = ([("Preparing new document to write at " ++ fl_loc fl)%string; ("Document writen. " ++ newline ++ "Now trying to read it")%string; "Plain text:"] ++
              demo_texts (lib_md5 p1) (lib_md5 p2) (lib_md5 p3) (negb (fl_clean fl)) ++ ["End of main"])%list.
Proof.
  intros p1 p2 p3 w1 h1 w2 h2 w3 h3 (D1 & I1 & Z1) (D2 & I2 & Z2) (D3 & I3 & Z3) es u E. destruct (demo_needs _ _ _ _ _ _ _ E) as (_ & _ & _ & Cr & Fi).
  destruct (size_some w1 h1 Z1) as (a1 & b1 & S1). destruct (size_some w2 h2 Z2) as (a2 & b2 & S2). destruct (size_some w3 h3 Z3) as (a3 & b3 & S3).
  exact (demo_lines rd x sys fl entries p1 p2 p3 a1 b1 a2 b2 a3 b3 w1 h1 w2 h2 w3 h3 D1 D2 D3 I1 I2 I3 S1 S2 S3 Wr Cr Fi es u E).
Qed.
Lemma sized : forall w h, (0 < iv w < 2 ^ 32)%Z -> (0 <= iv h < 2 ^ 32)%Z -> forall a b, pic_size w h = Ok (a, b) ->
  (iv a, iv b) = fitted (iv w) (iv h) /\ (iv (scaled 1 4 a), iv (scaled 1 4 b)) = quarter (fitted (iv w) (iv h)) /\ (iv (scaled 4 5 a), iv (scaled 4 5 b)) = four_fifths (fitted (iv w) (iv h)).
Proof.
  intros w h W Hh a b S. destruct (pic_size_fitted w h) as (a' & b' & S' & F); [lia|lia|]. rewrite S in S'. injection S' as <- <-. split; [exact F|].
  destruct (fitted_bound (iv w) (iv h) W Hh) as (B1 & B2). unfold quarter, four_fifths. rewrite <- F in *. cbn [fst snd] in *.
  rewrite !scaled_is by (assumption || lia). rewrite !Z.mul_1_r. auto.
Qed.
Lemma makes : forall p1 p2 p3 w1 h1 w2 h2 w3 h3, picture_in rd "testdata/fumiama.JPG" "jpeg" p1 w1 h1 -> picture_in rd "testdata/fumiama2x.webp" "webp" p2 w2 h2 ->
  picture_in rd "testdata/fumiamayoko.png" "png" p3 w3 h3 -> sys_create sys (fl_loc fl) = true -> sys_write sys (fl_loc fl) = true ->
  fl_unm fl = false -> fl_split fl = None -> (fl_dup fl <= 1)%N ->
  exists es d, demo x sys fl rd entries = (es, Some tt) /\ made es = [fl_loc fl] /\ written es = [(fl_loc fl, d)] /\
    d_tmpl d = default_theme x /\ media (d_reg d) = [("image1.jpeg", p1); ("image2.jpeg", p1); ("image3.webp", p2); ("image4.png", p3)] /\
    map kind_of (d_items d) = [KSect; KPara; KPara; KPara; KPara; KPara; KPara; KPara; KPara; KPara; KTable; KPara; KTable; KPara] /\
    looks (d_items d) = demo_looks /\ tables (d_items d) = demo_tables /\ flat_map outline (drawings (d_items d)) = demo_outlines /\
    ((0 < iv w1 < 2 ^ 32)%Z -> (0 <= iv h1 < 2 ^ 32)%Z -> (0 < iv w2 < 2 ^ 32)%Z -> (0 <= iv h2 < 2 ^ 32)%Z -> (0 < iv w3 < 2 ^ 32)%Z -> (0 <= iv h3 < 2 ^ 32)%Z ->
     let s1 := quarter (fitted (iv w1) (iv h1)) in let s2 := four_fifths (fitted (iv w1) (iv h1)) in let s3 := four_fifths (fitted (iv w2) (iv h2)) in let s4 := fitted (iv w3) (iv h3) in
     map outer_size (drawings (d_items d)) = [Some s1; Some s2; Some s3; Some s4; Some (808355, 238760); Some (808355, 238760)]%Z /\
     map inner_size (drawings (d_items d)) = [Some s1; Some s2; Some s3; Some s4; None; None] /\
     map placed (firstn 1 (drawings (d_items d))) = [Some (1, fst s1, Some 50000)]%Z).
Proof.
  intros p1 p2 p3 w1 h1 w2 h2 w3 h3 (D1 & I1 & Z1) (D2 & I2 & Z2) (D3 & I3 & Z3) Cr Fi Um Sp Du.
  destruct (size_some w1 h1 Z1) as (a1 & b1 & S1). destruct (size_some w2 h2 Z2) as (a2 & b2 & S2). destruct (size_some w3 h3 Z3) as (a3 & b3 & S3).
  destruct (demo_ends rd x sys fl entries p1 p2 p3 a1 b1 a2 b2 a3 b3 w1 h1 w2 h2 w3 h3 D1 D2 D3 I1 I2 I3 S1 S2 S3 Wr Cr Fi Um Sp Du) as (es & E & Md & Wn).
  exists es. eexists. split; [exact E|]. split; [exact Md|]. split; [exact Wn|]. clear E Md Wn. unfold made_doc. split; [apply made_tmpl|]. split; [apply made_midx|].
  split; [apply made_kinds|]. split; [apply made_looks|]. split; [apply made_tables|]. split; [apply made_outlines|]. intros W1 H1 W2 H2 W3 H3. cbv zeta.
  destruct (sized w1 h1 W1 H1 _ _ S1) as (A1 & A2 & A3). destruct (sized w2 h2 W2 H2 _ _ S2) as (B1 & B2 & B3). destruct (sized w3 h3 W3 H3 _ _ S3) as (C1 & _ & _).
  rewrite made_outer, made_inner, made_placed, <- A2, <- A3, <- B3, <- C1. auto.
Qed.
Lemma undrawn : forall f, In f ["testdata/fumiama.JPG"; "testdata/fumiama2x.webp"; "testdata/fumiamayoko.png"] -> (forall fmt data w h, ~ picture_in rd f fmt data w h) ->
  demo x sys fl rd entries = ([EPrint ("Preparing new document to write at " ++ fl_loc fl)], None).
Proof.
  intros f I N. apply demo_undrawn. assert (K : ~ drawable rd f) by (intros (data & w & h & fmt & a & b & R & Q & S); apply (N fmt data w h); split; [exact R|]; split; [exact Q|now apply size_need in S]).
  intros (A & B & C). destruct I as [<-|[<-|[<-|[]]]]; now apply K.
Qed.
Lemma finishes : (forall data w h fmt, rd "testdata/fumiama.JPG" = Ok data -> lib_imgsize data = Some (w, h, fmt) -> fmt = "jpeg") ->
  (forall data w h fmt, rd "testdata/fumiama2x.webp" = Ok data -> lib_imgsize data = Some (w, h, fmt) -> fmt = "webp") ->
  (forall data w h fmt, rd "testdata/fumiamayoko.png" = Ok data -> lib_imgsize data = Some (w, h, fmt) -> fmt = "png") ->
  fl_unm fl = false -> fl_split fl = None -> (fl_dup fl <= 1)%N ->
  (snd (demo x sys fl rd entries) = Some tt <->
   (exists data w h, picture_in rd "testdata/fumiama.JPG" "jpeg" data w h) /\ (exists data w h, picture_in rd "testdata/fumiama2x.webp" "webp" data w h) /\
   (exists data w h, picture_in rd "testdata/fumiamayoko.png" "png" data w h) /\ sys_create sys (fl_loc fl) = true /\ sys_write sys (fl_loc fl) = true).
Proof.
  intros F1 F2 F3 Um Sp Du. split.
  - destruct (demo x sys fl rd entries) as (es, r) eqn:E. cbn. intros ->. destruct (demo_needs _ _ _ _ _ _ _ E) as ((p1 & w1 & h1 & g1 & a1 & b1 & D1 & I1 & S1) & (p2 & w2 & h2 & g2 & a2 & b2 & D2 & I2 & S2) & (p3 & w3 & h3 & g3 & a3 & b3 & D3 & I3 & S3) & Cr & Fi).
    rewrite (F1 _ _ _ _ D1 I1) in I1. rewrite (F2 _ _ _ _ D2 I2) in I2. rewrite (F3 _ _ _ _ D3 I3) in I3. apply size_need in S1, S2, S3. unfold picture_in. eauto 20.
  - intros ((p1 & w1 & h1 & P1) & (p2 & w2 & h2 & P2) & (p3 & w3 & h3 & P3) & Cr & Fi). destruct (makes _ _ _ _ _ _ _ _ _ P1 P2 P3 Cr Fi Um Sp Du) as (es & d & E & _). now rewrite E.
Qed.
End Final.
