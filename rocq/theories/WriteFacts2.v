(** The calls follow their description. *)
From Coq Require Import String Ascii List Bool Arith NArith ZArith Lia Permutation.
From Verif Require Import GoStr Num Lib Types XmlTok Marshal Lex Docx Api Keep History Rels Pack SpecLex SpecClean LexFacts CleanFacts2 IdFacts SpecApi SpecPack PackFacts PackFacts2 RegFacts NumFacts SpecSize SizeFacts SpecWrite WriteFacts.
Import ListNotations.
Local Open Scope list_scope.
Local Open Scope string_scope.

(** ** text *)
Definition line_of (s : string) : list rchild := line_children true (split TAB s).
Lemma line_false : forall k l, line_children false (k :: l) = RTab tab0 :: line_children true (k :: l). Proof. reflexivity. Qed.
Lemma text_false : forall s l, text_children false (s :: l) = RBr "" :: text_children true (s :: l). Proof. reflexivity. Qed.
Definition no_text (l : list rchild) : Prop := match l with RText _ :: _ => False | _ => True end.
Lemma line_no_text : forall l r, no_text r -> no_text (line_children false l ++ r).
Proof. intros [|k l] r N; [exact N|exact I]. Qed.
Lemma text_no_text : forall l, no_text (text_children false l).
Proof. intros [|s l]; exact I. Qed.
Lemma pieces_text : forall t, text_children true (split NL t) = map is_piece (pieces t).
Proof.
  induction t as [|a t IH]; [reflexivity|]. cbn [split pieces]. change "010"%char with NL. destruct (Ascii.eqb a NL) eqn:EN.
  - destruct (split NL t) as [|s l] eqn:S; [now apply split_nonempty in S|]. cbn [map is_piece]. rewrite <- IH. reflexivity.
  - destruct (split NL t) as [|s l] eqn:S; [now apply split_nonempty in S|]. cbn [text_children List.app] in IH |- *. cbn [split].
    change "009"%char with TAB. destruct (Ascii.eqb a TAB) eqn:ET.
    + destruct (split TAB s) as [|k m] eqn:ST; [now apply split_nonempty in ST|]. cbn [map is_piece]. rewrite <- IH. reflexivity.
    + destruct (split TAB s) as [|k m] eqn:ST; [now apply split_nonempty in ST|]. cbn [line_children List.app] in IH |- *. cbn [String.eqb].
      destruct (String.eqb_spec k "") as [->|NK].
      * cbn [List.app] in IH. pose proof (line_no_text m _ (text_no_text l)) as NT. rewrite IH in NT. cbn [List.app]. rewrite IH.
        destruct (pieces t) as [|[x| | | |an nu ti ew eh fg] ps]; try destruct NT; reflexivity.
      * cbn [List.app] in IH. destruct (pieces t) as [|[x| | | |an nu ti ew eh fg] ps]; cbn [map is_piece] in IH; try discriminate IH; [|unfold is_drawn in IH; destruct an; discriminate IH]. injection IH as E1 E2. subst x. cbn [List.app map is_piece]. now rewrite E2.
Qed.
Lemma add_text_pieces : forall t p, add_text t p = add_child (PRun (api_run (map is_piece (pieces t)))) p.
Proof.
  intros t p. unfold add_text. destruct (String.eqb_spec t (String TAB "")) as [->|N]; [reflexivity|]. now rewrite pieces_text.
Qed.

(** ** lists *)
Lemma change_map : forall A B (h : A -> B) f n l l1, change n f l = Some l1 ->
  exists x x', nth_error (map h l) n = Some (h x) /\ f x = Some x' /\ set_nth (map h l) n (h x') = map h l1.
Proof.
  intros A B h f. induction n as [|n IH]; intros [|x l] l1 E; try discriminate E; cbn [change] in E.
  - destruct (f x) as [y|] eqn:F; [|discriminate]. injection E as <-. exists x, y. auto.
  - destruct (change n f l) as [l2|] eqn:E2; [|discriminate]. injection E as <-. destruct (IH _ _ E2) as (y & y' & N & F & S). exists y, y'. split; [exact N|]. split; [exact F|]. cbn [map set_nth]. now rewrite S.
Qed.
Lemma change_rel : forall A B (R : A -> B -> Prop) f n l m l1, Forall2 R l m -> change n f l = Some l1 ->
  exists x y x', nth_error m n = Some y /\ R x y /\ f x = Some x' /\ forall y', R x' y' -> Forall2 R l1 (set_nth m n y').
Proof.
  intros A B R f. induction n as [|n IH]; intros l m l1 F E; destruct F as [|x y l m Rx F]; try discriminate E; cbn [change] in E.
  - destruct (f x) as [x'|] eqn:G; [|discriminate]. injection E as <-. exists x, y, x'. split; [reflexivity|]. split; [exact Rx|]. split; [exact G|]. intros y' Ry. constructor; assumption.
  - destruct (change n f l) as [l2|] eqn:E2; [|discriminate]. injection E as <-. destruct (IH _ _ _ F E2) as (a & b & a' & N & Ra & G & S). exists a, b, a'. split; [exact N|]. split; [exact Ra|]. split; [exact G|].
    intros y' Ry. cbn [set_nth]. constructor; auto.
Qed.

(** ** tables *)
Definition grid_item (g : grid) (l : list (option i64)) : item := ITable (mk_table (Some (is_tblpr g)) (Some l) (map is_line (g_lines g))).
Lemma change_grid_rel : forall i f bs items bs', Forall2 is_block bs items -> change_grid i f bs = Some bs' ->
  exists g g' l, nth_error items i = Some (grid_item g l) /\ f g = Some g' /\ somes l = g_columns g /\
    forall x', is_block (BGrid g') x' -> Forall2 is_block bs' (set_nth items i x').
Proof.
  intros i f bs items bs' F E. unfold change_grid in E. destruct (change_rel _ _ _ _ _ _ _ _ F E) as (b & x & b' & N & R & G & S).
  destruct b as [s|g|pw ph]; try discriminate G. destruct (f g) as [g'|] eqn:FG; [|discriminate]. injection G as <-. cbn [is_block] in R. destruct R as (l & -> & SL).
  exists g, g', l. split; [exact N|]. split; [exact FG|]. split; [exact SL|]. exact S.
Qed.
Lemma change_line_rel : forall i r f bs items bs', Forall2 is_block bs items -> change_line i r f bs = Some bs' ->
  exists g l x x', nth_error items i = Some (grid_item g l) /\ nth_error (map is_line (g_lines g)) r = Some (is_line x) /\ f x = Some x' /\
    Forall2 is_block bs' (set_nth items i (ITable (mk_table (Some (is_tblpr g)) (Some l) (set_nth (map is_line (g_lines g)) r (is_line x'))))).
Proof.
  intros i r f bs items bs' F E. unfold change_line in E. destruct (change_grid_rel _ _ _ _ _ F E) as (g & g' & l & N & G & SL & S).
  destruct (change r f (g_lines g)) as [ls|] eqn:CR; [|discriminate]. injection G as <-. destruct (change_map _ _ is_line _ _ _ _ CR) as (x & x' & NX & FX & SX).
  exists g, l, x, x'. split; [exact N|]. split; [exact NX|]. split; [exact FX|]. apply S. exists l. split; [|exact SL]. now rewrite SX.
Qed.
Lemma change_box_rel : forall i r k f bs items bs', Forall2 is_block bs items -> change_box i r k f bs = Some bs' ->
  exists x x', get_cell items i r k = Some (is_box x) /\ f x = Some x' /\ Forall2 is_block bs' (put_cell items i r k (is_box x')).
Proof.
  intros i r k f bs items bs' F E. unfold change_box in E. destruct (change_line_rel _ _ _ _ _ _ F E) as (g & l & y & y' & N & NY & G & S).
  destruct (change k f (l_boxes y)) as [ls|] eqn:CR; [|discriminate]. injection G as <-. destruct (change_map _ _ is_box _ _ _ _ CR) as (x & x' & NX & FX & SX).
  exists x, x'. unfold get_cell, put_cell. rewrite N. unfold grid_item. cbn [table_rows]. rewrite NY. split; [exact NX|]. split; [exact FX|].
  unfold set_table_rows. cbn [table_props table_grid table_rows]. unfold set_row_cells. unfold is_line in S at 2. cbn [l_height l_jc l_boxes] in S. rewrite <- SX in S. exact S.
Qed.
Lemma change_at_rel : forall a f bs items bs', Forall2 is_block bs items -> change_at a f bs = Some bs' ->
  exists s s', get_para items a = Some (is_sheet s) /\ f s = Some s' /\ Forall2 is_block bs' (put_para items a (is_sheet s')).
Proof.
  intros [i|i r k q] f bs items bs' F E; cbn [change_at] in E.
  - destruct (change_rel _ _ _ _ _ _ _ _ F E) as (b & x & b' & N & R & G & S). destruct b as [s|g|pw ph]; try discriminate G. destruct (f s) as [s'|] eqn:FS; [|discriminate]. injection G as <-.
    cbn [is_block] in R. subst x. exists s, s'. cbn [get_para put_para]. rewrite N. split; [reflexivity|]. split; [exact FS|]. apply S. reflexivity.
  - destruct (change_box_rel _ _ _ _ _ _ _ F E) as (x & x' & N & G & S). destruct (change q f (b_sheets x)) as [ls|] eqn:CR; [|discriminate]. injection G as <-.
    destruct (change_map _ _ is_sheet _ _ _ _ CR) as (s & s' & NS & FS & SS). exists s, s'. cbn [get_para put_para]. rewrite N. cbn [is_box cell_paras]. split; [exact NS|]. split; [exact FS|].
    unfold set_cell_paras. cbn [cell_props cell_file]. unfold is_box in S. cbn [b_width b_type b_shade b_sheets] in S. rewrite <- SS in S. exact S.
Qed.

(** ** keeping and dropping *)
Lemma named_map : forall A B (h : A -> B) ka kb names l, (forall x, kb (h x) = ka x) -> keep_named kb names (map h l) = map h (named ka names l).
Proof.
  intros A B h ka kb names l E. induction l as [|x l IH]; [reflexivity|]. cbn [map keep_named]. unfold named in *. cbn [filter]. rewrite E, IH.
  destruct (in_dec string_dec (ka x) names) as [I|N].
  - assert (existsb (String.eqb (ka x)) names = true) as -> by (apply existsb_exists; exists (ka x); split; [exact I|apply String.eqb_refl]). reflexivity.
  - destruct (existsb (String.eqb (ka x)) names) eqn:X; [|reflexivity]. exfalso. apply existsb_exists in X. destruct X as (y & I & Y). apply String.eqb_eq in Y. subst y. now apply N.
Qed.
Lemma piece_type : forall x, rchild_type (is_piece x) = piece_kind x.
Proof. intros [s| | | |an n t ew eh g]; try reflexivity. cbn [is_piece piece_kind]. unfold is_drawn. now destruct an. Qed.
Lemma kid_type : forall k, pchild_type (is_kid k) = kid_kind k. Proof. now intros [f l|n t f l]. Qed.
Lemma block_type : forall b x, is_block b x -> item_type x = block_kind b.
Proof. intros [s|g|pw ph] x R; cbn [is_block] in R; [now subst|destruct R as (l & -> & _); reflexivity|destruct R as (-> & _); reflexivity]. Qed.
Lemma named_rel : forall names bs items, Forall2 is_block bs items -> Forall2 is_block (named block_kind names bs) (keep_named item_type names items).
Proof.
  intros names bs items F. induction F as [|b x bs items R F IH]; [constructor|]. cbn [keep_named]. unfold named in *. cbn [filter]. rewrite (block_type _ _ R).
  destruct (in_dec string_dec (block_kind b) names) as [I|N].
  - assert (existsb (String.eqb (block_kind b)) names = true) as -> by (apply existsb_exists; exists (block_kind b); split; [exact I|apply String.eqb_refl]). now constructor.
  - destruct (existsb (String.eqb (block_kind b)) names) eqn:X; [|exact IH]. exfalso. apply existsb_exists in X. destruct X as (y & I & Y). apply String.eqb_eq in Y. subst y. now apply N.
Qed.
Lemma filter_map : forall A B (h : A -> B) f g l, (forall x, g (h x) = f x) -> filter g (map h l) = map h (filter f l).
Proof. intros A B h f g l E. induction l as [|x l IH]; [reflexivity|]. cbn [map filter]. rewrite E, IH. now destruct (f x). Qed.
Lemma drop_piece : forall name t x, drop_test name = Some t -> t (is_piece x) = dropped name x.
Proof.
  intros name t x E. unfold drop_test in E.
  repeat match type of E with (if String.eqb ?a ?b then _ else _) = _ => destruct (String.eqb_spec a b) as [->|?] end; try discriminate E; injection E as <-;
  destruct x as [s| | | |an nu ti ew eh g]; try reflexivity; destruct an, g; reflexivity.
Qed.
Lemma drop_unknown : forall name x, drop_test name = None -> dropped name x = false.
Proof.
  intros name [s| | | |an n ti ew eh [k m|bw prst w' h' ln]] E; try reflexivity. unfold dropped. destruct (in_dec string_dec name _) as [I|]; [|reflexivity]. exfalso. cbn [In] in I.
  destruct I as [<-|[<-|[<-|[<-|[]]]]]; discriminate E.
Qed.
Lemma filter_all : forall A (f : A -> bool) l, (forall x, f x = true) -> filter f l = l.
Proof. intros A f l E. induction l as [|x l IH]; [reflexivity|]. cbn [filter]. now rewrite E, IH. Qed.
Lemma is_sheet_children : forall s, para_children (is_sheet s) = map is_kid (s_kids s). Proof. reflexivity. Qed.
Lemma is_sheet_kids : forall l s, set_para_children (map is_kid l) (is_sheet s) = is_sheet (with_kids l s). Proof. reflexivity. Qed.
Lemma drop_sheet_ok : forall name s, para_drop name (is_sheet s) = is_sheet (drop_sheet name s).
Proof.
  intros name s. unfold para_drop, drop_sheet. rewrite <- is_sheet_kids. destruct (drop_test name) as [t|] eqn:E.
  - unfold drop_in_para. rewrite is_sheet_children, !map_map. f_equal. apply map_ext. intros [f l|n ti f l]; [|reflexivity].
    cbn [is_kid drop_in_pchild drop_kid]. unfold drop_in_run, set_runR_children. cbn [runR_space runR_rpr runR_instr runR_children].
    rewrite (filter_map _ _ is_piece (fun x => negb (dropped name x))); [reflexivity|]. intros x. now rewrite (drop_piece _ _ _ E).
  - rewrite map_map. rewrite (map_ext (fun x => is_kid (drop_kid name x)) is_kid); [reflexivity|]. intros [f l|n ti f l]; [|reflexivity]. cbn [drop_kid is_kid]. rewrite filter_all; [reflexivity|]. intros x. now rewrite (drop_unknown _ _ E).
Qed.
Lemma drop_block_ok : forall name b x, is_block b x -> is_block (drop_block name b) (drop_item name x).
Proof.
  intros name [s|g|pw ph] x R; cbn [is_block drop_block] in *.
  - subst x. cbn [drop_item]. now rewrite drop_sheet_ok.
  - destruct R as (l & -> & SL). exists l. split; [|exact SL]. cbn [drop_item]. unfold drop_table, set_table_rows. cbn [table_props table_grid table_rows with_lines g_lines]. do 2 f_equal.
    rewrite !map_map. apply map_ext. intros y. unfold drop_row, is_line, set_row_cells. cbn [row_props row_cells l_height l_jc l_boxes]. f_equal. rewrite !map_map. apply map_ext. intros z.
    unfold drop_cell, is_box, set_cell_paras. cbn [cell_props cell_paras cell_file b_width b_type b_shade b_sheets]. f_equal. rewrite !map_map. apply map_ext. intros s. apply drop_sheet_ok.
  - destruct R as (-> & R). split; [reflexivity|exact R].
Qed.
Lemma drop_blocks_ok : forall name bs items, Forall2 is_block bs items -> Forall2 is_block (map (drop_block name) bs) (drop_drawing_of name items).
Proof. intros name bs items F. unfold drop_drawing_of. induction F; cbn [map]; constructor; [now apply drop_block_ok|assumption]. Qed.

(** ** runs and paragraphs *)
Lemma resize_ok : forall anch ew eh x x', resize anch ew eh x = Some x' -> child_size anch ew eh (is_piece x) = Ok (is_piece x').
Proof.
  intros anch ew eh [s| | | |a n t w0 h0 g] x' E; try discriminate E. cbn [resize] in E. destruct (Bool.eqb a anch) eqn:A; [|discriminate]. apply Bool.eqb_prop in A. subst a. injection E as <-.
  cbn [is_piece]. unfold is_drawn. destruct anch, g as [k n'|bw prst w' h' ln]; reflexivity.
Qed.
Lemma change_kid_run : forall o k k', change_kid o k = Some k' ->
  match is_kid k, is_kid k' with
  | PRun r, PRun r' => exec_rop o r = Ok r'
  | PLink i r, PLink i' r' => i' = i /\ exec_rop o r = Ok r'
  | _, _ => False
  end.
Proof.
  intros o k k' E.
  destruct (match o with RDrawSize _ _ _ _ => true | _ => false end) eqn:D.
  - destruct o as [ | | | | | | | | | | | | |i anch ew eh]; try discriminate D. destruct k as [f l|n t f l]; cbn [change_kid] in E;
    (destruct (change i (resize anch ew eh) l) as [l'|] eqn:CH; [|discriminate]); injection E as <-; cbn [is_kid]; destruct (change_map _ _ is_piece _ _ _ _ CH) as (x & x' & N & F & S);
    pose proof (resize_ok _ _ _ _ _ F) as R; try (split; [reflexivity|]); unfold exec_rop; cbn [runR_children]; rewrite N, R; cbn [bind]; unfold set_runR_children; cbn [runR_space runR_rpr runR_instr runR_children]; now rewrite S.
  - destruct k as [f l|n t f l]; destruct f as [fo b i hi co si sc sp sh u st]; destruct o; try discriminate D; cbn [change_kid change_format option_map] in E; try discriminate E; injection E as <-; cbn [is_kid];
    unfold is_format; cbn [f_font f_bold f_italic f_highlight f_color f_size f_sizecs f_spacing f_shade f_underline f_strike option_map]; try (split; [reflexivity|]); try reflexivity;
    unfold exec_rop, run_addtab, run_keep, set_runR_children; cbn [runR_space runR_rpr runR_instr runR_children]; first [rewrite map_app; reflexivity|rewrite (named_map _ _ is_piece piece_kind _ _ _ piece_type); reflexivity].
Qed.
Lemma add_kid_ok : forall k s, add_child (is_kid k) (is_sheet s) = is_sheet (with_kids (s_kids s ++ [k])%list s).
Proof. intros k s. unfold add_child. rewrite is_sheet_children. unfold is_sheet, with_kids. cbn [s_kids]. rewrite map_app. reflexivity. Qed.

Definition images (l : list ref) : N := N.of_nat (length (is_media 0 l)).
Record reg_is (p : paper) (g : reg) : Prop := mk_reg_is {
  ri_ns : relns g = XMLNS_REL;
  ri_rels : rels g = (base_rels ++ is_refs 4 0 (p_refs p))%list;
  ri_media : media g = is_media 0 (p_refs p);
  ri_rid : rid g = (3 + N.of_nat (length (p_refs p)))%N;
  ri_img : imgid g = images (p_refs p);
  ri_doc : docid g = N.of_nat (length (p_names p));
  ri_slow : forall x, match mget x (slow g) with Some v => v | None => 0%N end = N.of_nat (count_occ string_dec (p_names p) x)
}.
Definition small (p : paper) : Prop := (N.of_nat (length (p_refs p)) < 2 ^ 63 - 4)%N /\ (N.of_nat (length (p_names p)) < 2 ^ 63 - 4)%N.
Lemma media_len : forall l k j, length (is_media k l) = length (is_media j l).
Proof. induction l as [|[t|f d] l IH]; intros k j; cbn [is_media length]; auto. Qed.
Lemma images_le : forall l, (images l <= N.of_nat (length l))%N.
Proof.
  unfold images. intros l. enough (length (is_media 0 l) <= length l) by lia. generalize 0%N as k. induction l as [|[t|f d] l IH]; intros k; cbn [is_media length]; [lia|specialize (IH k)|specialize (IH (k + 1)%N)]; lia.
Qed.
Lemma refs_snoc : forall l r n k, is_refs n k (l ++ [r])%list = (is_refs n k l ++ is_refs (n + N.of_nat (length l)) (k + images l) [r])%list.
Proof.
  induction l as [|[x|f d] l IH]; intros r n k; cbn [List.app is_refs length].
  - now rewrite !N.add_0_r.
  - rewrite IH. change (images (ToLink x :: l)) with (images l). cbn [List.app]. replace (n + N.of_nat (S (length l)))%N with (n + 1 + N.of_nat (length l))%N by lia. reflexivity.
  - rewrite IH. replace (images (ToImage f d :: l)) with (1 + images l)%N by (unfold images; cbn [is_media length]; rewrite (media_len l (0 + 1)%N 0%N); lia).
    cbn [List.app]. replace (n + N.of_nat (S (length l)))%N with (n + 1 + N.of_nat (length l))%N by lia. now rewrite (N.add_assoc k 1).
Qed.
Lemma media_snoc : forall l r k, is_media k (l ++ [r])%list = (is_media k l ++ is_media (k + images l) [r])%list.
Proof.
  induction l as [|[x|f d] l IH]; intros r k; cbn [List.app is_media].
  - now rewrite N.add_0_r.
  - exact (IH r k).
  - rewrite IH. replace (images (ToImage f d :: l)) with (1 + images l)%N by (unfold images; cbn [is_media length]; rewrite (media_len l (0 + 1)%N 0%N); lia).
    cbn [List.app]. now rewrite (N.add_assoc k 1).
Qed.
Lemma count_snoc : forall l x y, count_occ string_dec (l ++ [y])%list x = count_occ string_dec l x + (if string_dec y x then 1 else 0).
Proof. intros. rewrite count_occ_app. cbn [count_occ]. destruct (string_dec y x); lia. Qed.
Lemma count_le : forall (l : list string) x, count_occ string_dec l x <= length l.
Proof. induction l as [|y l IH]; intros x; cbn [count_occ length]; [lia|]. specialize (IH x). destruct (string_dec y x); lia. Qed.

(** the registries *)
Definition add_names (ns : list string) (p : paper) : paper := mk_paper (p_blocks p) (p_refs p) (p_names p ++ ns)%list.
Definition add_refs (rs : list ref) (p : paper) : paper := mk_paper (p_blocks p) (p_refs p ++ rs)%list (p_names p).
Ltac big := change (2 ^ 63)%N with 9223372036854775808%N in *; change B64 with 18446744073709551616%N in *; change B63 with 9223372036854775808%N in *.
Lemma link_reg : forall p g t, small p -> reg_is p g -> exists g', add_link_relation t g = ("rId" ++ utoa (next_ref p), g') /\ reg_is (add_refs [ToLink t] p) g'.
Proof.
  intros p g t (B & _) [R1 R2 R3 R4 R5 R6 R7]. unfold add_link_relation, add_rel. rewrite R4. big. rewrite uadd1_small, itoa_u_small by (big; lia).
  replace (3 + N.of_nat (length (p_refs p)) + 1)%N with (next_ref p) by (unfold next_ref; lia). eexists. split; [reflexivity|].
  split; cbn [set_rid set_rels relns rels media rid imgid docid slow add_refs p_refs p_names]; auto.
  - rewrite R2, refs_snoc, app_assoc. reflexivity.
  - rewrite media_snoc. cbn [is_media]. now rewrite app_nil_r.
  - rewrite app_length. cbn [length]. unfold next_ref. lia.
  - rewrite R5. unfold images. rewrite media_snoc. cbn [is_media]. now rewrite app_nil_r.
Qed.
Lemma mget_mset : forall A k (v : A) m x, mget x (mset k v m) = if String.eqb x k then Some v else mget x m.
Proof.
  intros A k v m x. reflexivity.
Qed.
Lemma ids_reg : forall p g name, small p -> reg_is p g -> exists g1 g2 id, inc_docid g = (next_number p, g1) /\ increase_id name g1 = (id, g2) /\
  int_of_u id = i64_of (next_of name p) /\ itoa_u id = itoa (next_of name p) /\ reg_is (add_names [name] p) g2.
Proof.
  intros p g name (_ & B) [R1 R2 R3 R4 R5 R6 R7]. pose proof (count_le (p_names p) name) as CL. big.
  unfold inc_docid. rewrite R6, uadd1_small by (big; lia). eexists _, _, _. split; [f_equal; unfold int_of_u, next_number; f_equal; lia|].
  unfold increase_id. cbn [set_docid slow]. rewrite R7, uadd1_small by (big; lia). split; [reflexivity|].
  assert (E : Z.of_N (N.of_nat (count_occ string_dec (p_names p) name) + 1) = next_of name p) by (unfold next_of; lia).
  split; [unfold int_of_u; now rewrite E|]. split; [unfold itoa_u; rewrite int_of_u_small by (big; lia); now rewrite E|].
  split; cbn [set_slow set_docid relns rels media rid imgid docid slow add_names p_refs p_names]; auto.
  - rewrite app_length. cbn [length]. lia.
  - intros x. rewrite mget_mset, count_snoc. destruct (String.eqb_spec x name) as [->|N].
    + destruct (string_dec name name); [|congruence]. lia.
    + destruct (string_dec name x); [congruence|]. rewrite R7. f_equal. lia.
Qed.
Lemma image_reg : forall p g f data, (N.of_nat (length (p_refs p)) < 2 ^ 63 - 4)%N -> reg_is p g -> exists g', add_image f data g = ("rId" ++ utoa (next_ref p), g') /\ reg_is (add_refs [ToImage f data] p) g'.
Proof.
  intros p g f data B [R1 R2 R3 R4 R5 R6 R7]. pose proof (images_le (p_refs p)) as IL. big. unfold add_image, add_image_relation, add_rel. cbn [add_media set_media set_imgid rid]. rewrite R4, R5. rewrite !uadd1_small, !itoa_u_small by (big; lia).
  replace (3 + N.of_nat (length (p_refs p)) + 1)%N with (next_ref p) by (unfold next_ref; lia). eexists. split; [reflexivity|].
  split; cbn [set_rid set_rels set_media add_media set_imgid relns rels media rid imgid docid slow add_refs p_refs p_names fst]; auto.
  - rewrite R2, refs_snoc, app_assoc. reflexivity.
  - rewrite media_snoc, R3. reflexivity.
  - rewrite app_length. cbn [length]. unfold next_ref. lia.
  - unfold images. rewrite media_snoc, app_length. cbn [is_media length]. lia.
Qed.

(** what a call on a paragraph adds to the paper *)
Definition after (L : GoLib) (o : pop) (p : paper) : paper := add_names (new_names o) (add_refs (new_refs o) p).
Lemma reg_same : forall p p' g, p_refs p' = p_refs p -> p_names p' = p_names p -> reg_is p g -> reg_is p' g.
Proof. intros p p' g E1 E2 [R1 R2 R3 R4 R5 R6 R7]. split; rewrite ?E1, ?E2; assumption. Qed.
Ltac quiet := split; [eapply reg_same; [..|eassumption]; unfold after, add_names, add_refs; cbn [p_refs p_names new_refs new_names]; apply app_nil_r|]; left; eexists; split; [cbn [exec_pop]|].
Lemma para_call : forall (L : GoLib) o s s' d p, small p -> reg_is p (d_reg d) -> change_sheet p o s = Some s' ->
  exists g', reg_is (after L o p) g' /\
  ((exists e, exec_pop o [d] (is_sheet s) = Err e /\ s' = s /\ g' = d_reg d) \/ exec_pop o [d] (is_sheet s) = Ok ([set_d_reg g' d], is_sheet s')).
Proof.
  intros L o s s' d p B R E.
  assert (Q : forall q, reg_is (after L o p) (d_reg d) -> exec_pop o [d] (is_sheet s) = Ok ([d], q) -> q = is_sheet s' -> exists g', reg_is (after L o p) g' /\
    ((exists e, exec_pop o [d] (is_sheet s) = Err e /\ s' = s /\ g' = d_reg d) \/ exec_pop o [d] (is_sheet s) = Ok ([set_d_reg g' d], is_sheet s'))).
  { intros q R' X ->. exists (d_reg d). split; [exact R'|]. right. rewrite X. now destruct d. }
  assert (N : new_refs o = [] -> new_names o = [] -> reg_is (after L o p) (d_reg d)).
  { intros E1 E2. eapply reg_same; [..|exact R]; unfold after, add_names, add_refs; cbn [p_refs p_names]; rewrite ?E1, ?E2; apply app_nil_r. }
  destruct o; cbn [change_sheet] in E; try discriminate E.
  - injection E as <-. eapply Q; [now apply N|reflexivity|]. rewrite add_text_pieces. apply (add_kid_ok (SpecWrite.Run plain (pieces t))).
  - injection E as <-. eapply Q; [now apply N|reflexivity|]. apply (add_kid_ok (SpecWrite.Run plain [Tabulator])).
  - injection E as <-. eapply Q; [now apply N|reflexivity|]. apply (add_kid_ok (SpecWrite.Run plain [NewPage])).
  - injection E as <-. destruct (link_reg p _ link B R) as (g' & A & R'). exists g'. split; [eapply reg_same; [..|exact R']; cbn; now rewrite ?app_nil_r|]. right.
    cbn [exec_pop]. unfold add_link. change (para_file (is_sheet s)) with (Some 0). unfold on_file. cbn [nth_error]. rewrite A. cbn [bind set_nth]. do 2 f_equal. apply (add_kid_ok (Link (next_ref p) t plain [])).
  - destruct (lib_imgsize data) as [[[sw sh] f]|] eqn:IS.
    + destruct (_ && _)%bool eqn:G in E; [|discriminate]. repeat (apply andb_prop in G; destruct G as (G & ?)).
      repeat match goal with H : Z.ltb _ _ = true |- _ => apply Z.ltb_lt in H | H : Z.leb _ _ = true |- _ => apply Z.leb_le in H end.
      destruct (fitted (iv sw) (iv sh)) as [w' h'] eqn:FT. injection E as <-.
      destruct (pic_size_fitted sw sh) as (ew & eh & PS & V); [lia|lia|]. rewrite FT in V. injection V as V1 V2.
      assert (W1 : i64_of w' = ew) by (rewrite <- V1; apply i64_of_iv). assert (W2 : i64_of h' = eh) by (rewrite <- V2; apply i64_of_iv).
      destruct (ids_reg p _ PICTURE B R) as (g1 & g2 & id & A1 & A2 & A3 & A4 & R2).
      destruct (image_reg (add_names [PICTURE] p) g2 f data) as (g3 & A5 & R3); [apply B|exact R2|].
      exists g3. split; [eapply reg_same; [..|exact R3]; unfold after; cbn [new_refs new_names add_names add_refs p_refs p_names]; rewrite IS; reflexivity|]. right.
      cbn [exec_pop]. unfold add_drawing. rewrite IS. change (para_file (is_sheet s)) with (Some 0). unfold on_file. cbn [nth_error]. unfold new_image. rewrite A1. change TUPIAN with PICTURE. rewrite A2, A5. cbn [bind set_nth]. rewrite PS. cbn [bind].
      do 2 f_equal. change (pic_title (int_of_u id)) with (PICTURE ++ " " ++ itoa_u id). rewrite W1, W2, A4, A3.
      rewrite <- (add_kid_ok (SpecWrite.Run plain [_])). destruct anch; reflexivity.
    + injection E as <-. exists (d_reg d). split; [apply N; cbn [new_refs new_names]; now rewrite IS|]. left. cbn [exec_pop]. unfold add_drawing. rewrite IS. eauto.
  - injection E as <-. destruct (ids_reg p _ name B R) as (g1 & g2 & id & A1 & A2 & A3 & A4 & R2). exists g2. split; [eapply reg_same; [..|exact R2]; cbn; now rewrite ?app_nil_r|]. right.
    cbn [exec_pop]. unfold add_shape. change (para_file (is_sheet s)) with (Some 0). unfold on_file. cbn [nth_error]. unfold new_shape_ids. rewrite A1, A2, A4. cbn [bind set_nth]. do 2 f_equal.
    rewrite <- (add_kid_ok (SpecWrite.Run plain [_])). destruct anch; reflexivity.
  - injection E as <-. eapply Q; [now apply N|reflexivity|]. unfold para_justification, para_style, para_numpr, para_numfont, para_numsize, is_sheet. unfold the_rpr, the_ppr, para_ppr, set_para_ppr, is_ppr, mk_para, mark_of. cbn [s_num s_jc s_style s_mark s_kids].
    destruct (s_num s), (s_jc s), (s_style s), (s_mark s) as [[? ?]|]; reflexivity.
  - injection E as <-. eapply Q; [now apply N|reflexivity|]. unfold para_justification, para_style, para_numpr, para_numfont, para_numsize, is_sheet. unfold the_rpr, the_ppr, para_ppr, set_para_ppr, is_ppr, mk_para, mark_of. cbn [s_num s_jc s_style s_mark s_kids].
    destruct (s_num s), (s_jc s), (s_style s), (s_mark s) as [[? ?]|]; reflexivity.
  - injection E as <-. eapply Q; [now apply N|reflexivity|]. unfold para_justification, para_style, para_numpr, para_numfont, para_numsize, is_sheet. unfold the_rpr, the_ppr, para_ppr, set_para_ppr, is_ppr, mk_para, mark_of. cbn [s_num s_jc s_style s_mark s_kids].
    destruct (s_num s), (s_jc s), (s_style s), (s_mark s) as [[? ?]|]; reflexivity.
  - injection E as <-. eapply Q; [now apply N|reflexivity|]. unfold para_justification, para_style, para_numpr, para_numfont, para_numsize, is_sheet. unfold the_rpr, the_ppr, para_ppr, set_para_ppr, is_ppr, mk_para, mark_of. cbn [s_num s_jc s_style s_mark s_kids].
    destruct (s_num s), (s_jc s), (s_style s), (s_mark s) as [[? ?]|]; reflexivity.
  - injection E as <-. eapply Q; [now apply N|reflexivity|]. unfold para_justification, para_style, para_numpr, para_numfont, para_numsize, is_sheet. unfold the_rpr, the_ppr, para_ppr, set_para_ppr, is_ppr, mk_para, mark_of. cbn [s_num s_jc s_style s_mark s_kids].
    destruct (s_num s), (s_jc s), (s_style s), (s_mark s) as [[? ?]|]; reflexivity.
  - injection E as <-. eapply Q; [now apply N|reflexivity|]. unfold para_keep. rewrite is_sheet_children, (named_map _ _ is_kid kid_kind _ _ _ kid_type). apply is_sheet_kids.
  - injection E as <-. eapply Q; [now apply N|reflexivity|]. apply drop_sheet_ok.
  - destruct (change k (change_kid o) (s_kids s)) as [ks|] eqn:CK; [|discriminate]. injection E as <-.
    destruct (change_map _ _ is_kid _ _ _ _ CK) as (x & x' & NX & F & S). pose proof (change_kid_run _ _ _ F) as K.
    eapply Q; [now apply N| |rewrite <- is_sheet_kids, <- S; reflexivity]. cbn [exec_pop]. rewrite is_sheet_children, NX.
    destruct (is_kid x) as [r|i r|q], (is_kid x') as [r'|i' r'|q']; try (exfalso; exact K).
    + rewrite K. reflexivity.
    + destruct K as (-> & K). rewrite K. reflexivity.
Qed.

(** ** one call *)
Definition paper_is (t : tmpl) (p : paper) (d : docx) : Prop :=
  exists items g, d = mk_docx items g t true /\ reg_is p g /\ Forall2 is_block (p_blocks p) items.
(** the document after a call, which is the same if the call returned an error *)
Definition goes `{GoLib} (o : op) (d d' : docx) : Prop := exec o [d] = Ok [d'] \/ d' = d /\ exists e, exec o [d] = Err e.
Lemma change_id : forall A (f : A -> option A) l n l', change n f l = Some l' -> (forall x y, f x = Some y -> y = x) -> l' = l.
Proof.
  intros A f. induction l as [|x l IH]; intros [|n] l' E H; try discriminate E; cbn [change] in E.
  - destruct (f x) as [y|] eqn:F; [|discriminate]. injection E as <-. now rewrite (H _ _ F).
  - destruct (change n f l) as [l2|] eqn:C; [|discriminate]. injection E as <-. now rewrite (IH _ _ C H).
Qed.
Lemma change_at_id : forall a bs bs', change_at a (fun s => Some s) bs = Some bs' -> bs' = bs.
Proof.
  intros [i|i r k q] bs bs' E; cbn [change_at] in E.
  - apply change_id in E; [exact E|]. intros [s|g|pw ph] y X; try discriminate X. injection X as <-. reflexivity.
  - unfold change_box, change_line, change_grid in E. apply change_id in E; [exact E|]. intros [s|g|pw ph] y X; try discriminate X. destruct (change r _ (g_lines g)) as [ls|] eqn:C1 in X; [|discriminate]. injection X as <-.
    apply change_id in C1; [subst ls; now destruct g|]. intros x z X. destruct (change k _ (l_boxes x)) as [ks|] eqn:C2 in X; [|discriminate]. injection X as <-.
    apply change_id in C2; [subst ks; now destruct x|]. intros b c X. destruct (change q _ (b_sheets b)) as [us|] eqn:C3 in X; [|discriminate]. injection X as <-.
    apply change_id in C3; [subst us; now destruct b|]. intros ? ? X. now injection X.
Qed.
Lemma new_grid_props : forall width col l g, is_tblpr (new_grid width col l g) = table_properties width (fst (use_colors col)).
Proof.
  intros width col l g. unfold is_tblpr, table_properties, new_grid, is_border. cbn [g_width g_type g_jc g_top g_left g_bottom g_right g_insideH g_insideV].
  destruct col as [[a b k d e f]|]; cbn [use_colors fst apply_default c_top c_left c_bottom c_right c_insideH c_insideV]; destruct (0 <? iv width)%Z; reflexivity.
Qed.
Lemma map_rep : forall A B (f : A -> B) x n, map f (repeat x n) = repeat (f x) n.
Proof. intros A B f x. induction n; cbn [repeat map]; congruence. Qed.
Lemma somes_widths : forall cw, somes (map (fun x => if Z.ltb 0 (iv x) then Some x else None) cw) = filter (fun x => Z.ltb 0 (iv x)) cw.
Proof. induction cw as [|x cw IH]; [reflexivity|]. cbn [map filter]. destruct (0 <? iv x)%Z; cbn [somes]; now rewrite IH. Qed.

Lemma call_follows : forall (L : GoLib) o tm p p' d, small p -> paper_is tm p d -> write_call o p = Some p' ->
  exists d', goes o d d' /\ paper_is (template o tm) p' d'.
Proof.
  intros L o tm p p' d B (items & gr & -> & RI & F) E. unfold write_call in E.
  destruct o as [ |l ms|n a q|pp q|n|n i r k|n r k width col|n rh cw width col|n i v|n i r v|n i r k v co fi|n a3|n t|n names|n name|n from|n sep|a]; try discriminate E; destruct n as [|n]; try discriminate E;
  unfold goes; cbn [exec on_doc nth_error bind set_nth].
  - destruct (change_at a (change_sheet p q) (p_blocks p)) as [b'|] eqn:CA; [|discriminate]. injection E as <-. destruct (change_at_rel _ _ _ _ _ F CA) as (s & s' & G & FS & S). cbn [d_items]. rewrite G.
    destruct (para_call L q s s' (mk_docx items gr tm true) p B RI FS) as (g' & RI' & [(e & X & -> & ->)|X]).
    + exists (mk_docx items gr tm true). split; [right; split; [reflexivity|]; exists e; rewrite X; reflexivity|]. exists items, gr. split; [reflexivity|]. split; [eapply reg_same; [..|exact RI']; reflexivity|].
      cbn [p_blocks]. replace b' with (p_blocks p); [exact F|]. destruct q; cbn [exec_pop] in X; try discriminate X.
      * destruct (lib_imgsize data) as [[[sw sh] f]|] eqn:IS.
        -- exfalso. cbn [change_sheet] in FS. rewrite IS in FS. destruct (_ && _)%bool in FS; [|discriminate]. destruct (fitted (iv sw) (iv sh)). unfold add_kid in FS. injection FS as FS. apply (f_equal (fun x => length (s_kids x))) in FS. cbn [s_kids with_kids] in FS. rewrite app_length in FS. cbn [length] in FS. lia.
        -- symmetry. apply (change_at_id a). replace (change_at a (fun s0 => Some s0) (p_blocks p)) with (change_at a (change_sheet p (ODrawing anch data)) (p_blocks p)); [exact CA|]. unfold change_sheet. rewrite IS. reflexivity.
      * exfalso. cbn [change_sheet] in FS. destruct (change k (change_kid o) (s_kids s)) as [ks|] eqn:CK; [|discriminate]. destruct (change_map _ _ is_kid _ _ _ _ CK) as (x & x' & NX & FX & _). pose proof (change_kid_run _ _ _ FX) as K.
        rewrite is_sheet_children, NX in X. destruct (is_kid x) as [r|i r|y], (is_kid x') as [r'|i' r'|y']; try (exfalso; exact K); [|destruct K as (_ & K)]; rewrite K in X; discriminate X.
    + rewrite X. cbn [bind on_doc nth_error set_nth]. eexists. split; [left; reflexivity|]. eexists _, g'. split; [reflexivity|]. split; [eapply reg_same; [..|exact RI']; reflexivity|]. exact S.
  - injection E as <-. eexists. split; [left; reflexivity|]. exists (items ++ [IPara (is_sheet blank)])%list, gr. split; [reflexivity|]. split; [eapply reg_same; [..|exact RI]; reflexivity|]. cbn [p_blocks]. apply Forall2_app; [exact F|]. repeat constructor.
  - destruct (change_box i r k _ (p_blocks p)) as [b'|] eqn:CB; [|discriminate]. injection E as <-. destruct (change_box_rel _ _ _ _ _ _ _ F CB) as (x & x' & G & FX & S). injection FX as <-. cbn [d_items]. rewrite G. cbn [bind set_nth].
    eexists. split; [left; reflexivity|]. eexists _, gr. split; [reflexivity|]. split; [eapply reg_same; [..|exact RI]; reflexivity|]. cbn [p_blocks]. unfold is_box in S at 1. cbn [b_width b_type b_shade b_sheets] in S. rewrite map_app in S. exact S.
  - destruct (Z.ltb_spec (iv r) 0) as [R|R]; [discriminate E|]. destruct (Z.ltb_spec (iv k) 0) as [K|K]; [discriminate E|]. injection E as <-. unfold add_table. rewrite (proj2 (Z.ltb_ge _ _) R), (proj2 (Z.ltb_ge _ _) K). cbn [andb].
    destruct (use_colors col) as [cs col'] eqn:UC. cbn [bind]. eexists. split; [left; reflexivity|]. eexists _, gr. split; [reflexivity|]. split; [eapply reg_same; [..|exact RI]; reflexivity|]. cbn [p_blocks]. apply Forall2_app; [exact F|]. constructor; [|constructor].
    cbn [is_block]. exists []. split; [|reflexivity]. rewrite new_grid_props, UC. cbn [fst g_lines new_grid]. rewrite map_rep. unfold is_line at 1. cbn [l_height l_jc l_boxes option_map]. rewrite map_rep. reflexivity.
  - injection E as <-. unfold add_table_twips. destruct (use_colors col) as [cs col'] eqn:UC. cbn [fst]. eexists. split; [left; reflexivity|]. eexists _, gr. split; [reflexivity|]. split; [eapply reg_same; [..|exact RI]; reflexivity|]. cbn [p_blocks]. apply Forall2_app; [exact F|]. constructor; [|constructor].
    cbn [is_block]. eexists. split; [|apply somes_widths]. rewrite new_grid_props, UC. cbn [fst g_lines new_grid]. rewrite map_map. do 2 f_equal. apply map_ext. intros h. unfold twips_row, is_line. cbn [l_height l_jc l_boxes]. rewrite map_map. f_equal.
    destruct (0 <? iv h)%Z; reflexivity.
  - destruct (change_grid i _ (p_blocks p)) as [b'|] eqn:CB; [|discriminate]. injection E as <-. destruct (change_grid_rel _ _ _ _ _ F CB) as (g & g' & l & G & FX & SL & S). injection FX as <-. cbn [d_items]. rewrite G. cbn [grid_item table_justification table_props bind set_nth].
    eexists. split; [left; reflexivity|]. eexists _, gr. split; [reflexivity|]. split; [eapply reg_same; [..|exact RI]; reflexivity|]. cbn [p_blocks]. apply S. exists l. split; [reflexivity|exact SL].
  - destruct (change_line i r _ (p_blocks p)) as [b'|] eqn:CB; [|discriminate]. injection E as <-. destruct (change_line_rel _ _ _ _ _ _ F CB) as (g & l & x & x' & G & NX & FX & S). injection FX as <-. cbn [d_items]. rewrite G. unfold grid_item. cbn [table_rows]. rewrite NX.
    unfold row_justification, is_line at 1. cbn [row_props bind set_nth]. eexists. split; [left; reflexivity|]. eexists _, gr. split; [reflexivity|]. split; [eapply reg_same; [..|exact RI]; reflexivity|]. cbn [p_blocks]. exact S.
  - destruct (change_box i r k _ (p_blocks p)) as [b'|] eqn:CB; [|discriminate]. injection E as <-. destruct (change_box_rel _ _ _ _ _ _ _ F CB) as (x & x' & G & FX & S). injection FX as <-. cbn [d_items]. rewrite G. unfold cell_shade, is_box at 1. cbn [cell_props bind set_nth].
    eexists. split; [left; reflexivity|]. eexists _, gr. split; [reflexivity|]. split; [eapply reg_same; [..|exact RI]; reflexivity|]. cbn [p_blocks]. exact S.
  - injection E as <-. eexists. split; [left; reflexivity|]. exists (items ++ [if a3 then ISect (mk_sect (Some (mk_pgsz (i64_of 16838) (i64_of 23811))) None None None) else ISect (mk_sect (Some (mk_pgsz (i64_of 11906) (i64_of 16838))) None None None)])%list, gr.
    split; [now destruct a3|]. split; [eapply reg_same; [..|exact RI]; reflexivity|]. cbn [p_blocks]. apply Forall2_app; [exact F|]. constructor; [|constructor]. destruct a3; cbn [is_block]; repeat split; reflexivity.
  - injection E as <-. eexists. split; [left; reflexivity|]. exists items, gr. split; [reflexivity|]. split; [exact RI|exact F].
  - injection E as <-. eexists. split; [left; reflexivity|]. eexists _, gr. split; [reflexivity|]. split; [eapply reg_same; [..|exact RI]; reflexivity|]. cbn [p_blocks]. now apply named_rel.
  - injection E as <-. eexists. split; [left; reflexivity|]. eexists _, gr. split; [reflexivity|]. split; [eapply reg_same; [..|exact RI]; reflexivity|]. cbn [p_blocks]. now apply drop_blocks_ok.
Qed.

Lemma paper_grow : forall (L : GoLib) o p p', write_call o p = Some p' -> length (p_refs p) <= length (p_refs p') /\ length (p_names p) <= length (p_names p').
Proof.
  intros L o p p' E. unfold write_call in E.
  destruct o as [ |l ms|n a q|pp q|n|n i r k|n r k width col|n rh cw width col|n i v|n i r v|n i r k v co fi|n a3|n t|n names|n name|n from|n sep|a]; try discriminate E; destruct n as [|n]; try discriminate E;
  repeat match type of E with match ?x with _ => _ end = _ => destruct x; try discriminate E end; injection E as <-; cbn [p_refs p_names]; rewrite ?app_length; lia.
Qed.
Lemma calls_grow : forall (L : GoLib) l p p', write_calls l p = Some p' -> length (p_refs p) <= length (p_refs p') /\ length (p_names p) <= length (p_names p').
Proof.
  intros L. induction l as [|o l IH]; intros p p' E; cbn [write_calls] in E; [injection E as <-; lia|]. destruct (write_call o p) as [p1|] eqn:W; [|discriminate].
  apply paper_grow in W. apply IH in E. lia.
Qed.
Lemma calls_follow : forall (L : GoLib) l tm p p' d, small p' -> paper_is tm p d -> write_calls l p = Some p' ->
  exists d', run_ops l [d] = Some [d'] /\ paper_is (templates l tm) p' d'.
Proof.
  intros L. induction l as [|o l IH]; intros tm p p' d B P E; cbn [write_calls run_ops templates] in *.
  - injection E as <-. eauto.
  - destruct (write_call o p) as [p1|] eqn:W; [|discriminate]. pose proof (calls_grow _ _ _ _ E) as G. pose proof (paper_grow _ _ _ _ W) as G1.
    destruct (call_follows L o tm p p1 d) as (d1 & X & P1); [unfold small in *; lia|exact P|exact W|].
    destruct X as [X|(-> & e & X)]; rewrite X; exact (IH _ _ _ _ B P1 E).
Qed.
Lemma start_is : paper_is no_tmpl empty_paper new_docx.
Proof. exists [], (d_reg new_docx). split; [reflexivity|]. split; [|constructor]. split; reflexivity. Qed.

Lemma image_part_media : forall l k x, In x (image_parts k l) <-> exists m, In m (is_media k l) /\ x = (MEDIA_FOLDER ++ fst m, Some (snd m)).
Proof.
  induction l as [|[t|f d] l IH]; intros k x; cbn [image_parts is_media].
  - split; [intros []|intros (m & [] & _)].
  - apply IH.
  - split.
    + intros [<-|I]; [exists (image_name (k + 1) f, d); split; [now left|reflexivity]|]. apply IH in I. destruct I as (m & I & ->). exists m. split; [now right|reflexivity].
    + intros (m & [<-|I] & ->); [now left|]. right. apply IH. eauto.
Qed.
Lemma media_later : forall l k m, In m (is_media k l) -> exists j f, (k < j)%N /\ fst m = img_name j f.
Proof.
  induction l as [|[t|f d] l IH]; intros k m I; cbn [is_media] in I; [destruct I|eauto|]. destruct I as [<-|I]; [exists (k + 1)%N, f; split; [lia|reflexivity]|].
  destruct (IH _ _ I) as (j & f' & J & E). exists j, f'. split; [lia|exact E].
Qed.
Lemma media_names : forall l k, NoDup (map fst (is_media k l)).
Proof.
  induction l as [|[t|f d] l IH]; intros k; cbn [is_media map]; [constructor|apply IH|]. constructor; [|apply IH]. intros I. apply in_map_iff in I. destruct I as (m & E & I). destruct (media_later _ _ _ I) as (j & f' & J & E').
  rewrite E' in E. cbn [fst] in E. apply img_name_inj in E. lia.
Qed.
Lemma last_unique : forall l n m, NoDup (map fst l) -> (last_media l n m <-> In m l /\ fst m = n).
Proof.
  intros l n m ND. split.
  - intros (a & b & -> & E & _). split; [|exact E]. apply in_or_app. right. now left.
  - intros (I & E). apply in_split in I. destruct I as (a & b & ->). exists a, b. split; [reflexivity|]. split; [exact E|]. rewrite map_app in ND. cbn [map] in ND. apply NoDup_remove_2 in ND. intros y I X. apply ND. apply in_or_app. right. rewrite E, <- X. now apply in_map.
Qed.
Lemma exact_text : forall (L : GoLib) l p, write_calls l empty_paper = Some p -> small p ->
  exists d, run_ops (ONew :: l) [] = Some [d] /\ d_tmpl d = templates l no_tmpl /\
  forall c, (forall s, cleans s (c s)) -> forall ar, writes d (Ok ar) ->
  (forall x, (In (DOC_NAME, x) ar <-> x = Some (document_text c p)) /\ (In (RELS_NAME, x) ar <-> x = Some (relations_text c p))) /\
  forall x, In x (image_parts 0 (p_refs p)) -> In x ar.
Proof.
  intros L l p E B. destruct (calls_follow L l no_tmpl empty_paper p new_docx B start_is E) as (d & R & (items & g & -> & RI & F)).
  eexists. split; [exact R|]. split; [reflexivity|]. intros c C ar W. destruct (written_parts _ _ W) as (_ & P).
  pose proof (document_ok c C p items F) as DO. pose proof (relations_ok c C p g (ri_ns _ _ RI) (ri_rels _ _ RI)) as RO.
  split; [intros x; split; rewrite P; split|].
  - intros (s & -> & Q). inversion Q; subst.
    + cbn [d_ns d_items]. f_equal. exact DO.
    + congruence.
  - intros ->. eexists. split; [reflexivity|]. rewrite <- DO. apply (part_doc (mk_docx items g (templates l no_tmpl) true)).
  - intros (s & -> & Q). inversion Q; subst.
    + cbn [d_reg]. f_equal. exact RO.
    + congruence.
  - intros ->. eexists. split; [reflexivity|]. rewrite <- RO. apply (part_rels (mk_docx items g (templates l no_tmpl) true)).
  - intros x I. apply image_part_media in I. destruct I as (m & I & ->). apply P. eexists. split; [reflexivity|]. apply part_media. cbn [d_reg]. rewrite (ri_media _ _ RI). apply last_unique; [apply media_names|]. split; [exact I|reflexivity].
Qed.

Lemma write_file : forall n s, (N.of_nat (String.length n) <= 65535)%N -> (forall t, n <> t ++ "/") -> write_entry (n, Some s) = Ok (n, Some s).
Proof.
  intros n s A B. unfold write_entry. cbn [fst snd]. rewrite (proj2 (N.ltb_ge _ _) A). destruct (ends_slash n) eqn:E; [|reflexivity]. apply ends_slash_spec in E. destruct E as (t & E). now apply B in E.
Qed.
Lemma exact_file : forall (L : GoLib) l p, write_calls l empty_paper = Some p -> small p ->
  (forall n t, ~ In (OTemplate n t) l) -> file_names (image_parts 0 (p_refs p)) ->
  exists d, run_ops (ONew :: l) [] = Some [d] /\
  forall c, (forall s, cleans s (c s)) -> forall r, writes d r <->
  exists ar, r = Ok ar /\ Permutation ((DOC_NAME, Some (document_text c p)) :: (RELS_NAME, Some (relations_text c p)) :: image_parts 0 (p_refs p)) ar.
Proof.
  intros L l p E B T FN. assert (TT : templates l no_tmpl = no_tmpl).
  { clear - T. induction l as [|o l IH]; [reflexivity|]. cbn [templates]. assert (template o no_tmpl = no_tmpl) as -> by (destruct o; try reflexivity; exfalso; eapply T; left; reflexivity). apply IH. intros n t I. apply (T n t). now right. }
  destruct (calls_follow L l no_tmpl empty_paper p new_docx B start_is E) as (d & R & (items & g & -> & RI & F)). rewrite TT in *. eexists. split; [exact R|]. intros c C r.
  pose proof (document_ok c C p items F) as DO. pose proof (relations_ok c C p g (ri_ns _ _ RI) (ri_rels _ _ RI)) as RO.
  set (d := mk_docx items g no_tmpl true) in *. set (parts := _ :: _ :: _).
  assert (PF : exists m, pack_files d = Ok m) by (eexists; reflexivity). destruct PF as (m & PF). destruct (pack_files_get d m PF) as (ND & G).
  assert (PP : Permutation parts m).
  { apply NoDup_Permutation.
    - apply (NoDup_map_inv fst). subst parts. cbn [map fst]. assert (K : map fst (image_parts 0 (p_refs p)) = map (fun x => MEDIA_FOLDER ++ x) (map fst (is_media 0 (p_refs p)))).
      { generalize 0%N as k. generalize (p_refs p) as rs. induction rs as [|[t|f0 d0] rs IH]; intros k; cbn [image_parts is_media map fst]; [reflexivity|apply IH|]. now rewrite IH. }
      rewrite K. assert (NI : forall n, (forall y, n <> MEDIA_FOLDER ++ y) -> ~ In n (map (fun x => MEDIA_FOLDER ++ x) (map fst (is_media 0 (p_refs p))))).
      { intros n H I. apply in_map_iff in I. destruct I as (y & <- & _). now apply (H y). }
      constructor; [intros [X|X]; [discriminate X|]; revert X; apply NI; intros y; cbn; discriminate|]. constructor; [apply NI; intros y; cbn; discriminate|].
      generalize (media_names (p_refs p) 0). generalize (map fst (is_media 0 (p_refs p))) as ns. induction ns as [|y ns IH]; intros N; cbn [map]; [constructor|]. inversion N; subst. constructor; [|now apply IH].
      intros I. apply in_map_iff in I. destruct I as (z & Z & I). apply media_inj in Z. congruence.
    - now apply NoDup_map_inv in ND.
    - intros (n, v). rewrite (fget_in n v m ND), G. subst parts. split.
      + intros [X|[X|X]].
        * injection X as <- <-. left. eexists. split; [reflexivity|]. rewrite <- DO. apply (part_doc d).
        * injection X as <- <-. left. eexists. split; [reflexivity|]. rewrite <- RO. apply (part_rels d).
        * apply image_part_media in X. destruct X as (y & I & X). injection X as -> ->. left. eexists. split; [reflexivity|]. apply part_media. cbn [d d_reg]. rewrite (ri_media _ _ RI). apply last_unique; [apply media_names|]. split; [exact I|reflexivity].
      + intros [(s & -> & Q)|(-> & [] & _)]. inversion Q as [|X1 X2|n0 y LM X1 X2|n0 s0 [] _ _ _ _]; subst.
        * right. left. now rewrite <- RO.
        * left. now rewrite <- DO.
        * right. right. apply image_part_media. exists y. cbn [d d_reg] in LM. rewrite (ri_media _ _ RI) in LM. apply last_unique in LM; [|apply media_names]. destruct LM as (I & <-). split; [exact I|reflexivity]. }
  assert (W : forall o, Permutation parts o -> write_entries o = Ok o).
  { intros o P. apply write_entries_all. apply Forall_forall. intros (n, v) I. apply (Permutation_in _ (Permutation_sym P)) in I. destruct I as [X|[X|I]]; [injection X as <- <-; reflexivity..|].
    destruct (FN _ I) as (A1 & A2). apply image_part_media in I. destruct I as (y & _ & X). injection X as -> ->. now apply write_file. }
  unfold writes. rewrite PF. split.
  - intros (o & P & ->). assert (P' : Permutation parts o) by (eapply perm_trans; eauto). exists o. split; [now apply W|exact P'].
  - intros (ar & -> & P). exists ar. split; [eapply perm_trans; [apply Permutation_sym, PP|exact P]|]. symmetry. now apply W.
Qed.
