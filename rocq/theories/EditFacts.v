(** Formatting calls, tables, items, KeepElements and the Drop functions. *)
From Coq Require Import String Ascii List Bool Arith NArith ZArith Lia.
From Verif Require Import GoStr Num Lib Types Docx Text Api Keep Copy History RegFacts IdFacts SpecApi SpecEdit ApiFacts HistFacts HistFacts2.
Import ListNotations.
Local Open Scope list_scope.
Local Open Scope string_scope.

(** ** run properties (C42) *)
Lemma rget_ext : forall q q', (forall f, rget f q = rget f q') -> q = q'.
Proof.
  intros [] [] E.
  pose proof (E FFonts) as E1; pose proof (E FBold) as E2; pose proof (E FIcs) as E3; pose proof (E FItalic) as E4;
  pose proof (E FHighlight) as E5; pose proof (E FColor) as E6; pose proof (E FSize) as E7; pose proof (E FSizeCs) as E8;
  pose proof (E FSpacing) as E9; pose proof (E FRunStyle) as E10; pose proof (E FStyle) as E11; pose proof (E FShade) as E12;
  pose proof (E FKern) as E13; pose proof (E FUnderline) as E14; pose proof (E FVertAlign) as E15; pose proof (E FStrike) as E16.
  clear E. cbn in *.
  repeat match goal with K : _ _ = _ _ |- _ => injection K as K; subst end. reflexivity.
Qed.

Lemma run_setter_sets : forall o f v r, run_setter o = Some (f, v) ->
  match runR_rpr r with
  | None => exec_rop o r = Panic
  | Some q => exists q', exec_rop o r = Ok (mk_runR (runR_space r) (Some q') (runR_instr r) (runR_children r)) /\
      rget f q' = v /\ forall g, g <> f -> rget g q' = rget g q
  end.
Proof.
  intros o f v [sp [q|] ins ch] E; cbn [runR_rpr runR_space runR_instr runR_children]; destruct o; try discriminate; injection E as <- <-;
    try reflexivity;
    (eexists; split; [reflexivity|]; split; [reflexivity|]; intros [] N; try reflexivity; congruence).
Qed.
Lemma run_setter_last : forall o1 o2 f v1 v2 r, run_setter o1 = Some (f, v1) -> run_setter o2 = Some (f, v2) ->
  bind (exec_rop o1 r) (exec_rop o2) = exec_rop o2 r.
Proof.
  intros o1 o2 f v1 v2 r E1 E2. pose proof (run_setter_sets _ _ _ r E1) as A. pose proof (run_setter_sets _ _ _ r E2) as B.
  destruct (runR_rpr r) as [q|].
  - destruct A as [q1 [A1 [A2 A3]]]. destruct B as [q2 [B1 [B2 B3]]]. rewrite A1, B1. cbn [bind].
    pose proof (run_setter_sets _ _ _ (mk_runR (runR_space r) (Some q1) (runR_instr r) (runR_children r)) E2) as C. cbn in C.
    destruct C as [q3 [C1 [C2 C3]]]. rewrite C1. replace q3 with q2; auto. apply rget_ext. intros g.
    assert (D : {g = f} + {g <> f}) by (decide equality). destruct D as [->|D]; [congruence|]. rewrite B3, C3, A3; auto.
  - rewrite A, B. reflexivity.
Qed.
Lemma run_setter_commute : forall o1 o2 f1 f2 v1 v2 r, run_setter o1 = Some (f1, v1) -> run_setter o2 = Some (f2, v2) -> f1 <> f2 ->
  bind (exec_rop o1 r) (exec_rop o2) = bind (exec_rop o2 r) (exec_rop o1).
Proof.
  intros o1 o2 f1 f2 v1 v2 r E1 E2 N. pose proof (run_setter_sets _ _ _ r E1) as A. pose proof (run_setter_sets _ _ _ r E2) as B.
  destruct (runR_rpr r) as [q|].
  - destruct A as [q1 [A1 [A2 A3]]]. destruct B as [q2 [B1 [B2 B3]]]. rewrite A1, B1. cbn [bind].
    pose proof (run_setter_sets _ _ _ (mk_runR (runR_space r) (Some q1) (runR_instr r) (runR_children r)) E2) as C.
    pose proof (run_setter_sets _ _ _ (mk_runR (runR_space r) (Some q2) (runR_instr r) (runR_children r)) E1) as D. cbn in C, D.
    destruct C as [q3 [C1 [C2 C3]]]. destruct D as [q4 [D1 [D2 D3]]]. rewrite C1, D1. replace q4 with q3; auto.
    apply rget_ext. intros g.
    assert (G : forall a b : rfield, {a = b} + {a <> b}) by decide equality.
    destruct (G g f1) as [->|G1]; [rewrite C3, A2, D2; auto|]. destruct (G g f2) as [->|G2]; [rewrite C2, D3, B2; auto|].
    rewrite C3, A3, D3, B3; auto.
  - rewrite A, B. reflexivity.
Qed.

(** ** paragraph properties (C43) *)
Lemma para_setter_sets : forall `{GoLib} o f v w p, para_setter o = Some (f, v) ->
  exists p', exec_pop o w p = Ok (w, p') /\ pget f p' = v /\ (forall g, g <> f -> pget g p' = pget g p) /\
    para_children p' = para_children p /\ para_file p' = para_file p.
Proof.
  intros L o f v w p E. destruct p as [[pp ch fl]].
  destruct o; try discriminate; injection E as <- <-; eexists; (split; [reflexivity|]);
    (split; [reflexivity|]); (split; [|split; reflexivity]); intros g N; destruct g as [| | | | | | | | | | | | |g];
    try reflexivity; try congruence; (destruct pp as [[]|]; try reflexivity);
    destruct g; try reflexivity; try congruence; destruct ppr_rpr; reflexivity.
Qed.
Lemma para_setter_last : forall `{GoLib} o1 o2 f v1 v2 w p, para_setter o1 = Some (f, v1) -> para_setter o2 = Some (f, v2) ->
  bind (exec_pop o1 w p) (fun '(w', p') => exec_pop o2 w' p') = exec_pop o2 w p.
Proof.
  intros L o1 o2 f v1 v2 w [[pp ch fl]] E1 E2.
  destruct o1; try discriminate; injection E1 as <- <-; destruct o2; try discriminate; injection E2 as <-; cbn; unfold para_justification, para_style, para_numpr, para_numfont, para_numsize, set_para_ppr, the_ppr, the_rpr; cbn;
  destruct pp as [[? ? ? ? ? ? ? ? ? ? ? ? ? [[]|]]|]; reflexivity.
Qed.

(** ** drawings *)
Section Drawings.
Context `{GoLib}.
Lemma drawing_call_state : forall anch data w p, add_drawing anch data w p =
  match drawing_call anch data w p with
  | (w', p', Ok _) => Ok (w', p')
  | (_, _, Err e) => Err e
  | (_, _, Panic) => Panic
  end.
Proof.
  intros. unfold add_drawing, drawing_call. destruct (lib_imgsize data) as [[[sw sh] f]|]; auto.
  destruct (on_file w (para_file p) (new_image f data)) as [[[[idn id] r] w']| |]; cbn; auto.
  destruct (pic_size sw sh) as [[ew eh]| |]; reflexivity.
Qed.
Lemma rejected : forall anch data w p, lib_imgsize data = None -> exists e, drawing_call anch data w p = (w, p, Err e).
Proof. intros anch data w p E. unfold drawing_call. rewrite E. eauto. Qed.
Lemma rejected_only : forall anch data w p w' p' e, drawing_call anch data w p = (w', p', Err e) ->
  lib_imgsize data = None /\ w' = w /\ p' = p.
Proof.
  intros anch data w p w' p' e E. unfold drawing_call in E. destruct (lib_imgsize data) as [[[sw sh] f]|].
  - destruct (on_file w (para_file p) (new_image f data)) as [[[[idn id] r] w1]|e1|] eqn:F.
    + destruct (pic_size sw sh) as [[ew eh]|e2|] eqn:S; try discriminate. unfold pic_size in S.
      destruct (i64_eqb sw i0); [discriminate|]. destruct (wide sw sh); discriminate.
    + unfold on_file in F. destruct (para_file p); [|discriminate]. destruct (nth_error w n); [|discriminate].
      destruct (new_image f data (d_reg d)); discriminate.
    + discriminate.
  - inversion E; auto.
Qed.
End Drawings.

(** ** sizes (C47) *)
Lemma unsized_graphic_size : forall w h g, unsized_graphic (graphic_size w h g) = unsized_graphic g.
Proof.
  intros w h [xa [[uri [[xp nv b [[[]]|]]|] s c g]|]]; reflexivity.
Qed.
Lemma graphic_pic_size : forall w h g, graphic_pic (option_map (graphic_size w h) g) =
  option_map (fun p => set_pic_sp (option_map (fun s => set_picsp_xfrm (set_xfrm_ext (mk_xy w h) (picsp_xfrm s)) s) (pic_sp p)) p) (graphic_pic g).
Proof. intros w h [[xa [[uri [[xp nv b [[[]]|]]|] s c g]|]]|]; reflexivity. Qed.
Lemma inline_sized : forall w h x,
  unsized_inline (inline_size w h x) = unsized_inline x /\
  inlineR_extent (inline_size w h x) = match inlineR_extent x with Some _ => Some (mk_xy w h) | None => None end /\
  (forall p, graphic_pic (inlineR_graphic x) = Some p -> exists p', graphic_pic (inlineR_graphic (inline_size w h x)) = Some p' /\
     pic_extent p' = match pic_sp p with Some _ => Some (mk_xy w h) | None => None end).
Proof.
  intros w h x. split; [|split].
  - destruct x as [a b c d [e|] f g i [gr|] fl]; unfold unsized_inline, inline_size; cbn; try rewrite unsized_graphic_size; reflexivity.
  - destruct x as [a b c d [e|] f g i gr fl]; reflexivity.
  - intros p E. change (inlineR_graphic (inline_size w h x)) with (option_map (graphic_size w h) (inlineR_graphic x)).
    rewrite graphic_pic_size, E. cbn. eexists. split; [reflexivity|]. destruct p as [xp nv b [s|]]; reflexivity.
Qed.
Lemma anchor_sized : forall w h x,
  unsized_anchor (anchor_size w h x) = unsized_anchor x /\
  anchorR_extent (anchor_size w h x) = match anchorR_extent x with Some _ => Some (mk_xy w h) | None => None end /\
  (forall p, graphic_pic (anchorR_graphic x) = Some p -> exists p', graphic_pic (anchorR_graphic (anchor_size w h x)) = Some p' /\
     pic_extent p' = match pic_sp p with Some _ => Some (mk_xy w h) | None => None end).
Proof.
  intros w h x. split; [|split].
  - destruct x; unfold unsized_anchor, anchor_size; cbn. destruct anchorR_extent, anchorR_graphic; cbn; try rewrite unsized_graphic_size; reflexivity.
  - destruct x; cbn. destruct anchorR_extent; reflexivity.
  - intros p E. change (anchorR_graphic (anchor_size w h x)) with (option_map (graphic_size w h) (anchorR_graphic x)).
    rewrite graphic_pic_size, E. cbn. eexists. split; [reflexivity|]. destruct p as [xp nv b [s|]]; reflexivity.
Qed.

(** ** tables (C12, C13) *)
Lemma table_grid_ok : forall i r c width col d d' cc, add_table i r c width col d = Ok (d', cc) ->
  (0 <= iv r)%Z /\ exists t, d_items d' = (d_items d ++ [ITable t])%list /\ d_reg d' = d_reg d /\ d_tmpl d' = d_tmpl d /\
    Z.of_nat (length (table_rows t)) = iv r /\
    forall row, In row (table_rows t) -> Z.of_nat (length (row_cells row)) = iv c /\
      forall x, In x (row_cells row) -> cell_paras x = [] /\ cell_file x = Some i /\
        exists q, cell_props x = Some q /\ option_map wtype_type (tcpr_width q) = Some "auto".
Proof.
  intros i r c width col d d' cc E. unfold add_table in E. destruct (Z.ltb_spec (iv r) 0); [discriminate|].
  destruct ((_ <? 0)%Z && _)%bool eqn:C; [discriminate|]. destruct (use_colors col) as [cs cs']. inversion E; subst. clear E.
  split; auto. eexists. split; [reflexivity|]. split; [reflexivity|]. split; [reflexivity|]. cbn [table_rows].
  split; [rewrite repeat_length; lia|]. intros row Ir. assert (P : (0 < iv r)%Z).
  { destruct (Z.to_nat (iv r)) eqn:Q; [destruct Ir|]. lia. }
  apply repeat_spec in Ir. subst row. cbn [row_cells]. split.
  - rewrite repeat_length. destruct (Z.ltb_spec (iv c) 0); [|lia]. destruct (Z.ltb_spec 0 (iv r)); [discriminate|lia].
  - intros x Ix. apply repeat_spec in Ix. subst x. split; auto. split; auto. eexists. split; reflexivity.
Qed.
Lemma table_negative : forall i r c width col d, (iv r < 0 \/ (0 < iv r /\ iv c < 0))%Z -> add_table i r c width col d = Panic.
Proof.
  intros i r c width col d N. unfold add_table. destruct (Z.ltb_spec (iv r) 0); auto.
  destruct (Z.ltb_spec (iv c) 0), (Z.ltb_spec 0 (iv r)); cbn; auto; lia.
Qed.
Lemma table_exists : forall i r c width col d, (0 <= iv r)%Z -> (0 <= iv c)%Z -> exists d' cc, add_table i r c width col d = Ok (d', cc).
Proof.
  intros i r c width col d R C. unfold add_table. destruct (Z.ltb_spec (iv r) 0); [lia|].
  destruct (Z.ltb_spec (iv c) 0); [lia|]. cbn. destruct (use_colors col). eauto.
Qed.
Lemma twips_grid_ok : forall i rh cw width col d d' cc, add_table_twips i rh cw width col d = (d', cc) ->
  exists t, d_items d' = (d_items d ++ [ITable t])%list /\ d_reg d' = d_reg d /\ d_tmpl d' = d_tmpl d /\
    length (table_rows t) = length rh /\
    (forall k row h, nth_error (table_rows t) k = Some row -> nth_error rh k = Some h ->
       (exists q, row_props row = Some q /\ option_map trheight_val (trpr_height q) = if Z.ltb 0 (iv h) then Some h else None) /\
       length (row_cells row) = length cw /\
       forall j x, nth_error (row_cells row) j = Some x -> cell_paras x = [] /\ cell_file x = Some i /\
         exists q v, cell_props x = Some q /\ nth_error cw j = Some v /\ tcpr_width q = Some (mk_wtype v "dxa")) /\
    exists g, table_grid t = Some g /\ length g = length cw /\
      forall j v, nth_error cw j = Some v -> nth_error g j = Some (if Z.ltb 0 (iv v) then Some v else None).
Proof.
  intros i rh cw width col d d' cc E. unfold add_table_twips in E. destruct (use_colors col) as [cs cs']. inversion E; subst. clear E.
  eexists. split; [reflexivity|]. split; [reflexivity|]. split; [reflexivity|]. cbn [table_rows table_grid].
  split; [apply map_length|]. split.
  - intros k row h A B. rewrite nth_error_map, B in A. cbn in A. injection A as <-. cbn [row_props row_cells twips_row].
    split; [eexists; split; [reflexivity|]; destruct (0 <? iv h)%Z; reflexivity|]. split; [apply map_length|].
    intros j x X. rewrite nth_error_map in X. destruct (nth_error cw j) as [v|]; [|discriminate]. cbn in X. injection X as <-.
    split; auto. split; auto. eexists _, _. split; [reflexivity|]. split; reflexivity.
  - eexists. split; [reflexivity|]. split; [apply map_length|]. intros j v E. rewrite nth_error_map, E. reflexivity.
Qed.

Lemma properties_bordered : forall width c g rows, bordered c (mk_table (Some (table_properties width c)) g rows).
Proof.
  intros. eexists _, _. split; [reflexivity|]. split; [reflexivity|].
  repeat (split; [eexists; split; [reflexivity|]; repeat split|]). eexists; split; [reflexivity|]; repeat split.
Qed.
Lemma use_colors_spec : forall col, use_colors col = (filled_colors (or_empty no_colors col), option_map filled_colors col).
Proof. intros [c|]; reflexivity. Qed.
Lemma table_colors : forall i r c width col d d' cc, add_table i r c width col d = Ok (d', cc) ->
  cc = option_map filled_colors col /\
  exists t, d_items d' = (d_items d ++ [ITable t])%list /\ bordered (filled_colors (or_empty no_colors col)) t.
Proof.
  intros i r c width col d d' cc E. unfold add_table in E. destruct (_ <? 0)%Z; [discriminate|]. destruct (_ && _)%bool; [discriminate|].
  rewrite use_colors_spec in E. inversion E; subst. split; auto. eexists. split; [reflexivity|]. apply properties_bordered.
Qed.
Lemma twips_colors : forall i rh cw width col d d' cc, add_table_twips i rh cw width col d = (d', cc) ->
  cc = option_map filled_colors col /\
  exists t, d_items d' = (d_items d ++ [ITable t])%list /\ bordered (filled_colors (or_empty no_colors col)) t.
Proof.
  intros i rh cw width col d d' cc E. unfold add_table_twips in E.
  rewrite use_colors_spec in E. inversion E; subst. split; auto. eexists. split; [reflexivity|]. apply properties_bordered.
Qed.

(** ** Table.String (C14) *)
Section TS.
Context `{GoLib}.
Variable w : world.
Lemma srepeat_header : forall n, srepeat n " :----: |" = header_columns n.
Proof. induction n; cbn; congruence. Qed.
Lemma table_markdown : forall t txt,
  (forall r c p l, In r (table_rows t) -> In c (row_cells r) -> cell_paras c = p :: l -> para_children p <> [] -> para_string w p = Ok (txt p)) ->
  table_string w t = Ok (match table_rows t with
    | [] => ""
    | r0 :: _ => match row_cells r0 with
                 | [] => ""
                 | cs => "| " ++ header_columns (length cs) ++ sconcat (map (row_markdown txt) (table_rows t))
                 end
    end).
Proof.
  intros t txt F. unfold table_string. destruct (table_rows t) as [|r0 rs] eqn:R; auto. destruct (row_cells r0) as [|c0 cs] eqn:C; auto.
  rewrite (rconcat_ok _ _ (row_markdown txt)).
  - cbn [bind]. rewrite srepeat_header. reflexivity.
  - intros r Ir. rewrite (rconcat_ok _ _ (cell_markdown txt)); [reflexivity|]. intros c Ic. unfold cell_string, cell_markdown.
    destruct (cell_paras c) as [|p l] eqn:P; auto. destruct (para_children p) eqn:K; auto.
    rewrite (F r c p l); auto. congruence.
Qed.
End TS.

(** ** items (C46) *)
Lemma map_set_nth_same : forall A B (f : A -> B) l i x y, nth_error l i = Some x -> f y = f x -> map f (set_nth l i y) = map f l.
Proof. induction l as [|z l IH]; intros [|i] x y E F; cbn in *; try discriminate; auto. - injection E as ->. congruence. - f_equal. eauto. Qed.
Lemma bare_put : forall l a p q, get_para l a = Some p -> bare (put_para l a q) = bare l.
Proof.
  intros l [i|i r c k] p q G; cbn in *.
  - destruct (nth_error l i) as [[| |]|] eqn:E; try discriminate. eapply map_set_nth_same; eauto.
  - destruct (get_cell l i r c) as [v|] eqn:E; [|discriminate]. unfold get_cell in E. unfold put_cell.
    destruct (nth_error l i) as [[|t|]|] eqn:E1; try discriminate. destruct (nth_error (table_rows t) r) as [x|] eqn:E2; [|discriminate].
    eapply map_set_nth_same; eauto. cbn. do 2 f_equal. eapply map_set_nth_same; eauto. unfold bare_row. cbn. f_equal. eapply map_set_nth_same; eauto.
Qed.

Section Items.
Context `{GoLib}.
Lemma appends_one : forall o d k w w', appends o = Some (d, k) -> exec o w = Ok w' ->
  exists x x' y, nth_error w d = Some x /\ nth_error w' d = Some x' /\ d_items x' = (d_items x ++ [y])%list /\ kind_of y = k /\
    d_reg x' = d_reg x /\ d_tmpl x' = d_tmpl x /\ length w' = length w /\ forall j, j <> d -> nth_error w' j = nth_error w j.
Proof.
  intros o d k w w' A E.
  assert (OD : forall f, on_doc w d f = Ok w' -> (forall x x', f x = Ok x' -> exists y, d_items x' = (d_items x ++ [y])%list /\ kind_of y = k /\ d_reg x' = d_reg x /\ d_tmpl x' = d_tmpl x) ->
    exists x x' y, nth_error w d = Some x /\ nth_error w' d = Some x' /\ d_items x' = (d_items x ++ [y])%list /\ kind_of y = k /\
    d_reg x' = d_reg x /\ d_tmpl x' = d_tmpl x /\ length w' = length w /\ forall j, j <> d -> nth_error w' j = nth_error w j).
  { intros f F K. unfold on_doc in F. destruct (nth_error w d) as [x|] eqn:N; [|discriminate]. bok F. inversion F; subst.
    destruct (K _ _ E0) as [y [K1 [K2 [K3 K4]]]]. exists x, v, y. split; auto. split; [apply set_nth_same; eapply nth_lt; eauto|].
    split; [exact K1|]. split; [exact K2|]. split; [exact K3|]. split; [exact K4|]. split; [apply set_nth_length|].
    intros j J. apply set_nth_other. congruence. }
  destruct o; try discriminate; cbn [exec] in E; injection A as <- <-; (eapply OD; [exact E|]); intros x x' F.
  - injection F as <-. eexists. repeat split.
  - bok F. destruct v as [x1 cc]. inversion F; subst. destruct (table_grid_ok _ _ _ _ _ _ _ _ E0) as [_ [t [T1 [T2 [T3 _]]]]].
    eexists. split; [exact T1|]. auto.
  - injection F as <-. match goal with |- context [fst ?u] => destruct u as [x1 cc] eqn:E0 end. cbn [fst]. destruct (twips_grid_ok _ _ _ _ _ _ _ _ E0) as [t [T1 [T2 [T3 _]]]].
    eexists. split; [exact T1|]. auto.
  - injection F as <-. destruct a3; eexists; repeat split.
Qed.

Lemma adds_one : forall o w p w' p', adds o = true -> exec_pop o w p = Ok (w', p') ->
  exists c, p' = mk_para (para_ppr p) (para_children p ++ [c])%list (para_file p).
Proof.
  intros o w p w' p' A E. destruct o; try discriminate; cbn [exec_pop] in E.
  - rewrite add_text_run in E. inversion E; subst. eexists; reflexivity.
  - inversion E; subst. eexists; reflexivity.
  - inversion E; subst. eexists; reflexivity.
  - apply add_link_inv in E. destruct E as [i [d [_ [_ [_ E]]]]]. subst. eexists; reflexivity.
  - apply add_drawing_inv in E. destruct E as [i [d [sw [sh [fmt [ew [eh [_ [_ [_ [_ [_ E]]]]]]]]]]]].
    destruct (fst (new_image fmt data (d_reg d))) as [[a b] c]. subst. eexists; reflexivity.
  - unfold add_shape in E. bok E. destruct v as [[a b] c]. inversion E; subst. eexists; reflexivity.
Qed.
Lemma inside_one : forall d a o w w', exec (OPara d a o) w = Ok w' ->
  exists x x' p p', nth_error w d = Some x /\ nth_error w' d = Some x' /\
    get_para (d_items x) a = Some p /\ get_para (d_items x') a = Some p' /\
    bare (d_items x') = bare (d_items x) /\
    (forall b, b <> a -> get_para (d_items x') b = get_para (d_items x) b) /\
    (forall j, j <> d -> option_map d_items (nth_error w' j) = option_map d_items (nth_error w j)) /\
    (adds o = true -> exists c, p' = mk_para (para_ppr p) (para_children p ++ [c])%list (para_file p)).
Proof.
  intros d a o w w' E. destruct (exec_para_inv _ _ _ _ _ E) as [x [p [w1 [p' [A1 [A2 [A3 [y [A4 [A5 A6]]]]]]]]]].
  exists x, (set_d_items (put_para (d_items x) a p') y), p, p'. split; auto. subst w'. split; [apply set_nth_same; eapply nth_lt; eauto|].
  cbn [d_items set_d_items]. split; auto. split; [eapply get_put_same; eauto|]. split; [eapply bare_put; eauto|].
  split; [intros; eapply get_put_other; eauto|]. split.
  - intros j J. rewrite set_nth_other by auto. destruct (exec_pop_items _ _ _ _ _ A3) as [S _]. specialize (S j). unfold items_at in S.
    destruct (nth_error w1 j), (nth_error w j); cbn in *; congruence.
  - intros K. eapply adds_one; eauto.
Qed.
End Items.

(** ** KeepElements (C15) *)
Lemma existsb_listed : forall names s, existsb (String.eqb s) names = listed names s.
Proof.
  intros. unfold listed. destruct (in_dec string_dec s names) as [I|I].
  - apply existsb_exists. exists s. split; auto. apply seqb_refl.
  - destruct (existsb _ _) eqn:E; auto. apply existsb_exists in E. destruct E as [x [A B]]. apply String.eqb_eq in B. congruence.
Qed.
Lemma keep_filter : forall A (ty : A -> string) names l, keep_named ty names l = filter (fun x => listed names (ty x)) l.
Proof. induction l as [|x l IH]; cbn; auto. rewrite existsb_listed. destruct (listed _ _); congruence. Qed.
Lemma keep_again : forall A (ty : A -> string) names l, keep_named ty names (keep_named ty names l) = keep_named ty names l.
Proof. induction l as [|x l IH]; cbn; auto. destruct (existsb _ _) eqn:E; auto. cbn. rewrite E. congruence. Qed.
Lemma keep_both : forall A (ty : A -> string) n1 n2 l, keep_named ty n2 (keep_named ty n1 l) = filter (fun x => (listed n1 (ty x) && listed n2 (ty x))%bool) l.
Proof.
  induction l as [|x l IH]; cbn; auto. rewrite existsb_listed. destruct (listed n1 (ty x)); cbn; auto.
  rewrite existsb_listed. destruct (listed n2 (ty x)); congruence.
Qed.

(** ** Drop (C16, C17, C18) *)
Lemma data_test_inline : forall f (F : gdata -> Prop) i, (forall d, f d = true <-> F d) ->
  data_test f (inline_data i) = true <-> exists x g d, i = Some x /\ inlineR_graphic x = Some g /\ graphicR_data g = Some d /\ F d.
Proof.
  intros f F i E. unfold data_test, inline_data. split.
  - destruct i as [x|]; [|discriminate]. destruct (inlineR_graphic x) as [g|] eqn:G; [|discriminate]. destruct (graphicR_data g) as [d|] eqn:D; [|discriminate].
    intros T. exists x, g, d. rewrite <- E. auto.
  - intros [x [g [d [-> [-> [-> K]]]]]]. now apply E.
Qed.
Lemma data_test_anchor : forall f (F : gdata -> Prop) i, (forall d, f d = true <-> F d) ->
  data_test f (anchor_data i) = true <-> exists x g d, i = Some x /\ anchorR_graphic x = Some g /\ graphicR_data g = Some d /\ F d.
Proof.
  intros f F i E. unfold data_test, anchor_data. split.
  - destruct i as [x|]; [|discriminate]. destruct (anchorR_graphic x) as [g|] eqn:G; [|discriminate]. destruct (graphicR_data g) as [d|] eqn:D; [|discriminate].
    intros T. exists x, g, d. rewrite <- E. auto.
  - intros [x [g [d [-> [-> [-> K]]]]]]. now apply E.
Qed.
Lemma drops_holds : forall f (F : gdata -> Prop), (forall d, f d = true <-> F d) -> forall c, drops f c = true <-> holds F c.
Proof.
  intros f F E c. destruct c as [t|t|t|i a]; cbn; try easy. rewrite orb_true_iff, (data_test_inline f F), (data_test_anchor f F); auto. reflexivity.
Qed.
Lemma filter_without : forall A (f : A -> bool) (F : A -> Prop) l, (forall x, f x = true <-> F x) -> without F l (filter (fun x => negb (f x)) l).
Proof.
  intros A f F l E. induction l as [|x l IH]; cbn; [constructor|]. destruct (f x) eqn:Q; cbn.
  - apply wo_drop; auto. now apply E.
  - apply wo_keep; auto. rewrite <- E. congruence.
Qed.
Lemma drop_para_without : forall t F p, (forall c, t c = true <-> F c) -> para_without F p (drop_in_para t p).
Proof.
  intros t F p E. exists (map (drop_in_pchild t) (para_children p)). split; [|reflexivity].
  induction (para_children p) as [|c l IH]; cbn; constructor; auto. destruct c as [r|id r|r]; cbn; auto.
  eexists. split; [apply filter_without; eauto|]. reflexivity.
Qed.
Lemma is_some_iff : forall A (o : option A), is_some o = true <-> o <> None.
Proof. destruct o; cbn; split; congruence. Qed.

Lemma drops_nil_real : forall c, drops_nil c = true <-> ~ real_picture c.
Proof.
  intros c. destruct c as [t|t|t|i a]; cbn; try (split; [discriminate|intros N; now destruct N]).
  unfold graphic_pic, i_graphic, a_graphic, g_data, g_pic, inline_data, anchor_data, inline, anchor, graphic, gdata in *.
  destruct i as [[? ? ? ? ? ? ? ? [[xa [[u [pc|] s cv gr]|]]|] ?]|], a as [[? ? ? ? ? ? ? ? ? ? ? ? ? ? ? ? ? ? ? [[ya [[u' [pc'|] s' cv' gr']|]]|] ?]|]; cbn;
    split; intros N; try discriminate; auto;
    try (intros [[A|A] [B C]]; try congruence; try (now apply (B _ eq_refl)); try (now apply (C _ eq_refl)));
    exfalso; apply N; (split; [first [left; discriminate|right; discriminate]|]; split; intros z; first [discriminate|intros [=<-]; discriminate]).
Qed.

Lemma para_drop_exact : forall name p,
  match to_drop name with
  | Some F => para_without F p (para_drop name p)
  | None => para_drop name p = p
  end.
Proof.
  intros name p. unfold to_drop, para_drop, drop_test.
  destruct (String.eqb_spec name "Shape") as [->|N1]; [cbn; apply drop_para_without, drops_holds; intros d; apply is_some_iff|].
  destruct (String.eqb_spec name "Canvas") as [->|N2]; [cbn; apply drop_para_without, drops_holds; intros d; apply is_some_iff|].
  destruct (String.eqb_spec name "Group") as [->|N3]; [cbn; apply drop_para_without, drops_holds; intros d; apply is_some_iff|].
  destruct (String.eqb_spec name "ShapeAndCanvas") as [->|N4].
  { cbn; apply drop_para_without, drops_holds; intros d. unfold d_shape_canvas. rewrite orb_true_iff. unfold d_shape, d_canvas. rewrite !is_some_iff. reflexivity. }
  destruct (String.eqb_spec name "ShapeAndCanvasAndGroup") as [->|N5].
  { cbn; apply drop_para_without, drops_holds; intros d. unfold d_shape_canvas_group. rewrite !orb_true_iff. unfold d_shape, d_canvas, d_group.
    rewrite !is_some_iff. unfold has_shape, has_canvas, has_group. tauto. }
  destruct (String.eqb_spec name "NilPicture") as [->|N6]; auto.
  apply drop_para_without, drops_nil_real.
Qed.

(** removing twice, removing different kinds *)
Lemma filter_filter : forall A (f g : A -> bool) l, filter f (filter g l) = filter (fun x => (g x && f x)%bool) l.
Proof. induction l as [|x l IH]; cbn; auto. destruct (g x); cbn; auto. destruct (f x); congruence. Qed.
Lemma filter_eq : forall A (f g : A -> bool) l, (forall x, f x = g x) -> filter f l = filter g l.
Proof. intros A f g l E. induction l as [|x l IH]; cbn; auto. rewrite E, IH. reflexivity. Qed.
Lemma drop_drop : forall t1 t2 t p, (forall c, t c = (t1 c || t2 c)%bool) -> drop_in_para t2 (drop_in_para t1 p) = drop_in_para t p.
Proof.
  intros t1 t2 t [[pp ch f]] E. unfold drop_in_para. cbn. unfold set_para_children. cbn. f_equal. rewrite map_map. apply map_ext. intros [r|id r|r]; auto.
  cbn. f_equal. unfold drop_in_run. cbn. destruct r as [a b c d]. unfold set_runR_children. cbn. f_equal. rewrite filter_filter. apply filter_eq. intros x. rewrite E.
  now rewrite negb_orb.
Qed.
Lemma drop_twice : forall name p, para_drop name (para_drop name p) = para_drop name p.
Proof. intros. unfold para_drop. destruct (drop_test name); auto. apply drop_drop. intros; now rewrite orb_diag. Qed.
Lemma data_test_or : forall f g d, data_test (fun x => (f x || g x)%bool) d = (data_test f d || data_test g d)%bool.
Proof. destruct d; reflexivity. Qed.
Lemma drops_or : forall f g c, drops (fun x => (f x || g x)%bool) c = (drops f c || drops g c)%bool.
Proof.
  destruct c as [t|t|t|i a]; auto. cbn. rewrite !data_test_or.
  destruct (data_test f (inline_data i)), (data_test g (inline_data i)), (data_test f (anchor_data a)), (data_test g (anchor_data a)); reflexivity.
Qed.
Lemma drop_shape_canvas : forall p,
  para_drop "Canvas" (para_drop "Shape" p) = para_drop "ShapeAndCanvas" p /\
  para_drop "Shape" (para_drop "Canvas" p) = para_drop "ShapeAndCanvas" p.
Proof.
  intros p. unfold para_drop. cbn. split; apply drop_drop; intros c; unfold d_shape_canvas.
  - apply drops_or.
  - rewrite orb_comm. apply drops_or.
Qed.
Lemma drop_all_three : forall p,
  para_drop "Group" (para_drop "Canvas" (para_drop "Shape" p)) = para_drop "ShapeAndCanvasAndGroup" p /\
  para_drop "Shape" (para_drop "Group" (para_drop "Canvas" p)) = para_drop "ShapeAndCanvasAndGroup" p /\
  para_drop "Canvas" (para_drop "Shape" (para_drop "Group" p)) = para_drop "ShapeAndCanvasAndGroup" p.
Proof.
  intros p. unfold para_drop. cbn. unfold d_shape_canvas_group.
  split; [|split]; (erewrite (drop_drop _ _ (fun c => (_ || _)%bool)) by reflexivity; apply drop_drop; intros c; rewrite !(drops_or (fun d => (d_shape d || d_canvas d)%bool)), drops_or;
    destruct (drops d_shape c), (drops d_canvas c), (drops d_group c); reflexivity).
Qed.

(** DropDrawingOf *)
Lemma flat_map_map_comm : forall A B (f : A -> list B) (g : A -> A) (h : B -> B) l, (forall x, f (g x) = map h (f x)) -> flat_map f (map g l) = map h (flat_map f l).
Proof. intros A B f g h l E. induction l as [|x l IH]; cbn; auto. now rewrite E, IH, map_app. Qed.
Lemma drop_all_paras : forall name l, body_paras (drop_drawing_of name l) = map (para_drop name) (body_paras l).
Proof.
  intros. unfold drop_drawing_of, body_paras. apply flat_map_map_comm. intros [p|t|s]; auto. cbn. unfold table_paras. cbn.
  apply flat_map_map_comm. intros r. cbn. apply flat_map_map_comm. reflexivity.
Qed.
Lemma drop_all_bare : forall name l, bare (drop_drawing_of name l) = bare l.
Proof.
  intros. unfold bare, drop_drawing_of. rewrite map_map. apply map_ext. intros [p|t|s]; auto. cbn. do 2 f_equal. rewrite map_map. apply map_ext. intros r.
  unfold bare_row. cbn. f_equal. rewrite map_map. reflexivity.
Qed.
Lemma map_id_ext : forall A (f : A -> A) l, (forall x, f x = x) -> map f l = l.
Proof. intros A f l E. induction l; cbn; congruence. Qed.
Lemma drop_unknown : forall name l, to_drop name = None -> drop_drawing_of name l = l.
Proof.
  intros name l N. assert (P : forall p, para_drop name p = p) by (intros p; pose proof (para_drop_exact name p) as E; rewrite N in E; exact E).
  unfold drop_drawing_of. apply map_id_ext. intros [p|t|s]; cbn; auto; [now rewrite P|]. f_equal. destruct t. unfold drop_table, set_table_rows. cbn. f_equal.
  apply map_id_ext. intros []. unfold drop_row, set_row_cells. cbn. f_equal. apply map_id_ext. intros []. unfold drop_cell, set_cell_paras. cbn. f_equal. now apply map_id_ext.
Qed.

(** ** String after DropNilPicture *)
Section NP.
Context `{GoLib}.
Variable w : world.
Lemma showable_string : forall k f dp d p, gdataR_pic d = Some p -> showable w f dp p -> exists s, gdata_string w k f dp d = Ok s.
Proof.
  intros k f dp d p E S. unfold gdata_string. rewrite E. unfold showable in S. unfold pic_name, pic_hash.
  destruct (pic_blip p) as [b|].
  - destruct S as [i [x [t [n [m [-> [N [R [D M]]]]]]]]]. assert (Q : exists nm, match dp with Some n0 => Ok (nonvis_name n0) | None => match pic_nvpic p with Some n0 => Ok (nonvis_name (nvpic_nv n0)) | None => Ok (ablip_embed (picblip_blip b)) end end = Ok nm).
    { destruct dp; [eauto|]. destruct (pic_nvpic p); eauto. }
    destruct Q as [nm ->]. cbn [bind]. unfold file_reg. rewrite N. cbn [bind]. rewrite R, D, M. cbn [bind]. eauto.
  - destruct dp; [cbn; eauto|]. destruct (pic_nvpic p); [cbn; eauto|]. destruct S; congruence.
Qed.
Lemma graphic_pic_some : forall og p, graphic_pic og = Some p -> exists g d, og = Some g /\ graphicR_data g = Some d /\ gdataR_pic d = Some p.
Proof. intros [g|] p E; cbn in E; [|discriminate]. exists g. destruct (graphicR_data g) as [d|]; [|discriminate]. exists d. auto. Qed.
Lemma inline_shown : forall x, graphic_pic (inlineR_graphic x) <> None ->
  (forall p, graphic_pic (inlineR_graphic x) = Some p -> showable w (inlineR_file x) (inlineR_docPr x) p) -> exists s, inline_string w x = Ok s.
Proof.
  intros x R S. destruct (graphic_pic (inlineR_graphic x)) as [p|] eqn:P; [|congruence].
  destruct (graphic_pic_some _ _ P) as [g [d [E1 [E2 E3]]]]. unfold inline_string. rewrite E1, E2. eapply showable_string; eauto.
Qed.
Lemma anchor_shown : forall x, graphic_pic (anchorR_graphic x) <> None ->
  (forall p, graphic_pic (anchorR_graphic x) = Some p -> showable w (anchorR_file x) (anchorR_docPr x) p) -> exists s, anchor_string w x = Ok s.
Proof.
  intros x R S. destruct (graphic_pic (anchorR_graphic x)) as [p|] eqn:P; [|congruence].
  destruct (graphic_pic_some _ _ P) as [g [d [E1 [E2 E3]]]]. unfold anchor_string. rewrite E1, E2. eapply showable_string; eauto.
Qed.
Lemma real_child_string : forall c, real_picture c -> showable_child w c -> exists s, rchild_string w c = Ok s.
Proof.
  intros c R S. destruct c as [t|t|t|[x|] [y|]]; cbn in *; eauto.
  - apply inline_shown; [now apply R|]. intros; now apply S.
  - apply inline_shown; [now apply R|]. intros; now apply S.
  - apply anchor_shown; [now apply R|]. intros; now apply S.
Qed.
Lemma rconcat_some : forall A (f : A -> res string) l, (forall x, In x l -> exists s, f x = Ok s) -> exists s, rconcat f l = Ok s.
Proof.
  induction l as [|x l IH]; intros F; cbn; eauto. destruct (F x) as [s ->]; [now left|]. destruct IH as [t ->]; [intros; apply F; now right|]. cbn. eauto.
Qed.
Lemma nil_picture_string : forall p i d, para_file p = Some i -> nth_error w i = Some d ->
  (forall r c, In (PRun r) (para_children p) -> In c (runR_children r) -> showable_child w c) ->
  exists s, para_string w (para_drop "NilPicture" p) = Ok s.
Proof.
  intros p i d F N S. unfold para_string. apply rconcat_some. destruct p as [[pp ch f]]. cbn in *. subst f.
  intros c I. apply in_map_iff in I. destruct I as [c0 [<- I]]. destruct c0 as [r|id r|r]; cbn; eauto.
  - apply rconcat_some. intros x Ix. apply filter_In in Ix. destruct Ix as [Ix Q]. apply real_child_string; eauto.
    destruct (drops_nil x) eqn:D; [discriminate|]. destruct (drops_nil_real x) as [_ B].
    destruct x as [?|?|?|i0 a0]; try exact Logic.I.
    assert (DN : ~ ~ real_picture (RDraw i0 a0)) by (intros K; specialize (B K); congruence).
    assert (Dec : real_picture (RDraw i0 a0) \/ ~ real_picture (RDraw i0 a0)); [|tauto].
    cbn. clear. assert (E1 : forall x : inline, graphic_pic (inlineR_graphic x) = None \/ graphic_pic (inlineR_graphic x) <> None) by (intros; destruct (graphic_pic (inlineR_graphic x)); [right; discriminate|now left]).
    assert (E2 : forall x : anchor, graphic_pic (anchorR_graphic x) = None \/ graphic_pic (anchorR_graphic x) <> None) by (intros; destruct (graphic_pic (anchorR_graphic x)); [right; discriminate|now left]).
    destruct i0 as [x|], a0 as [y|].
    + destruct (E1 x) as [A|A]; [right; intros [_ [B _]]; exact (B x eq_refl A)|]. destruct (E2 y) as [B|B]; [right; intros [_ [_ C]]; exact (C y eq_refl B)|].
      left. split; [left; discriminate|]. split; intros z [=<-]; auto.
    + destruct (E1 x) as [A|A]; [right; intros [_ [B _]]; exact (B x eq_refl A)|]. left. split; [left; discriminate|]. split; intros z; [intros [=<-]; auto|discriminate].
    + destruct (E2 y) as [B|B]; [right; intros [_ [_ C]]; exact (C y eq_refl B)|]. left. split; [right; discriminate|]. split; intros z; [discriminate|intros [=<-]; auto].
    + right. intros [[A|A] _]; congruence.
  - unfold file_reg. rewrite N. cbn. eauto.
Qed.
End NP.
