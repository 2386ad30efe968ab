(** Properties of the editing API. *)
From Coq Require Import String Ascii List Bool Arith NArith ZArith.
From Verif Require Import GoStr Num Lib Types Docx Text Api Keep Copy History SpecApi SpecEdit ApiFacts HistFacts HistFacts2 DrawIds EditFacts NewFacts.
Import ListNotations.
Local Open Scope list_scope.
Local Open Scope string_scope.

(** a library instance for the examples: every string that starts with "P" is
    a picture of 400 by 300 *)
Definition ex_lib : GoLib := {| lib_float := fun _ => None; lib_md5 := fun s => s;
  lib_imgsize := fun s => match s with String "P" _ => Some (i64_of 400, i64_of 300, "png") | _ => None end |}.
Definition ex_para : para := mk_para None [PRun (api_run [RText (mk_text "" "a")])] (Some 0).
Definition ex_world : world := [mk_docx [IPara ex_para] empty_reg no_tmpl true].
(** a history with a link, two pictures, a table and an append of the document to another one *)
Definition ex_ops : list op :=
  [OAddPara 0; OPara 0 (ABody 0) (OText "x"); OPara 0 (ABody 0) (OLink "t" "http://e"); OTable 0 (i64_of 2) (i64_of 2) (i64_of 0) None;
   OAddPara 0; OPara 0 (ABody 2) (ODrawing false "P1"); OPara 0 (ABody 2) (ODrawing true "P2"); OPara 0 (ABody 0) (OJc "center")].
Definition ex_end : world := match @run_ops ex_lib ex_ops [new_docx] with Some w => w | None => [] end.
Example ex_ran : @run_ops ex_lib ex_ops [new_docx] = Some ex_end /\ length (match ex_end with [d] => rels (d_reg d) | _ => [] end) = 6.
Proof. vm_compute. auto. Qed.

(** C01: what AddText adds is what String shows. *)
Theorem C01_add_text : forall (L : GoLib) w t p s, para_string w p = Ok s -> para_string w (add_text t p) = Ok (s ++ t).
Proof. exact @add_text_string. Qed.
Print Assumptions C01_add_text.
Example C01_ex : @para_string ex_lib ex_world ex_para = Ok "a" /\
  @para_string ex_lib ex_world (add_text (String "009" (String "010" "<b>")) ex_para) = Ok ("a" ++ String "009" (String "010" "<b>")).
Proof. vm_compute. auto. Qed.

(** C02: the run AddText appends. *)
Theorem C02_add_text_structure : forall t p, exists r,
  para_children (add_text t p) = (para_children p ++ [PRun r])%list /\
  para_ppr (add_text t p) = para_ppr p /\ para_file (add_text t p) = para_file p /\
  (forall c, In c (runR_children r) ->
     match c with
     | RText x => text_text x <> "" /\ count "009" (text_text x) = 0 /\ count "010" (text_text x) = 0
     | RTab _ | RBr _ => True
     | RDraw _ _ => False
     end) /\
  length (filter is_tab (runR_children r)) = count "009" t /\
  length (filter is_break (runR_children r)) = count "010" t.
Proof. exact add_text_structure. Qed.
Print Assumptions C02_add_text_structure.
Example C02_ex : para_children (add_text ("x" ++ String "009" (String "009" ("y" ++ String "010" ""))) ex_para) =
  (para_children ex_para ++ [PRun (api_run [RText (mk_text "" "x"); RTab tab0; RTab tab0; RText (mk_text "" "y"); RBr ""])])%list.
Proof. vm_compute. reflexivity. Qed.

(** C03: relationship ids stay unique, for documents made by New and by
    LoadBodyItems, whatever is done to any document of the world. *)
Theorem C03_ids_unique : forall (L : GoLib) w0 d0 l w d, made d0 ->
  run_ops l (w0 ++ [d0])%list = Some w -> nth_error w (length w0) = Some d ->
  (N.of_nat (length (rels (d_reg d))) < two63)%N -> NoDup (map rel_id (rels (d_reg d))).
Proof. exact @made_ids_unique. Qed.
Print Assumptions C03_ids_unique.
Example C03_ex : map (fun d => map rel_id (rels (d_reg d))) ex_end = [["rId1"; "rId2"; "rId3"; "rId4"; "rId5"; "rId6"]].
Proof. vm_compute. reflexivity. Qed.

(** C04: a hyperlink keeps resolving to its link. [w] is the world when AddLink
    is called on the paragraph at [a] of document [j], which belongs to the
    document under consideration; [w2] any later world. *)
Theorem C04_link_keeps : forall (L : GoLib) w0 d0 l1 w j a t link w1 x p l2 w2 d2, made d0 ->
  run_ops l1 (w0 ++ [d0])%list = Some w ->
  nth_error w j = Some x -> get_para (d_items x) a = Some p -> para_file p = Some (length w0) ->
  exec (OPara j a (OLink t link)) w = Ok w1 -> run_ops l2 w1 = Some w2 -> nth_error w2 (length w0) = Some d2 ->
  (N.of_nat (length (rels (d_reg d2))) < two63)%N ->
  exists x1 id r, nth_error w1 j = Some x1 /\
    get_para (d_items x1) a = Some (mk_para (para_ppr p) (para_children p ++ [PLink id r])%list (para_file p)) /\
    runR_instr r = t /\ refer_target (d_reg d2) id = Ok link.
Proof. exact @made_link. Qed.
Print Assumptions C04_link_keeps.
Example C04_ex : exists w w1 p, @run_ops ex_lib [OAddPara 0] [new_docx] = Some w /\
  nth_error w 0 = Some (mk_docx [IPara p] empty_reg no_tmpl true) /\ para_file p = Some 0 /\
  @exec ex_lib (OPara 0 (ABody 0) (OLink "t" "http://e")) w = Ok w1 /\
  @run_ops ex_lib [OPara 0 (ABody 0) (OLink "u" "http://f")] w1 <> None.
Proof. do 3 eexists. repeat split; try (vm_compute; reflexivity). vm_compute. discriminate. Qed.

(** C05: a picture keeps its bytes. *)
Theorem C05_picture_keeps : forall (L : GoLib) w0 l1 w j a anch data w1 x p l2 w2 d2,
  run_ops l1 (w0 ++ [new_docx])%list = Some w ->
  nth_error w j = Some x -> get_para (d_items x) a = Some p -> para_file p = Some (length w0) ->
  exec (OPara j a (ODrawing anch data)) w = Ok w1 -> run_ops l2 w1 = Some w2 -> nth_error w2 (length w0) = Some d2 ->
  (N.of_nat (length (rels (d_reg d2))) < two63)%N ->
  exists x1 r c pc embed name, nth_error w1 j = Some x1 /\
    get_para (d_items x1) a = Some (mk_para (para_ppr p) (para_children p ++ [PRun r])%list (para_file p)) /\
    runR_children r = [c] /\ drawing_pics c = [pc] /\ pic_embed pc = Some embed /\
    refer_target (d_reg d2) embed = Ok ("media/" ++ name) /\
    media_of (d_reg d2) name = Ok (Some (name, data)).
Proof. exact @new_picture. Qed.
Print Assumptions C05_picture_keeps.
Example C05_ex : exists w w1, @run_ops ex_lib [OAddPara 0] [new_docx] = Some w /\
  @exec ex_lib (OPara 0 (ABody 0) (ODrawing false "Pic")) w = Ok w1 /\
  @run_ops ex_lib [OPara 0 (ABody 0) (ODrawing true "Pic2")] w1 <> None.
Proof. do 2 eexists. repeat split; try (vm_compute; reflexivity). vm_compute. discriminate. Qed.

(** C08: a rejected picture changes nothing; [drawing_call] gives the state
    left behind also when the call fails. *)
Theorem C08_rejected_picture : forall (L : GoLib) anch data w p, lib_imgsize data = None ->
  exists e, drawing_call anch data w p = (w, p, Err e).
Proof. exact @rejected. Qed.
Print Assumptions C08_rejected_picture.
Theorem C08_error_is_rejection : forall (L : GoLib) anch data w p w' p' e, drawing_call anch data w p = (w', p', Err e) ->
  lib_imgsize data = None /\ w' = w /\ p' = p.
Proof. exact @rejected_only. Qed.
Print Assumptions C08_error_is_rejection.
Example C08_ex : @lib_imgsize ex_lib "no picture" = None /\
  exists e, @drawing_call ex_lib true "no picture" ex_world ex_para = (ex_world, ex_para, Err e).
Proof. split; [reflexivity|]. eexists. vm_compute. reflexivity. Qed.

(** C11: drawing ids are unique. *)
Theorem C11_drawing_ids : forall (L : GoLib) w0 l w d,
  run_ops l (w0 ++ [new_docx])%list = Some w -> nth_error w (length w0) = Some d ->
  (forall k, ~ In (OAppend (length w0) k) l) -> (N.of_nat (length l) < two63)%N ->
  NoDup (body_ids (d_items d)).
Proof. exact @drawing_ids_unique. Qed.
Print Assumptions C11_drawing_ids.
Example C11_ex : map (fun d => map iv (body_ids (d_items d))) ex_end = [[1%Z; 2%Z]] /\ (forall k, ~ In (OAppend 0 k) ex_ops).
Proof. split; [vm_compute; reflexivity|]. intros k [H|[H|[H|[H|[H|[H|[H|[H|[]]]]]]]]]; discriminate H. Qed.

(** C12: the grid of a table. *)
Theorem C12_table : forall i r c width col d d' cc, add_table i r c width col d = Ok (d', cc) ->
  (0 <= iv r)%Z /\ exists t, d_items d' = (d_items d ++ [ITable t])%list /\ d_reg d' = d_reg d /\ d_tmpl d' = d_tmpl d /\
    Z.of_nat (length (table_rows t)) = iv r /\
    forall row, In row (table_rows t) -> Z.of_nat (length (row_cells row)) = iv c /\
      forall x, In x (row_cells row) -> cell_paras x = [] /\ cell_file x = Some i /\
        exists q, cell_props x = Some q /\ option_map wtype_type (tcpr_width q) = Some "auto".
Proof. exact table_grid_ok. Qed.
Print Assumptions C12_table.
Theorem C12_counts : forall i r c width col d,
  ((0 <= iv r)%Z -> (0 <= iv c)%Z -> exists d' cc, add_table i r c width col d = Ok (d', cc)) /\
  ((iv r < 0 \/ (0 < iv r /\ iv c < 0))%Z -> add_table i r c width col d = Panic).
Proof. exact table_counts. Qed.
Print Assumptions C12_counts.
Theorem C12_table_twips : forall i rh cw width col d d' cc, add_table_twips i rh cw width col d = (d', cc) ->
  exists t, d_items d' = (d_items d ++ [ITable t])%list /\ d_reg d' = d_reg d /\ d_tmpl d' = d_tmpl d /\
    length (table_rows t) = length rh /\
    (forall k row h, nth_error (table_rows t) k = Some row -> nth_error rh k = Some h ->
       (exists q, row_props row = Some q /\ option_map trheight_val (trpr_height q) = if Z.ltb 0 (iv h) then Some h else None) /\
       length (row_cells row) = length cw /\
       forall j x, nth_error (row_cells row) j = Some x -> cell_paras x = [] /\ cell_file x = Some i /\
         exists q v, cell_props x = Some q /\ nth_error cw j = Some v /\ tcpr_width q = Some (mk_wtype v "dxa")) /\
    exists g, table_grid t = Some g /\ length g = length cw /\
      forall j v, nth_error cw j = Some v -> nth_error g j = Some (if Z.ltb 0 (iv v) then Some v else None).
Proof. exact twips_grid_ok. Qed.
Print Assumptions C12_table_twips.
Example C12_ex : exists d' cc, add_table 0 (i64_of 2) (i64_of 3) (i64_of 0) None new_docx = Ok (d', cc) /\
  map (fun x => match x with ITable t => map (fun r => length (row_cells r)) (table_rows t) | _ => [] end) (d_items d') = [[3; 3]].
Proof. do 2 eexists. split; vm_compute; reflexivity. Qed.

(** C13: border colours. The second component is the caller's struct afterwards. *)
Theorem C13_table_colors : forall i r c width col d d' cc, add_table i r c width col d = Ok (d', cc) ->
  cc = option_map filled_colors col /\
  exists t, d_items d' = (d_items d ++ [ITable t])%list /\ bordered (filled_colors (or_empty no_colors col)) t.
Proof. exact table_colors. Qed.
Print Assumptions C13_table_colors.
Theorem C13_twips_colors : forall i rh cw width col d d' cc, add_table_twips i rh cw width col d = (d', cc) ->
  cc = option_map filled_colors col /\
  exists t, d_items d' = (d_items d ++ [ITable t])%list /\ bordered (filled_colors (or_empty no_colors col)) t.
Proof. exact twips_colors. Qed.
Print Assumptions C13_twips_colors.
Example C13_ex : exists d', add_table 0 (i64_of 1) (i64_of 1) (i64_of 0) (Some (mk_colors "#ff0000" "" "" "" "" "")) new_docx =
  Ok (d', Some (mk_colors "#ff0000" "#000000" "#000000" "#000000" "#000000" "#000000")).
Proof. eexists. vm_compute. reflexivity. Qed.

(** C14: the text of a table; [txt] is what String gives for the paragraphs shown. *)
Theorem C14_table_string : forall (L : GoLib) w t txt,
  (forall r c p l, In r (table_rows t) -> In c (row_cells r) -> cell_paras c = p :: l -> para_children p <> [] -> para_string w p = Ok (txt p)) ->
  table_string w t = Ok (match table_rows t with
    | [] => ""
    | r0 :: _ => match row_cells r0 with
                 | [] => ""
                 | cs => "| " ++ header_columns (length cs) ++ sconcat (map (row_markdown txt) (table_rows t))
                 end
    end).
Proof. exact @table_markdown. Qed.
Print Assumptions C14_table_string.
Example C14_ex : @table_string ex_lib ex_world (mk_table None None [mk_row None [mk_cell None [ex_para; ex_para] None; mk_cell None [] None]]) =
  Ok ("|  :----: | :----: |" ++ String "010" "| a |        |").
Proof. vm_compute. reflexivity. Qed.

(** C15: KeepElements. *)
Theorem C15_keep : forall names, 
  (forall l, body_keep names l = filter (fun x => listed names (item_type x)) l) /\
  (forall p, para_keep names p = mk_para (para_ppr p) (filter (fun x => listed names (pchild_type x)) (para_children p)) (para_file p)) /\
  (forall r, run_keep names r = mk_runR (runR_space r) (runR_rpr r) (runR_instr r) (filter (fun x => listed names (rchild_type x)) (runR_children r))).
Proof. exact keep_exact. Qed.
Print Assumptions C15_keep.
Theorem C15_keep_twice : forall n1 n2,
  (forall l, body_keep n2 (body_keep n1 l) = filter (fun x => (listed n1 (item_type x) && listed n2 (item_type x))%bool) l) /\
  (forall p, para_children (para_keep n2 (para_keep n1 p)) = filter (fun x => (listed n1 (pchild_type x) && listed n2 (pchild_type x))%bool) (para_children p)) /\
  (forall r, runR_children (run_keep n2 (run_keep n1 r)) = filter (fun x => (listed n1 (rchild_type x) && listed n2 (rchild_type x))%bool) (runR_children r)).
Proof. exact keep_twice. Qed.
Print Assumptions C15_keep_twice.
Example C15_ex : body_keep ["*docx.Table"; "x"] [IPara ex_para; ITable (mk_table None None []); IPara ex_para] = [ITable (mk_table None None [])].
Proof. vm_compute. reflexivity. Qed.

(** C16: the functions that drop drawings from a paragraph, by name. *)
Theorem C16_drop_exact : forall name p,
  match to_drop name with
  | Some F => para_without F p (para_drop name p)
  | None => para_drop name p = p
  end.
Proof. exact para_drop_exact. Qed.
Print Assumptions C16_drop_exact.
Theorem C16_drop_combined : forall p,
  (forall name, para_drop name (para_drop name p) = para_drop name p) /\
  (forall l, Permutation.Permutation l ["Shape"; "Canvas"] -> fold_right para_drop p l = para_drop "ShapeAndCanvas" p) /\
  (forall l, Permutation.Permutation l ["Shape"; "Canvas"; "Group"] -> fold_right para_drop p l = para_drop "ShapeAndCanvasAndGroup" p).
Proof. exact drop_combined. Qed.
Print Assumptions C16_drop_combined.
Definition ex_shape_child : rchild :=
  RDraw (Some (mk_inlineR i0 i0 i0 i0 None None None None (Some (shape_graphic i0 i0 "auto" "rect" None)) None)) None.
Example C16_ex : holds has_shape ex_shape_child /\
  para_children (para_drop "Shape" (mk_para None [PRun (api_run [ex_shape_child; RTab tab0])] None)) = [PRun (api_run [RTab tab0])].
Proof. split; [|vm_compute; reflexivity]. left. do 3 eexists. repeat split. discriminate. Qed.

(** C17: DropDrawingOf. *)
Theorem C17_drop_all : forall name l,
  body_paras (drop_drawing_of name l) = map (para_drop name) (body_paras l) /\ bare (drop_drawing_of name l) = bare l /\
  (to_drop name = None -> drop_drawing_of name l = l).
Proof. exact drop_all. Qed.
Print Assumptions C17_drop_all.
Example C17_ex : to_drop "shape" = None /\
  map para_children (body_paras (drop_drawing_of "Shape" [ITable (mk_table None None [mk_row None [mk_cell None [mk_para None [PRun (api_run [ex_shape_child])] None] None]])])) = [[PRun (api_run [])]].
Proof. split; vm_compute; reflexivity. Qed.

(** C18: DropNilPicture. *)
Theorem C18_nil_picture : forall p, para_without (fun c => ~ real_picture c) p (para_drop "NilPicture" p).
Proof. exact (para_drop_exact "NilPicture"). Qed.
Print Assumptions C18_nil_picture.
Theorem C18_string_after : forall (L : GoLib) w p i d, para_file p = Some i -> nth_error w i = Some d ->
  (forall r c, In (PRun r) (para_children p) -> In c (runR_children r) -> showable_child w c) ->
  exists s, para_string w (para_drop "NilPicture" p) = Ok s.
Proof. exact @nil_picture_string. Qed.
Print Assumptions C18_string_after.
Definition ex_pic_child (b : option picblip) : rchild := RDraw (Some (mk_inlineR i0 i0 i0 i0 None None (Some (mk_nonvis (i64_of 1) "n")) None
   (Some (mk_graphicR "" (Some (mk_gdataR "" (Some (mk_pic "" None b None)) None None None)))) (Some 0))) None.
Example C18_ex : ~ real_picture ex_shape_child /\ real_picture (ex_pic_child None) /\ showable_child ex_world (ex_pic_child None) /\
  @para_string ex_lib ex_world (para_drop "NilPicture" (mk_para None [PRun (api_run [ex_shape_child; ex_pic_child None; RDraw None None])] (Some 0))) <> Panic.
Proof.
  split; [|split; [|split]].
  - intros [_ [H _]]. apply (H _ eq_refl). reflexivity.
  - repeat split; try discriminate; [left; discriminate|]. intros x [= <-]. discriminate.
  - split; [|discriminate]. intros x p [= <-] [= <-]. left. discriminate.
  - vm_compute. discriminate.
Qed.

(** C26: lookups of relationships. *)
Theorem C26_refer_target : forall g id,
  (forall t, refer_target g id = Ok t <-> exists r, first_rel (rels g) id r /\ rel_target r = t) /\
  (refer_target g id = Err ERR_REFID <-> ~ In id (map rel_id (rels g))) /\ refer_target g id <> Panic.
Proof. exact refer_target_spec. Qed.
Print Assumptions C26_refer_target.
Theorem C26_refer_id : forall g t,
  (forall id, refer_id g t = Ok id <-> exists r, first_target (rels g) t r /\ rel_id r = id) /\
  (refer_id g t = Err ERR_REFID <-> ~ In t (map rel_target (rels g))) /\ refer_id g t <> Panic.
Proof. exact refer_id_spec. Qed.
Print Assumptions C26_refer_id.
Theorem C26_inverse : forall g t id, NoDup (map rel_id (rels g)) -> refer_id g t = Ok id -> refer_target g id = Ok t.
Proof. exact (fun g => refer_inverse (rels g)). Qed.
Print Assumptions C26_inverse.
Example C26_ex : refer_target empty_reg "rId2" = Ok "theme/theme1.xml" /\ refer_id empty_reg "theme/theme1.xml" = Ok "rId2" /\ refer_target empty_reg "rId9" = Err ERR_REFID.
Proof. vm_compute. auto. Qed.

(** C27: lookups of media in every reachable document. *)
Theorem C27_media : forall (L : GoLib) w0 d0 l w d n, made d0 ->
  run_ops l (w0 ++ [d0])%list = Some w -> nth_error w (length w0) = Some d ->
  match media_of (d_reg d) n with
  | Ok None => ~ In n (map fst (media (d_reg d)))
  | Ok (Some m) => last_media (media (d_reg d)) n m
  | _ => False
  end.
Proof. exact @made_media. Qed.
Print Assumptions C27_media.
Theorem C27_media_kept : forall (L : GoLib) w0 d0 l w d,
  run_ops l (w0 ++ [d0])%list = Some w -> nth_error w (length w0) = Some d ->
  exists more, media (d_reg d) = (media (d_reg d0) ++ more)%list.
Proof. exact @made_media_grows. Qed.
Print Assumptions C27_media_kept.
Example C27_ex : map (fun d => media_of (d_reg d) "image1.png") ex_end = [Ok (Some ("image1.png", "P1"))] /\
  media_of (d_reg (load_body_items [] [("a", "1"); ("a", "2")])) "a" = Ok (Some ("a", "2")).
Proof. vm_compute. auto. Qed.

(** C28: RangeRelationships. The callback gets a copy of each relationship
    (the first component of its result is what it left there) and a state of
    its own. *)
Theorem C28_range : forall S (iter : rel -> S -> rel * S * option string) g s,
  snd (range_relationships iter g s) = g /\
  (forall s', fst (range_relationships iter g s) = (s', None) <-> all_calls iter (rels g) s = Some s') /\
  (forall s' e, fst (range_relationships iter g s) = (s', Some e) <->
    exists a r b s1 r', rels g = (a ++ r :: b)%list /\ all_calls iter a s = Some s1 /\ iter r s1 = (r', s', Some e)).
Proof. exact range_spec. Qed.
Print Assumptions C28_range.
Example C28_ex : fst (range_relationships (fun r n => (mk_rel "" "" "" "", n + 1, if String.eqb (rel_id r) "rId2" then Some "stop" else None)) empty_reg 0) = (2, Some "stop").
Proof. vm_compute. reflexivity. Qed.

(** C42: run formatting. *)
Theorem C42_setter : forall o f v r, run_setter o = Some (f, v) ->
  match runR_rpr r with
  | None => exec_rop o r = Panic
  | Some q => exists q', exec_rop o r = Ok (mk_runR (runR_space r) (Some q') (runR_instr r) (runR_children r)) /\
      rget f q' = v /\ forall g, g <> f -> rget g q' = rget g q
  end.
Proof. exact run_setter_sets. Qed.
Print Assumptions C42_setter.
Theorem C42_last_wins : forall o1 o2 f v1 v2 r, run_setter o1 = Some (f, v1) -> run_setter o2 = Some (f, v2) ->
  bind (exec_rop o1 r) (exec_rop o2) = exec_rop o2 r.
Proof. exact run_setter_last. Qed.
Print Assumptions C42_last_wins.
Theorem C42_commute : forall o1 o2 f1 f2 v1 v2 r, run_setter o1 = Some (f1, v1) -> run_setter o2 = Some (f2, v2) -> f1 <> f2 ->
  bind (exec_rop o1 r) (exec_rop o2) = bind (exec_rop o2 r) (exec_rop o1).
Proof. exact run_setter_commute. Qed.
Print Assumptions C42_commute.
Example C42_ex : run_setter (RColor "red") = Some (FColor, VStr (Some "red")) /\
  exec_rop (RColor "red") (mk_runR "" (Some (set_rpr_bold true rpr0)) "" []) = Ok (mk_runR "" (Some (set_rpr_bold true (set_rpr_color (Some "red") rpr0))) "" []).
Proof. vm_compute. auto. Qed.

(** C43: paragraph formatting. *)
Theorem C43_setter : forall (L : GoLib) o f v w p, para_setter o = Some (f, v) ->
  exists p', exec_pop o w p = Ok (w, p') /\ pget f p' = v /\ (forall g, g <> f -> pget g p' = pget g p) /\
    para_children p' = para_children p /\ para_file p' = para_file p.
Proof. exact @para_setter_sets. Qed.
Print Assumptions C43_setter.
Theorem C43_last_wins : forall (L : GoLib) o1 o2 f v1 v2 w p, para_setter o1 = Some (f, v1) -> para_setter o2 = Some (f, v2) ->
  bind (exec_pop o1 w p) (fun '(w', p') => exec_pop o2 w' p') = exec_pop o2 w p.
Proof. exact @para_setter_last. Qed.
Print Assumptions C43_last_wins.
Example C43_ex : para_setter (ONumSize "20") = Some (PMark FSize, PVal (VStr (Some "20"))) /\
  pget (PMark FSize) ex_para = PVal (VStr None).
Proof. vm_compute. auto. Qed.

(** C46: where the calls put things. *)
Theorem C46_append_one : forall (L : GoLib) o d k w w', appends o = Some (d, k) -> exec o w = Ok w' ->
  exists x x' y, nth_error w d = Some x /\ nth_error w' d = Some x' /\ d_items x' = (d_items x ++ [y])%list /\ kind_of y = k /\
    d_reg x' = d_reg x /\ d_tmpl x' = d_tmpl x /\ length w' = length w /\ forall j, j <> d -> nth_error w' j = nth_error w j.
Proof. exact @appends_one. Qed.
Print Assumptions C46_append_one.
Theorem C46_inside : forall (L : GoLib) d a o w w', exec (OPara d a o) w = Ok w' ->
  exists x x' p p', nth_error w d = Some x /\ nth_error w' d = Some x' /\
    get_para (d_items x) a = Some p /\ get_para (d_items x') a = Some p' /\
    bare (d_items x') = bare (d_items x) /\
    (forall b, b <> a -> get_para (d_items x') b = get_para (d_items x) b) /\
    (forall j, j <> d -> option_map d_items (nth_error w' j) = option_map d_items (nth_error w j)) /\
    (adds o = true -> exists c, p' = mk_para (para_ppr p) (para_children p ++ [c])%list (para_file p)).
Proof. exact @inside_one. Qed.
Print Assumptions C46_inside.
Example C46_ex : appends (OTable 0 (i64_of 1) (i64_of 1) (i64_of 0) None) = Some (0, KTable) /\
  exists w', @exec ex_lib (OTable 0 (i64_of 1) (i64_of 1) (i64_of 0) None) ex_world = Ok w' /\
  exists w'', @exec ex_lib (OPara 0 (ABody 0) (OText "t")) w' = Ok w''.
Proof. split; [reflexivity|]. eexists. split; [vm_compute; reflexivity|]. eexists. vm_compute. reflexivity. Qed.

(** C47: Size. *)
Theorem C47_inline_size : forall w h x,
  unsized_inline (inline_size w h x) = unsized_inline x /\
  inlineR_extent (inline_size w h x) = match inlineR_extent x with Some _ => Some (mk_xy w h) | None => None end /\
  (forall p, graphic_pic (inlineR_graphic x) = Some p -> exists p', graphic_pic (inlineR_graphic (inline_size w h x)) = Some p' /\
     pic_extent p' = match pic_sp p with Some _ => Some (mk_xy w h) | None => None end).
Proof. exact inline_sized. Qed.
Print Assumptions C47_inline_size.
Theorem C47_anchor_size : forall w h x,
  unsized_anchor (anchor_size w h x) = unsized_anchor x /\
  anchorR_extent (anchor_size w h x) = match anchorR_extent x with Some _ => Some (mk_xy w h) | None => None end /\
  (forall p, graphic_pic (anchorR_graphic x) = Some p -> exists p', graphic_pic (anchorR_graphic (anchor_size w h x)) = Some p' /\
     pic_extent p' = match pic_sp p with Some _ => Some (mk_xy w h) | None => None end).
Proof. exact anchor_sized. Qed.
Print Assumptions C47_anchor_size.
Example C47_ex : let x := pic_inline (i64_of 1) (i64_of 1) "n" "rId4" (i64_of 7) (i64_of 8) in
  inlineR_extent (inline_size (i64_of 1) (i64_of 2) x) = Some (mk_xy (i64_of 1) (i64_of 2)) /\
  option_map pic_extent (graphic_pic (inlineR_graphic (inline_size (i64_of 1) (i64_of 2) x))) = Some (Some (mk_xy (i64_of 1) (i64_of 2))).
Proof. vm_compute. auto. Qed.

(** C48: the text of a paragraph. *)
Theorem C48_para_string : forall (L : GoLib) w p i d, para_file p = Some i -> nth_error w i = Some d -> plain p ->
  para_string w p = Ok (sconcat (map (child_markdown (resolve_in w i)) (para_children p))).
Proof. exact @plain_para_string. Qed.
Print Assumptions C48_para_string.
Example C48_ex : plain (mk_para None [PLink "rId2" (mk_runR "" None "text" []); PRun (api_run [RText (mk_text "" "a"); RTab tab0])] (Some 0)) /\
  @para_string ex_lib ex_world (mk_para None [PLink "rId2" (mk_runR "" None "text" []); PLink "rId8" (mk_runR "" None "x" []); PRun (api_run [RText (mk_text "" "a"); RTab tab0])] (Some 0)) =
  Ok ("[text](theme/theme1.xml)[x](rId8)a" ++ String "009" "").
Proof. split; [|vm_compute; reflexivity]. intros r [H|[H|[]]]; [discriminate|]. injection H as <-. intros c [<-|[<-|[]]]; reflexivity. Qed.
