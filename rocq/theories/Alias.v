(** Documents as objects in memory. The other files treat the elements of a
    document as values; Go keeps pointers to them, and AppendFile and
    SplitByParagraph copy only part of what they point to. Here every object
    that some function of the package writes to after it was made has an
    address: property objects (structrun.go:202, structpara.go:31,
    structtable.go:108, 466, 584), the extents and shape properties of drawings
    (apidrawing.go:124-133, 236-245), and the objects that hold lists (runs,
    hyperlinks, paragraphs, cells, rows, tables).

    What is kept as a value: texts, tabs, breaks, a RunProperties that is itself
    the child of a paragraph, table grids, sections and the inside of shapes and
    canvases. No function of the package writes to these after making them;
    paragraphs inside text boxes are not receivers of calls here. The slices of
    children are values too: copymedia makes new ones (structdoc.go:296, 310,
    336, 340, 344); Slices.v treats arrays shared by slices. *)
From Coq Require Import String Ascii List Bool Arith NArith ZArith.
From Verif Require Import GoStr Num Lib Types Docx Api Keep Copy Pack History.
Import ListNotations.
Local Open Scope list_scope.
Local Open Scope string_scope.

(** Run.Children (see Types.rchild); a drawing points to its inline or anchor *)
Inductive hrchild :=
| HText (t : text) | HTab (t : tab) | HBr (type : string)
| HDraw (i a : option nat).
(** structrun.go:32-45; the pointer is RunProperties *)
Record hrun := mk_hrun { hr_space : string; hr_rpr : option nat; hr_instr : string; hr_children : list hrchild }.
(** Paragraph.Children: pointers to runs and hyperlinks *)
Inductive hchild := HRun (a : nat) | HLink (a : nat) | HRPr (q : rpr).
(** structpara.go:171-183 *)
Record hpara := mk_hpara { hp_ppr : option nat; hp_children : list hchild; hp_file : option nat }.
(** structtable.go:535-541, 402-411, 30-37 *)
Record hcell := mk_hcell { hc_tc : option nat; hc_paras : list nat; hc_file : option nat }.
Record hrow := mk_hrow { hw_tr : option nat; hw_cells : list nat }.
Record htable := mk_htable { ht_tbl : option nat; ht_grid : option (list (option i64)); ht_rows : list nat }.

Inductive obj :=
| ORpr (q : rpr) | OPpr (q : ppr) | OTbl (q : tblpr) | OTr (q : trpr) | OTc (q : tcpr)
| OExt (e : xy) | OSp (s : picsp)
(** structdrawing.go:117-133, 1174-1199: the struct, its Extent and the SpPr of
    its picture. The extent and the SpPr inside [x] mean nothing. *)
| OInl (x : inline) (e s : option nat)
| OAnc (x : anchor) (e s : option nat)
| OHRun (r : hrun)
(** structlink.go:30-34: the run is part of the hyperlink *)
| OHLink (id : string) (r : hrun)
| OHPara (p : hpara) | OHCell (c : hcell) | OHRow (r : hrow) | OHTable (t : htable).

(** Body.Items *)
Inductive hitem := HIPara (a : nat) | HITable (a : nat) | HISect (s : sect).

(** memory: an address is a position *)
Definition heap := list obj.
(** All documents: their items, and the rest of them ([d_items] is [[]] in [m_w]). *)
Record mem := mk_mem { m_heap : heap; m_docs : list (list hitem); m_w : world }.

Definition as_rpr o := match o with ORpr q => Some q | _ => None end.
Definition as_ppr o := match o with OPpr q => Some q | _ => None end.
Definition as_tbl o := match o with OTbl q => Some q | _ => None end.
Definition as_tr o := match o with OTr q => Some q | _ => None end.
Definition as_tc o := match o with OTc q => Some q | _ => None end.
Definition as_ext o := match o with OExt q => Some q | _ => None end.
Definition as_sp o := match o with OSp q => Some q | _ => None end.
Definition as_inl o := match o with OInl x e s => Some (x, e, s) | _ => None end.
Definition as_anc o := match o with OAnc x e s => Some (x, e, s) | _ => None end.
Definition as_run o := match o with OHRun r => Some r | _ => None end.
Definition as_link o := match o with OHLink id r => Some (id, r) | _ => None end.
Definition as_para o := match o with OHPara p => Some p | _ => None end.
Definition as_cell o := match o with OHCell c => Some c | _ => None end.
Definition as_row o := match o with OHRow r => Some r | _ => None end.
Definition as_table o := match o with OHTable t => Some t | _ => None end.

(** reading through a pointer; [None]: no such object *)
Definition deref {A} (as_ : obj -> option A) (h : heap) (a : nat) : option A :=
  match nth_error h a with Some o => as_ o | None => None end.
(** reading through a pointer that may be nil *)
Definition maybe {A} (v : nat -> option A) (o : option nat) : option (option A) :=
  match o with None => Some None | Some a => match v a with Some x => Some (Some x) | None => None end end.
Fixpoint all_some {A B} (f : A -> option B) (l : list A) : option (list B) :=
  match l with
  | [] => Some []
  | x :: l' =>
      match f x, all_some f l' with
      | Some y, Some ys => Some (y :: ys)
      | _, _ => None
      end
  end.

(** ** What a document looks like: the value behind a pointer *)

(** the SpPr of the picture of a drawing, if there is one *)
Definition graphic_sp (g : option graphic) : option picsp :=
  match g with
  | None => None
  | Some g => match graphicR_data g with
              | None => None
              | Some d => match gdataR_pic d with None => None | Some p => pic_sp p end
              end
  end.
Definition put_sp (s : option picsp) (g : graphic) : graphic :=
  match graphicR_data g with
  | None => g
  | Some d => match gdataR_pic d with
              | None => g
              | Some p => set_graphicR_data (Some (set_gdataR_pic (Some (set_pic_sp s p)) d)) g
              end
  end.
Definition put_inl (e : option xy) (s : option picsp) (x : inline) : inline :=
  set_inlineR_graphic (option_map (put_sp s) (inlineR_graphic x)) (set_inlineR_extent e x).
Definition put_anc (e : option xy) (s : option picsp) (x : anchor) : anchor :=
  set_anchorR_graphic (option_map (put_sp s) (anchorR_graphic x)) (set_anchorR_extent e x).

Definition v_inl (h : heap) (a : nat) : option inline :=
  match deref as_inl h a with
  | Some (x, e, s) =>
      match maybe (deref as_ext h) e, maybe (deref as_sp h) s with
      | Some e', Some s' => Some (put_inl e' s' x)
      | _, _ => None
      end
  | None => None
  end.
Definition v_anc (h : heap) (a : nat) : option anchor :=
  match deref as_anc h a with
  | Some (x, e, s) =>
      match maybe (deref as_ext h) e, maybe (deref as_sp h) s with
      | Some e', Some s' => Some (put_anc e' s' x)
      | _, _ => None
      end
  | None => None
  end.
Definition v_rchild (h : heap) (c : hrchild) : option rchild :=
  match c with
  | HText t => Some (RText t)
  | HTab t => Some (RTab t)
  | HBr t => Some (RBr t)
  | HDraw i a =>
      match maybe (v_inl h) i, maybe (v_anc h) a with
      | Some i', Some a' => Some (RDraw i' a')
      | _, _ => None
      end
  end.
Definition v_run (h : heap) (r : hrun) : option run :=
  match maybe (deref as_rpr h) (hr_rpr r), all_some (v_rchild h) (hr_children r) with
  | Some q, Some c => Some (mk_runR (hr_space r) q (hr_instr r) c)
  | _, _ => None
  end.
Definition v_child (h : heap) (c : hchild) : option pchild :=
  match c with
  | HRun a => match deref as_run h a with
              | Some r => option_map PRun (v_run h r)
              | None => None
              end
  | HLink a => match deref as_link h a with
               | Some (id, r) => option_map (PLink id) (v_run h r)
               | None => None
               end
  | HRPr q => Some (PRPr q)
  end.
Definition v_para (h : heap) (a : nat) : option para :=
  match deref as_para h a with
  | Some p =>
      match maybe (deref as_ppr h) (hp_ppr p), all_some (v_child h) (hp_children p) with
      | Some q, Some c => Some (mk_para q c (hp_file p))
      | _, _ => None
      end
  | None => None
  end.
Definition v_cell (h : heap) (a : nat) : option cell :=
  match deref as_cell h a with
  | Some c =>
      match maybe (deref as_tc h) (hc_tc c), all_some (v_para h) (hc_paras c) with
      | Some q, Some l => Some (mk_cell q l (hc_file c))
      | _, _ => None
      end
  | None => None
  end.
Definition v_row (h : heap) (a : nat) : option row :=
  match deref as_row h a with
  | Some r =>
      match maybe (deref as_tr h) (hw_tr r), all_some (v_cell h) (hw_cells r) with
      | Some q, Some l => Some (mk_row q l)
      | _, _ => None
      end
  | None => None
  end.
Definition v_table (h : heap) (a : nat) : option table :=
  match deref as_table h a with
  | Some t =>
      match maybe (deref as_tbl h) (ht_tbl t), all_some (v_row h) (ht_rows t) with
      | Some q, Some l => Some (mk_table q (ht_grid t) l)
      | _, _ => None
      end
  | None => None
  end.
Definition v_item (h : heap) (x : hitem) : option item :=
  match x with
  | HIPara a => option_map IPara (v_para h a)
  | HITable a => option_map ITable (v_table h a)
  | HISect s => Some (ISect s)
  end.
Fixpoint v_docs (h : heap) (ds : list (list hitem)) (w : world) : option world :=
  match ds, w with
  | [], [] => Some []
  | l :: ds', d :: w' =>
      match all_some (v_item h) l, v_docs h ds' w' with
      | Some items, Some w2 => Some (set_d_items items d :: w2)
      | _, _ => None
      end
  | _, _ => None
  end.
Definition view (m : mem) : option world := v_docs (m_heap m) (m_docs m) (m_w m).

(** ** Making objects *)
Definition alloc (o : obj) (h : heap) : heap * nat := (h ++ [o], length h)%list.
Definition upd (h : heap) (a : nat) (o : obj) : heap := set_nth h a o.

(** new objects for a value (a struct literal in Go) *)
Definition al_opt {A} (mk : A -> obj) (o : option A) (h : heap) : heap * option nat :=
  match o with
  | None => (h, None)
  | Some x => let '(h', a) := alloc (mk x) h in (h', Some a)
  end.
Fixpoint al_list {A B} (f : A -> heap -> heap * B) (l : list A) (h : heap) : heap * list B :=
  match l with
  | [] => (h, [])
  | x :: l' => let '(h1, y) := f x h in let '(h2, ys) := al_list f l' h1 in (h2, y :: ys)
  end.
Definition al_maybe {A} (f : A -> heap -> heap * nat) (o : option A) (h : heap) : heap * option nat :=
  match o with
  | None => (h, None)
  | Some x => let '(h', a) := f x h in (h', Some a)
  end.
Definition al_inl (x : inline) (h : heap) : heap * nat :=
  let '(h1, e) := al_opt OExt (inlineR_extent x) h in
  let '(h2, s) := al_opt OSp (graphic_sp (inlineR_graphic x)) h1 in
  alloc (OInl x e s) h2.
Definition al_anc (x : anchor) (h : heap) : heap * nat :=
  let '(h1, e) := al_opt OExt (anchorR_extent x) h in
  let '(h2, s) := al_opt OSp (graphic_sp (anchorR_graphic x)) h1 in
  alloc (OAnc x e s) h2.
Definition al_rchild (c : rchild) (h : heap) : heap * hrchild :=
  match c with
  | RText t => (h, HText t)
  | RTab t => (h, HTab t)
  | RBr t => (h, HBr t)
  | RDraw i a =>
      let '(h1, i') := al_maybe al_inl i h in
      let '(h2, a') := al_maybe al_anc a h1 in
      (h2, HDraw i' a')
  end.
Definition al_run (r : run) (h : heap) : heap * hrun :=
  let '(h1, q) := al_opt ORpr (runR_rpr r) h in
  let '(h2, c) := al_list al_rchild (runR_children r) h1 in
  (h2, mk_hrun (runR_space r) q (runR_instr r) c).
Definition al_child (c : pchild) (h : heap) : heap * hchild :=
  match c with
  | PRun r => let '(h1, r') := al_run r h in let '(h2, a) := alloc (OHRun r') h1 in (h2, HRun a)
  | PLink id r => let '(h1, r') := al_run r h in let '(h2, a) := alloc (OHLink id r') h1 in (h2, HLink a)
  | PRPr q => (h, HRPr q)
  end.
Definition al_para (p : para) (h : heap) : heap * nat :=
  let '(h1, q) := al_opt OPpr (para_ppr p) h in
  let '(h2, c) := al_list al_child (para_children p) h1 in
  alloc (OHPara (mk_hpara q c (para_file p))) h2.
Definition al_cell (c : cell) (h : heap) : heap * nat :=
  let '(h1, q) := al_opt OTc (cell_props c) h in
  let '(h2, l) := al_list al_para (cell_paras c) h1 in
  alloc (OHCell (mk_hcell q l (cell_file c))) h2.
Definition al_row (r : row) (h : heap) : heap * nat :=
  let '(h1, q) := al_opt OTr (row_props r) h in
  let '(h2, l) := al_list al_cell (row_cells r) h1 in
  alloc (OHRow (mk_hrow q l)) h2.
Definition al_table (t : table) (h : heap) : heap * nat :=
  let '(h1, q) := al_opt OTbl (table_props t) h in
  let '(h2, l) := al_list al_row (table_rows t) h1 in
  alloc (OHTable (mk_htable q (table_grid t) l)) h2.
Definition al_item (x : item) (h : heap) : heap * hitem :=
  match x with
  | IPara p => let '(h', a) := al_para p h in (h', HIPara a)
  | ITable t => let '(h', a) := al_table t h in (h', HITable a)
  | ISect s => (h, HISect s)
  end.

(** ** Copying between documents *)
Definition st := (heap * world)%type.
Fixpoint st_list {A B} (f : A -> st -> res (st * B)) (l : list A) (s : st) : res (st * list B) :=
  match l with
  | [] => Ok (s, [])
  | x :: l' =>
      bind (f x s) (fun '(s1, y) =>
      bind (st_list f l' s1) (fun '(s2, ys) => Ok (s2, y :: ys)))
  end.

Section HCopy.
Variable to : nat.

(** structdrawing.go:287-342 WPInline.copymedia. [inln := *r] copies the struct,
    so the Extent and (through [pic := *...Pic]) the SpPr are the same objects
    in the copy. A shape or a canvas is returned as it is. *)
Definition h_copy_inl (a : nat) (s : st) : res (st * option nat) :=
  let '(h, w) := s in
  match deref as_inl h a, v_inl h a with
  | Some (_, e, sp), Some x =>
      bind (copy_graphic to (inlineR_file x) (inlineR_graphic x) w) (fun '(w', r) =>
      match r with
      | CNil => Ok ((h, w'), None)
      | CSame => Ok ((h, w'), Some a)
      | CNew dp g =>
          let '(h', b) := alloc (OInl (set_inlineR_docPr (Some dp) (set_inlineR_graphic (Some g) (set_inlineR_file (Some to) x))) e sp) h in
          Ok ((h', w'), Some b)
      end)
  | _, _ => Panic
  end.
(** structdrawing.go:1374-1432 WPAnchor.copymedia *)
Definition h_copy_anc (a : nat) (s : st) : res (st * option nat) :=
  let '(h, w) := s in
  match deref as_anc h a, v_anc h a with
  | Some (_, e, sp), Some x =>
      bind (copy_graphic to (anchorR_file x) (anchorR_graphic x) w) (fun '(w', r) =>
      match r with
      | CNil => Ok ((h, w'), None)
      | CSame => Ok ((h, w'), Some a)
      | CNew dp g =>
          let '(h', b) := alloc (OAnc (set_anchorR_docPr (Some dp) (set_anchorR_graphic (Some g) (set_anchorR_file (Some to) x))) e sp) h in
          Ok ((h', w'), Some b)
      end)
  | _, _ => Panic
  end.
(** structdrawing.go:92-107, structdoc.go:298-304 *)
Definition h_copy_rchild (c : hrchild) (s : st) : res (st * hrchild) :=
  match c with
  | HDraw (Some i) _ => bind (h_copy_inl i s) (fun '(s', b) => Ok (s', HDraw b None))
  | HDraw None (Some a) => bind (h_copy_anc a s) (fun '(s', b) => Ok (s', HDraw None b))
  | HDraw None None => Ok (s, HDraw None None)
  | c => Ok (s, c)
  end.
(** structdoc.go:294-306 Run.copymedia: [nr := *r], so RunProperties is the
    same object in the copy *)
Definition h_copy_run (r : hrun) (s : st) : res (st * hrun) :=
  bind (st_list h_copy_rchild (hr_children r) s) (fun '(s', c) =>
  Ok (s', mk_hrun (hr_space r) (hr_rpr r) (hr_instr r) c)).
(** structdoc.go:312-330; [f] is the file of the paragraph *)
Definition h_copy_child (f : option nat) (c : hchild) (s : st) : res (st * option hchild) :=
  match c with
  | HRun a =>
      match deref as_run (fst s) a with
      | None => Panic
      | Some r =>
          bind (h_copy_run r s) (fun '((h, w), r') =>
          let '(h', b) := alloc (OHRun r') h in Ok ((h', w), Some (HRun b)))
      end
  | HLink a =>
      match deref as_link (fst s) a with
      | None => Panic
      | Some (id, r) =>
          bind (file_reg (snd s) f) (fun src =>
          match refer_target src id with
          | Panic => Panic
          | Err _ => Ok (s, None)
          | Ok tgt =>
              bind (on_file (snd s) (Some to) (add_link_relation tgt)) (fun '(rid, w1) =>
              bind (h_copy_run r (fst s, w1)) (fun '((h, w), r') =>
              let '(h', b) := alloc (OHLink rid r') h in Ok ((h', w), Some (HLink b))))
          end)
      end
  | HRPr q => Ok (s, Some (HRPr q))
  end.
(** structdoc.go:308-332 Paragraph.copymedia: [np = *p] keeps Properties *)
Definition h_copy_para (a : nat) (s : st) : res (st * nat) :=
  match deref as_para (fst s) a with
  | None => Panic
  | Some p =>
      bind (st_list (h_copy_child (hp_file p)) (hp_children p) s) (fun '((h, w), c) =>
      let '(h', b) := alloc (OHPara (mk_hpara (hp_ppr p) (somes c) (Some to))) h in Ok ((h', w), b))
  end.
(** structdoc.go:334-355 Table.copymedia: the properties of the table, its rows
    and cells are kept *)
Definition h_copy_cell (a : nat) (s : st) : res (st * nat) :=
  match deref as_cell (fst s) a with
  | None => Panic
  | Some c =>
      bind (st_list h_copy_para (hc_paras c) s) (fun '((h, w), l) =>
      let '(h', b) := alloc (OHCell (mk_hcell (hc_tc c) l (Some to))) h in Ok ((h', w), b))
  end.
Definition h_copy_row (a : nat) (s : st) : res (st * nat) :=
  match deref as_row (fst s) a with
  | None => Panic
  | Some r =>
      bind (st_list h_copy_cell (hw_cells r) s) (fun '((h, w), l) =>
      let '(h', b) := alloc (OHRow (mk_hrow (hw_tr r) l)) h in Ok ((h', w), b))
  end.
Definition h_copy_table (a : nat) (s : st) : res (st * nat) :=
  match deref as_table (fst s) a with
  | None => Panic
  | Some t =>
      bind (st_list h_copy_row (ht_rows t) s) (fun '((h, w), l) =>
      let '(h', b) := alloc (OHTable (mk_htable (ht_tbl t) (ht_grid t) l)) h in Ok ((h', w), b))
  end.
(** structdoc.go:266-282, 360-369 *)
Definition h_copy_item (x : hitem) (s : st) : res (st * hitem) :=
  match x with
  | HIPara a => bind (h_copy_para a s) (fun '(s', b) => Ok (s', HIPara b))
  | HITable a => bind (h_copy_table a s) (fun '(s', b) => Ok (s', HITable b))
  | HISect q => Ok (s, HISect q)
  end.
(** appending to the body of the destination *)
Definition h_copy_push (x : hitem) (m : mem) : res mem :=
  bind (h_copy_item x (m_heap m, m_w m)) (fun '((h, w), y) =>
  match nth_error (m_docs m) to with
  | None => Panic
  | Some l => Ok (mk_mem h (set_nth (m_docs m) to (l ++ [y])%list) w)
  end).
Fixpoint h_append_items (l : list hitem) (m : mem) : res mem :=
  match l with
  | [] => Ok m
  | x :: l' => bind (h_copy_push x m) (fun m' => h_append_items l' m')
  end.
End HCopy.

(** structdoc.go:358-371 AppendFile *)
Definition h_append_file (to from : nat) (m : mem) : res mem :=
  match nth_error (m_docs m) from with
  | None => Panic
  | Some l => h_append_items to l m
  end.

(** structdoc.go:218-292 SplitByParagraph (see Copy.split_items) *)
Definition h_new_part (t : tmpl) (m : mem) : mem :=
  mk_mem (m_heap m) (m_docs m ++ [[]])%list (new_part t (m_w m)).
Fixpoint h_split_items (t : tmpl) (sep : para -> res bool) (l : list hitem) (cur : nat) (fresh : bool) (m : mem) : res mem :=
  match l with
  | [] => Ok m
  | x :: l' =>
      let next cur m := bind (h_copy_push cur x m) (fun m' => h_split_items t sep l' cur false m') in
      match x with
      | HIPara a =>
          match v_para (m_heap m) a with
          | None => Panic
          | Some p =>
              bind (sep p) (fun b =>
              if (b && negb fresh)%bool then next (length (m_docs m)) (h_new_part t m) else next cur m)
          end
      | _ => next cur m
      end
  end.
Definition h_split (i : nat) (sep : para -> res bool) (m : mem) : res mem :=
  match nth_error (m_docs m) i, nth_error (m_w m) i with
  | Some l, Some d =>
      match l with
      | [] => Ok m
      | _ => h_split_items (d_tmpl d) sep l (length (m_docs m)) true (h_new_part (d_tmpl d) m)
      end
  | _, _ => Panic
  end.

(** ** Calls (see History.v for the same calls on values) *)

(** the address of a paragraph, of a cell, of a row *)
Definition h_row (h : heap) (l : list hitem) (i r : nat) : option nat :=
  match nth_error l i with
  | Some (HITable a) => match deref as_table h a with
                        | Some t => nth_error (ht_rows t) r
                        | None => None
                        end
  | _ => None
  end.
Definition h_cell (h : heap) (l : list hitem) (i r c : nat) : option nat :=
  match h_row h l i r with
  | Some b => match deref as_row h b with
              | Some x => nth_error (hw_cells x) c
              | None => None
              end
  | None => None
  end.
Definition h_para (h : heap) (l : list hitem) (p : addr) : option nat :=
  match p with
  | ABody i => match nth_error l i with Some (HIPara a) => Some a | _ => None end
  | ACell i r c k =>
      match h_cell h l i r c with
      | Some b => match deref as_cell h b with
                  | Some x => nth_error (hc_paras x) k
                  | None => None
                  end
      | None => None
      end
  end.

(** apirun.go: what a formatting call does to the RunProperties *)
Definition rop_set (o : rop) : option (rpr -> rpr) :=
  match o with
  | RColor v => Some (set_rpr_color (Some v))
  | RSize v => Some (set_rpr_size (Some v))
  | RSizeCs v => Some (set_rpr_sizeCs (Some v))
  | RShade v c f => Some (set_rpr_shade (Some (mk_shade v c f "" "")))
  | RSpacing n => Some (set_rpr_spacing (Some (set_spacing_line n spacing0)))
  | RBold => Some (set_rpr_bold true)
  | RItalic => Some (set_rpr_italic true)
  | RUnderline v => Some (set_rpr_underline (Some v))
  | RHighlight v => Some (set_rpr_highlight (Some v))
  | RStrike b => Some (set_rpr_strike (Some (if b then "true" else "false")))
  | RFont a e h t => Some (set_rpr_fonts (Some (mk_rfonts a e h t)))
  | RAddTab | RKeep _ | RDrawSize _ _ _ _ => None
  end.
(** apipara.go:51-57, 74-129: what a formatting call does to the properties *)
Definition pop_set (o : pop) : option (ppr -> ppr) :=
  match o with
  | OJc v => Some (set_ppr_jc (Some v))
  | OStyle v => Some (set_ppr_style (Some v))
  | ONum n l => Some (fun q => set_ppr_num (Some (mk_numpr (Some n) (Some l))) (set_ppr_rpr (Some (the_rpr q)) q))
  | ONumFont a e h t => Some (fun q => set_ppr_rpr (Some (set_rpr_fonts (Some (mk_rfonts a e h t)) (the_rpr q))) q)
  | ONumSize v => Some (fun q => set_ppr_rpr (Some (set_rpr_size (Some v) (the_rpr q))) q)
  | _ => None
  end.

Definition hrchild_type (x : hrchild) : string :=
  match x with HText _ => "*docx.Text" | HTab _ => "*docx.Tab" | HBr _ => "*docx.BarterRabbet" | HDraw _ _ => "*docx.Drawing" end.
Definition hchild_type (x : hchild) : string :=
  match x with HRun _ => "*docx.Run" | HLink _ => "*docx.Hyperlink" | HRPr _ => "*docx.RunProperties" end.
Definition hitem_type (x : hitem) : string :=
  match x with HIPara _ => "*docx.Paragraph" | HITable _ => "*docx.Table" | HISect _ => "*docx.SectPr" end.

(** apidrawing.go:124-133, 236-245: writing the extent and the SpPr *)
Definition h_resize (ew eh : i64) (e s : option nat) (h : heap) : heap :=
  let h1 := match e with Some a => upd h a (OExt (mk_xy ew eh)) | None => h end in
  match s with
  | Some a => match deref as_sp h1 a with
              | Some q => upd h1 a (OSp (set_picsp_xfrm (set_xfrm_ext (mk_xy ew eh) (picsp_xfrm q)) q))
              | None => h1
              end
  | None => h1
  end.

(** the pointers to the extent and the SpPr of a drawing *)
Definition draw_ptrs (h : heap) (anch : bool) (c : hrchild) : option (option nat * option nat) :=
  match c with
  | HDraw i a =>
      if anch
      then match a with
           | Some x => option_map (fun '(_, e, s) => (e, s)) (deref as_anc h x)
           | None => None
           end
      else match i with
           | Some x => option_map (fun '(_, e, s) => (e, s)) (deref as_inl h x)
           | None => None
           end
  | _ => None
  end.

(** A call on a run. The first result is the memory, the second the new
    contents of the run object itself. *)
Definition h_rop (o : rop) (r : hrun) (h : heap) : res (heap * hrun) :=
  match o with
  | RAddTab => Ok (h, mk_hrun (hr_space r) (hr_rpr r) (hr_instr r) (hr_children r ++ [HTab tab0])%list)
  | RKeep names => Ok (h, mk_hrun (hr_space r) (hr_rpr r) (hr_instr r) (keep_named hrchild_type names (hr_children r)))
  | RDrawSize k anch ew eh =>
      match nth_error (hr_children r) k with
      | None => Panic
      | Some c => match draw_ptrs h anch c with
                  | None => Panic
                  | Some (e, s) => Ok (h_resize ew eh e s h, r)
                  end
      end
  | o =>
      match rop_set o, hr_rpr r with
      | Some f, Some a => match deref as_rpr h a with
                          | Some q => Ok (upd h a (ORpr (f q)), r)
                          | None => Panic
                          end
      | _, _ => Panic
      end
  end.

(** the drawings of a run that are kept *)
Definition h_keeps (h : heap) (t : rchild -> bool) (c : hrchild) : bool :=
  match v_rchild h c with Some v => negb (t v) | None => true end.
Definition h_drop_run (t : rchild -> bool) (r : hrun) (h : heap) : hrun :=
  mk_hrun (hr_space r) (hr_rpr r) (hr_instr r) (filter (h_keeps h t) (hr_children r)).
Fixpoint h_drop_children (t : rchild -> bool) (l : list hchild) (h : heap) : heap :=
  match l with
  | [] => h
  | HRun a :: l' =>
      h_drop_children t l' match deref as_run h a with
                           | Some r => upd h a (OHRun (h_drop_run t r h))
                           | None => h
                           end
  | _ :: l' => h_drop_children t l' h
  end.
Definition h_drop_para (name : string) (a : nat) (h : heap) : heap :=
  match drop_test name, deref as_para h a with
  | Some t, Some p => h_drop_children t (hp_children p) h
  | _, _ => h
  end.

(** A call on the paragraph at [a]. The calls that add content make a new run
    from the arguments and the document; on an empty paragraph the model of
    Api.v gives just that run. *)
Definition h_pop `{GoLib} (o : pop) (a : nat) (s : st) : res st :=
  let '(h, w) := s in
  match deref as_para h a with
  | None => Panic
  | Some p =>
      match o with
      | OText _ | OTab | OBreak | OLink _ _ | ODrawing _ _ | OShape _ _ _ _ _ _ _ =>
          bind (exec_pop o w (mk_para None [] (hp_file p))) (fun '(w', q) =>
          let '(h1, c) := al_list al_child (para_children q) h in
          Ok (upd h1 a (OHPara (mk_hpara (hp_ppr p) (hp_children p ++ c)%list (hp_file p))), w'))
      | OKeepP names =>
          Ok (upd h a (OHPara (mk_hpara (hp_ppr p) (keep_named hchild_type names (hp_children p)) (hp_file p))), w)
      | ODropP name => Ok (h_drop_para name a h, w)
      | ORun k ro =>
          match nth_error (hp_children p) k with
          | Some (HRun b) =>
              match deref as_run h b with
              | None => Panic
              | Some r => bind (h_rop ro r h) (fun '(h', r') => Ok (upd h' b (OHRun r'), w))
              end
          | Some (HLink b) =>
              match deref as_link h b with
              | None => Panic
              | Some (id, r) => bind (h_rop ro r h) (fun '(h', r') => Ok (upd h' b (OHLink id r'), w))
              end
          | _ => Panic
          end
      | OJc _ | OStyle _ | ONum _ _ | ONumFont _ _ _ _ | ONumSize _ =>
          match pop_set o with
          | None => Panic
          | Some f =>
              match hp_ppr p with
              | None =>
                  let '(h1, b) := alloc (OPpr (f ppr0)) h in
                  Ok (upd h1 a (OHPara (mk_hpara (Some b) (hp_children p) (hp_file p))), w)
              | Some b =>
                  match deref as_ppr h b with
                  | None => Panic
                  | Some q => Ok (upd h b (OPpr (f q)), w)
                  end
              end
          end
      end
  end.

(** A call that appends items to the body, or changes only the rest of the
    document: what it does on a document without items. *)
Definition h_grow (d : nat) (k : docx -> res docx) (m : mem) : res mem :=
  match nth_error (m_docs m) d, nth_error (m_w m) d with
  | Some l, Some x =>
      bind (k x) (fun x' =>
      let '(h, l') := al_list al_item (d_items x') (m_heap m) in
      Ok (mk_mem h (set_nth (m_docs m) d (l ++ l')%list) (set_nth (m_w m) d (set_d_items [] x'))))
  | _, _ => Panic
  end.
(** a new document with new elements *)
Definition h_new (x : docx) (m : mem) : mem :=
  let '(h, l) := al_list al_item (d_items x) (m_heap m) in
  mk_mem h (m_docs m ++ [l])%list (m_w m ++ [set_d_items [] x])%list.

(** structdoc.go:131-154 *)
Definition h_drop_paras (name : string) (l : list nat) (h : heap) : heap :=
  fold_left (fun h a => h_drop_para name a h) l h.
Definition h_drop_cells (name : string) (l : list nat) (h : heap) : heap :=
  fold_left (fun h a => match deref as_cell h a with Some c => h_drop_paras name (hc_paras c) h | None => h end) l h.
Definition h_drop_rows (name : string) (l : list nat) (h : heap) : heap :=
  fold_left (fun h a => match deref as_row h a with Some r => h_drop_cells name (hw_cells r) h | None => h end) l h.
Definition h_drop_item (name : string) (x : hitem) (h : heap) : heap :=
  match x with
  | HIPara a => h_drop_para name a h
  | HITable a => match deref as_table h a with Some t => h_drop_rows name (ht_rows t) h | None => h end
  | HISect _ => h
  end.
Definition h_drop_items (name : string) (l : list hitem) (h : heap) : heap :=
  fold_left (fun h x => h_drop_item name x h) l h.

(** writing through a pointer to properties; nil panics *)
Definition h_set {A} (as_ : obj -> option A) (mk : A -> obj) (p : option nat) (f : A -> A) (m : mem) : res mem :=
  match p with
  | None => Panic
  | Some a => match deref as_ (m_heap m) a with
              | None => Panic
              | Some q => Ok (mk_mem (upd (m_heap m) a (mk (f q))) (m_docs m) (m_w m))
              end
  end.

(** one call (History.exec) *)
Definition hexec `{GoLib} (o : op) (m : mem) : res mem :=
  let h := m_heap m in
  match o with
  | ONew => Ok (h_new new_docx m)
  | OLoad l ms => Ok (h_new (load_body_items l ms) m)
  | OPara d a o =>
      match nth_error (m_docs m) d with
      | None => Panic
      | Some l =>
          match h_para h l a with
          | None => Panic
          | Some b => bind (h_pop o b (h, m_w m)) (fun '(h', w') => Ok (mk_mem h' (m_docs m) w'))
          end
      end
  | ODetached p o => bind (exec_pop o (m_w m) p) (fun '(w', _) => Ok (mk_mem h (m_docs m) w'))
  | OAddPara d => h_grow d (fun x => Ok (add_paragraph d x)) m
  | OCellPara d i r c =>
      match nth_error (m_docs m) d with
      | None => Panic
      | Some l =>
          match h_cell h l i r c with
          | None => Panic
          | Some b =>
              match deref as_cell h b with
              | None => Panic
              | Some x =>
                  let '(h1, a) := al_para (mk_para None [] (hc_file x)) h in
                  Ok (mk_mem (upd h1 b (OHCell (mk_hcell (hc_tc x) (hc_paras x ++ [a])%list (hc_file x)))) (m_docs m) (m_w m))
              end
          end
      end
  | OTable d r c width col => h_grow d (fun x => bind (add_table d r c width col x) (fun '(x', _) => Ok x')) m
  | OTwips d rh cw width col => h_grow d (fun x => Ok (fst (add_table_twips d rh cw width col x))) m
  | OTableJc d i v =>
      match nth_error (m_docs m) d with
      | None => Panic
      | Some l =>
          match nth_error l i with
          | Some (HITable a) =>
              match deref as_table h a with
              | None => Panic
              | Some t => h_set as_tbl OTbl (ht_tbl t) (set_tblpr_jc (Some v)) m
              end
          | _ => Panic
          end
      end
  | ORowJc d i r v =>
      match nth_error (m_docs m) d with
      | None => Panic
      | Some l =>
          match h_row h l i r with
          | None => Panic
          | Some a =>
              match deref as_row h a with
              | None => Panic
              | Some y => h_set as_tr OTr (hw_tr y) (set_trpr_jc (Some v)) m
              end
          end
      end
  | OCellShade d i r c v color fill =>
      match nth_error (m_docs m) d with
      | None => Panic
      | Some l =>
          match h_cell h l i r c with
          | None => Panic
          | Some a =>
              match deref as_cell h a with
              | None => Panic
              | Some y => h_set as_tc OTc (hc_tc y) (set_tcpr_shade (Some (mk_shade v color fill "" ""))) m
              end
          end
      end
  | OPage d a3 => h_grow d (fun x => Ok ((if a3 then with_a3 else with_a4) x)) m
  | OTemplate d t => h_grow d (fun x => Ok (use_template t x)) m
  | OKeep d names =>
      match nth_error (m_docs m) d with
      | None => Panic
      | Some l => Ok (mk_mem h (set_nth (m_docs m) d (keep_named hitem_type names l)) (m_w m))
      end
  | ODropAll d name =>
      match nth_error (m_docs m) d with
      | None => Panic
      | Some l => Ok (mk_mem (h_drop_items name l h) (m_docs m) (m_w m))
      end
  | OAppend d from => match nth_error (m_docs m) d with None => Panic | Some _ => h_append_file d from m end
  | OSplit d sep => h_split d sep m
  | OParse a => bind (unpack (length (m_docs m)) a) (fun d => Ok (h_new d m))
  end.

(** a history (History.run_ops) *)
Fixpoint h_run_ops `{GoLib} (l : list op) (m : mem) : option mem :=
  match l with
  | [] => Some m
  | o :: l' =>
      match hexec o m with
      | Ok m' => h_run_ops l' m'
      | Err _ => h_run_ops l' m
      | Panic => None
      end
  end.
Definition mem0 : mem := mk_mem [] [] [].
