(** Specification for documents in memory: the objects that can be reached from
    a document, and the property objects a call writes to. *)
From Coq Require Import String List Bool Arith.
From Verif Require Import GoStr Num Lib Types Docx Api Keep Copy History Alias.
Import ListNotations.
Local Open Scope list_scope.

Definition ptr (o : option nat) : list nat := match o with Some a => [a] | None => [] end.

(** ** All objects that can be reached, once for every way to reach them *)
Definition reach_inl (h : heap) (a : nat) : list nat :=
  a :: match deref as_inl h a with Some (_, e, s) => ptr e ++ ptr s | None => [] end.
Definition reach_anc (h : heap) (a : nat) : list nat :=
  a :: match deref as_anc h a with Some (_, e, s) => ptr e ++ ptr s | None => [] end.
Definition reach_rchild (h : heap) (c : hrchild) : list nat :=
  match c with
  | HDraw i a => flat_map (reach_inl h) (ptr i) ++ flat_map (reach_anc h) (ptr a)
  | _ => []
  end.
Definition reach_run (h : heap) (r : hrun) : list nat :=
  ptr (hr_rpr r) ++ flat_map (reach_rchild h) (hr_children r).
Definition reach_child (h : heap) (c : hchild) : list nat :=
  match c with
  | HRun a => a :: match deref as_run h a with Some r => reach_run h r | None => [] end
  | HLink a => a :: match deref as_link h a with Some (_, r) => reach_run h r | None => [] end
  | HRPr _ => []
  end.
Definition reach_para (h : heap) (a : nat) : list nat :=
  a :: match deref as_para h a with
       | Some p => ptr (hp_ppr p) ++ flat_map (reach_child h) (hp_children p)
       | None => []
       end.
Definition reach_cell (h : heap) (a : nat) : list nat :=
  a :: match deref as_cell h a with
       | Some c => ptr (hc_tc c) ++ flat_map (reach_para h) (hc_paras c)
       | None => []
       end.
Definition reach_row (h : heap) (a : nat) : list nat :=
  a :: match deref as_row h a with
       | Some r => ptr (hw_tr r) ++ flat_map (reach_cell h) (hw_cells r)
       | None => []
       end.
Definition reach_table (h : heap) (a : nat) : list nat :=
  a :: match deref as_table h a with
       | Some t => ptr (ht_tbl t) ++ flat_map (reach_row h) (ht_rows t)
       | None => []
       end.
Definition reach_item (h : heap) (x : hitem) : list nat :=
  match x with
  | HIPara a => reach_para h a
  | HITable a => reach_table h a
  | HISect _ => []
  end.
(** from one document, from all documents *)
Definition reach_doc (h : heap) (l : list hitem) : list nat := flat_map (reach_item h) l.
Definition reach_all (m : mem) : list nat := flat_map (reach_doc (m_heap m)) (m_docs m).
Definition reach_of (m : mem) (d : nat) : list nat :=
  match nth_error (m_docs m) d with Some l => reach_doc (m_heap m) l | None => [] end.

(** ** The objects a formatting call writes to *)
Definition run_of_child (h : heap) (c : hchild) : option hrun :=
  match c with
  | HRun a => deref as_run h a
  | HLink a => option_map snd (deref as_link h a)
  | HRPr _ => None
  end.
Definition written_rop (h : heap) (o : rop) (r : hrun) : list nat :=
  match o with
  | RAddTab | RKeep _ => []
  | RDrawSize k anch _ _ =>
      match nth_error (hr_children r) k with
      | Some c => match draw_ptrs h anch c with Some (e, s) => ptr e ++ ptr s | None => [] end
      | None => []
      end
  | _ => ptr (hr_rpr r)
  end.
Definition written_pop (h : heap) (o : pop) (a : nat) : list nat :=
  match deref as_para h a with
  | None => []
  | Some p =>
      match o with
      | OJc _ | OStyle _ | ONum _ _ | ONumFont _ _ _ _ | ONumSize _ => ptr (hp_ppr p)
      | ORun k ro =>
          match nth_error (hp_children p) k with
          | Some c => match run_of_child h c with Some r => written_rop h ro r | None => [] end
          | None => []
          end
      | _ => []
      end
  end.
Definition written (o : op) (m : mem) : list nat :=
  let h := m_heap m in
  match o with
  | OPara d a o =>
      match nth_error (m_docs m) d with
      | Some l => match h_para h l a with Some b => written_pop h o b | None => [] end
      | None => []
      end
  | OTableJc d i _ =>
      match nth_error (m_docs m) d with
      | Some l => match nth_error l i with
                  | Some (HITable a) => match deref as_table h a with Some t => ptr (ht_tbl t) | None => [] end
                  | _ => []
                  end
      | None => []
      end
  | ORowJc d i r _ =>
      match nth_error (m_docs m) d with
      | Some l => match h_row h l i r with
                  | Some a => match deref as_row h a with Some x => ptr (hw_tr x) | None => [] end
                  | None => []
                  end
      | None => []
      end
  | OCellShade d i r c _ _ _ =>
      match nth_error (m_docs m) d with
      | Some l => match h_cell h l i r c with
                  | Some a => match deref as_cell h a with Some x => ptr (hc_tc x) | None => [] end
                  | None => []
                  end
      | None => []
      end
  | _ => []
  end.

(** [b] is reached in at most one way *)
Definition once (m : mem) (b : nat) : Prop := count_occ Nat.eq_dec (reach_all m) b <= 1.

(** the document whose body a call changes *)
Definition target (o : op) : option nat :=
  match o with
  | ONew | OLoad _ _ | ODetached _ _ | OSplit _ _ | OParse _ => None
  | OPara d _ _ | OAddPara d | OCellPara d _ _ _ | OTable d _ _ _ _ | OTwips d _ _ _ _ | OTableJc d _ _
  | ORowJc d _ _ _ | OCellShade d _ _ _ _ _ _ | OPage d _ | OTemplate d _ | OKeep d _ | ODropAll d _ | OAppend d _ => Some d
  end.

(** the body of a document *)
Definition body (w : world) (d : nat) : option (list item) := option_map d_items (nth_error w d).

(** the run (or the run of the hyperlink) that is the k-th child of a paragraph *)
Definition run_at (w : world) (d : nat) (a : addr) (k : nat) : option run :=
  match body w d with
  | None => None
  | Some l =>
      match get_para l a with
      | None => None
      | Some p => match nth_error (para_children p) k with
                  | Some (PRun r) | Some (PLink _ r) => Some r
                  | _ => None
                  end
      end
  end.
(** the object its RunProperties points to; [None] if there is no such run or
    the pointer is nil *)
Definition run_ptr (m : mem) (d : nat) (a : addr) (k : nat) : option nat :=
  match nth_error (m_docs m) d with
  | None => None
  | Some l =>
      match h_para (m_heap m) l a with
      | None => None
      | Some b =>
          match deref as_para (m_heap m) b with
          | None => None
          | Some p => match nth_error (hp_children p) k with
                      | Some c => match run_of_child (m_heap m) c with Some r => hr_rpr r | None => None end
                      | None => None
                      end
          end
      end
  end.

(** AppendFile and SplitByParagraph *)
Definition copies (o : op) : bool := match o with OAppend _ _ | OSplit _ _ => true | _ => false end.
(** the calls that write through a pointer to properties, an extent or an SpPr *)
Definition formats_run (o : rop) : bool := match o with RAddTab | RKeep _ => false | _ => true end.
Definition formats (o : op) : bool :=
  match o with
  | OPara _ _ (OJc _ | OStyle _ | ONum _ _ | ONumFont _ _ _ _ | ONumSize _) => true
  | OPara _ _ (ORun _ ro) => formats_run ro
  | OTableJc _ _ _ | ORowJc _ _ _ _ | OCellShade _ _ _ _ _ _ _ => true
  | _ => false
  end.
(** a history in which every formatting call writes only to objects that are
    reached in one way when it is made *)
Fixpoint apart `{GoLib} (l : list op) (m : mem) : Prop :=
  match l with
  | [] => True
  | o :: l' =>
      (forall b, In b (written o m) -> once m b) /\
      match hexec o m with
      | Ok m' => apart l' m'
      | Err _ => apart l' m
      | Panic => True
      end
  end.

(** the calls that style the text of a run *)
Definition styles (o : rop) : bool := match o with RAddTab | RKeep _ | RDrawSize _ _ _ _ => false | _ => true end.
(** the run a call on it alone gives *)
Definition after (o : rop) (r : run) : option run := match exec_rop o r with Ok r' => Some r' | _ => None end.
(** the paragraph at an address *)
Definition para_at (w : world) (d : nat) (a : addr) : option para :=
  match body w d with Some l => get_para l a | None => None end.

(** the calls give the same documents, or panic, in memory and on values *)
Definition same_history `{GoLib} (l : list op) (m : mem) (W : world) : Prop :=
  match run_ops l W with
  | Some W' => exists m', h_run_ops l m = Some m' /\ view m' = Some W'
  | None => h_run_ops l m = None
  end.
