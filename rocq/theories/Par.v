(** Goroutines adding shapes, links and pictures to paragraphs of one document
    (apishape.go:29-31, 86-88, apilink.go:28-30, apidrawing.go:38-41, 141-144,
    image.go:29-33, media.go:47-50, link.go:39-68, id.go:24-31). *)
From Coq Require Import String List Bool Arith NArith.
From Verif Require Import GoStr Lib Types Docx.
Import ListNotations.
Local Open Scope string_scope.
Local Open Scope list_scope.

(** A call as far as it touches the document: AddInlineShape and AddAnchorShape
    with their name (apishape.go:29, 86); AddInlineDrawing and AddAnchorDrawing
    after the size and format of the picture are known (apidrawing.go:34-37,
    137-140 touch nothing); AddLink (apilink.go:28). What the calls do to their own
    paragraph is left out: the goroutines work on different paragraphs. *)
Inductive drawing_call := WShape (name : string) | WPicture (format data : string).
Inductive call := KDraw (w : drawing_call) | KLink (link : string).
(** the name passed to IncreaseID: apishape.go:31, 88, apidrawing.go:39, 142 *)
Definition id_name (w : drawing_call) : string := match w with WShape nm => nm | WPicture _ _ => TUPIAN end.

(** What a finished call got: the number for the drawing id, the number of
    IncreaseID, the number in the picture's file name, the number in the
    relationship id. *)
Inductive outcome :=
| OShape (name : string) (doc n : N)
| OLink (link : string) (r : N)
| OPicture (format data : string) (doc n img r : N).

(** a relationship that is being made *)
Inductive making := MLink (link : string) | MPicture (format data : string) (doc n img : N).

(** Where a goroutine is. *)
Inductive place :=
| Free
| HasDoc (w : drawing_call) (doc : N)                          (** docID is incremented *)
| Locked (w : drawing_call) (doc : N)                          (** id.go:25 *)
| IdRead (w : drawing_call) (doc n : N)                        (** id.go:26 *)
| IdAdded (w : drawing_call) (doc n : N)                       (** id.go:27 *)
| IdStored (w : drawing_call) (doc n : N)                      (** id.go:28 *)
| Numbered (format data : string) (doc n : N)                  (** apidrawing.go:41, 144 is next *)
| HasImg (format data : string) (doc n img : N)                (** image.go:30 is done *)
| HasLen (format data : string) (doc n img : N) (k : nat)      (** len(f.media) is read, media.go:48 *)
| Indexed (format data : string) (doc n img : N)               (** media.go:48 is done *)
| MediaRead (format data : string) (doc n img : N) (l : list mediaT) (** f.media is read, media.go:49 *)
| MediaDone (format data : string) (doc n img : N)             (** media.go:49 is done *)
| HasRid (m : making) (r : N)                                  (** rID is incremented, link.go:41, 58 *)
| RelsRead (m : making) (r : N) (l : list rel).                (** the slice is read, link.go:47, 63 *)

(** a goroutine: its calls still to make, where it is, what its finished calls got *)
Record job := mk_job { j_todo : list call; j_at : place; j_out : list outcome }.
(** the mutex of slowIDs, the document and the goroutines *)
Record pstate := mk_pstate { p_locked : bool; p_reg : reg; p_jobs : list job }.

(** image.go:30: the file name of a picture *)
Definition picture_name (format : string) (img : N) : string := ("image" ++ itoa_u img ++ "." ++ format)%string.
(** link.go:40-45, 57-61: the relationship, and what the call gets *)
Definition new_relation (m : making) (r : N) : rel :=
  match m with
  | MLink l => mk_rel ("rId" ++ itoa_u r)%string REL_HYPERLINK l REL_TARGETMODE
  | MPicture f _ _ _ img => mk_rel ("rId" ++ itoa_u r)%string REL_IMAGE ("media/" ++ picture_name f img)%string ""
  end.
Definition made (m : making) (r : N) : outcome :=
  match m with MLink l => OLink l r | MPicture f d doc n img => OPicture f d doc n img r end.

(** One step of one goroutine, [None] when it has nothing to do or waits for the
    mutex. Each step reads or writes one shared variable. Memory is sequentially
    consistent; a program in which two goroutines touch the same slice has a data
    race, and for it the real executions can be worse than these. *)
Definition jstep (locked : bool) (g : reg) (j : job) : option (bool * reg * job) :=
  let go p := mk_job (j_todo j) p (j_out j) in
  match j_at j with
  | Free =>
      match j_todo j with
      | [] => None
      | KDraw w :: t => let d := uadd1 (docid g) in Some (locked, set_docid d g, mk_job t (HasDoc w d) (j_out j))
      | KLink l :: t => let r := uadd1 (rid g) in Some (locked, set_rid r g, mk_job t (HasRid (MLink l) r) (j_out j))
      end
  | HasDoc w d => if locked then None else Some (true, g, go (Locked w d))
  | Locked w d => Some (locked, g, go (IdRead w d (match mget (id_name w) (slow g) with Some v => v | None => 0%N end)))
  | IdRead w d n => Some (locked, g, go (IdAdded w d (uadd1 n)))
  | IdAdded w d n => Some (locked, set_slow (mset (id_name w) n (slow g)) g, go (IdStored w d n))
  | IdStored (WShape nm) d n => Some (false, g, mk_job (j_todo j) Free (j_out j ++ [OShape nm d n]))
  | IdStored (WPicture f x) d n => Some (false, g, go (Numbered f x d n))
  | Numbered f x d n => let i := uadd1 (imgid g) in Some (locked, set_imgid i g, go (HasImg f x d n i))
  | HasImg f x d n i => Some (locked, g, go (HasLen f x d n i (length (media g))))
  | HasLen f x d n i k => Some (locked, set_media (media g) (mset (picture_name f i) k (midx g)) g, go (Indexed f x d n i))
  | Indexed f x d n i => Some (locked, g, go (MediaRead f x d n i (media g)))
  | MediaRead f x d n i l => Some (locked, set_media (l ++ [(picture_name f i, x)]) (midx g) g, go (MediaDone f x d n i))
  | MediaDone f x d n i => let r := uadd1 (rid g) in Some (locked, set_rid r g, go (HasRid (MPicture f x d n i) r))
  | HasRid m r => Some (locked, g, go (RelsRead m r (rels g)))
  | RelsRead m r l => Some (locked, set_rels (l ++ [new_relation m r]) g, mk_job (j_todo j) Free (j_out j ++ [made m r]))
  end.
Definition pstep (i : nat) (s : pstate) : option pstate :=
  match nth_error (p_jobs s) i with
  | None => None
  | Some j =>
      match jstep (p_locked s) (p_reg s) j with
      | None => None
      | Some (l, g, j') => Some (mk_pstate l g (set_nth (p_jobs s) i j'))
      end
  end.
(** as for IncreaseID alone (Conc.v): the schedule names who runs next *)
Fixpoint prun (sched : list nat) (s : pstate) : pstate :=
  match sched with
  | [] => s
  | i :: l => prun l (match pstep i s with Some s' => s' | None => s end)
  end.
