(** Property theorems: the slices given to LoadBodyItems. *)
From Coq Require Import List Arith Lia.
From Verif Require Import Slices SpecSlice SliceFacts.
Import ListNotations.

(** C45, first half: whatever is done to the new document, the caller's slice
    keeps its elements. *)
Theorem C45_elements_kept : forall V (zero : V) spare l h s h' s', valid h s -> sruns zero spare l h s = (h', s') ->
  elems h' s = elems h s.
Proof. exact @callers_elements. Qed.
Print Assumptions C45_elements_kept.

(** The new document holds what is to be expected. *)
Theorem C45_document : forall V (zero : V) spare l h s h' s', valid h s -> sruns zero spare l h s = (h', s') ->
  elems h' s' = contents l (elems h s).
Proof. exact (fun V zero spare l h s h' s' W E => proj1 (proj2 (@sruns_kept V zero spare l h s h' s' W E))). Qed.
Print Assumptions C45_document.

(** Second half, for slices without spare capacity: no array changes. *)
Theorem C45_array_kept_partial : forall V (zero : V) spare l h s h' s', valid h s -> sl_len s = sl_cap s ->
  sruns zero spare l h s = (h', s') -> forall j, j < length h -> nth j h' [] = nth j h [].
Proof. exact @no_spare. Qed.
Print Assumptions C45_array_kept_partial.

(** In general: the elements added before elements are dropped for the first
    time overwrite the array behind the end of the caller's slice, as far as
    its capacity reaches; nothing else changes. *)
Theorem C45_overwritten : forall V (zero : V) spare l h s h' s', valid h s -> sruns zero spare l h s = (h', s') ->
  forall j, j < length h -> nth j h' [] =
    if Nat.eqb j (sl_arr s) then overwritten (nth j h []) (sl_off s + sl_len s) (firstn (sl_cap s - sl_len s) (added l)) else nth j h [].
Proof. exact (fun V zero spare l h s h' s' W E => proj2 (proj2 (@sruns_kept V zero spare l h s h' s' W E))). Qed.
Print Assumptions C45_overwritten.

(** The second half is false: a document is made from the first element of the
    items of another document (two items); adding a paragraph to it replaces
    the second item of the other document. *)
Theorem C45_refuted : exists (h : arrays nat) src, valid h src /\ elems h src = [1; 2] /\
  forall spare, let '(h', s') := sruns 0 spare [SAppend [3]] h (reslice 1 src) in
    elems h' s' = [1; 3] /\ elems h' src = [1; 3].
Proof. exact source_overwritten. Qed.
Print Assumptions C45_refuted.

(** Two documents made from one slice with spare capacity: the paragraph added
    to the first is replaced by the one added to the second. *)
Theorem C45_two_documents_refuted : exists (h : arrays nat) s, valid h s /\ elems h s = [1] /\
  forall spare, let '(h1, s1) := sruns 0 spare [SAppend [3]] h s in let '(h2, s2) := sruns 0 spare [SAppend [4]] h1 s in
    elems h1 s1 = [1; 3] /\ elems h2 s1 = [1; 4] /\ elems h2 s2 = [1; 4].
Proof. exact sibling_overwritten. Qed.
Print Assumptions C45_two_documents_refuted.

(** a slice with an offset and spare capacity, written to and given a new array *)
Example C45_ex : valid [[7; 1; 2; 0; 9]] (mk_slice 0 1 2 3) /\
  sruns 0 (fun _ c => c) [SAppend [5]; SAppend [6]; SKeep (fun v => v <? 6); SAppend [8]] [[7; 1; 2; 0; 9]] (mk_slice 0 1 2 3)
  = ([[7; 1; 2; 5; 9]; [1; 2; 5; 6; 0; 0; 0]; [1; 2; 5; 8]], mk_slice 2 0 4 4).
Proof. split; [split; [|split]; simpl; lia|reflexivity]. Qed.
Example C45_ex2 : valid [[7; 1; 2]] (mk_slice 0 1 2 2) /\ sl_len (mk_slice 0 1 2 2) = sl_cap (mk_slice 0 1 2 2).
Proof. split; [split; [|split]; simpl; lia|reflexivity]. Qed.
