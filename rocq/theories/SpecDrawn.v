(** Specification: shapes, canvases and groups, in a file and in a document. *)
From Coq Require Import String List.
From Verif Require Import GoStr Num Types XmlTok Docx SpecApi.
Import ListNotations.
Local Open Scope list_scope.
Local Open Scope string_scope.

(** the elements of shapes, canvases and groups *)
Definition drawn_tags : list qname := [("wps", "wsp"); ("wpc", "wpc"); ("wpg", "wgp")].
(** one of them begins somewhere among the tokens *)
Definition drawn_in (ts : list token) : Prop := exists q a, In (TStart q a) ts /\ In q drawn_tags.
(** the graphic data of a drawing is one of them, or has one of them *)
Definition drawn (d : gdata) : Prop := has_shape d \/ has_canvas d \/ has_group d.
(** a run, or a hyperlink, of the body or of a table of the body has such a drawing *)
Definition run_drawn (l : list item) : Prop :=
  exists p r c, In p (body_paras l) /\ In (PRun r) (para_children p) /\ In c (runR_children r) /\ holds drawn c.
Definition link_drawn (l : list item) : Prop :=
  exists p id r c, In p (body_paras l) /\ In (PLink id r) (para_children p) /\ In c (runR_children r) /\ holds drawn c.
(** no hyperlink has a drawing of any kind *)
Definition links_plain (l : list item) : Prop :=
  forall p id r c, In p (body_paras l) -> In (PLink id r) (para_children p) -> In c (runR_children r) -> is_drawing c = false.
