(** XML declarations: specification. *)
From Coq Require Import String Ascii List Bool Arith NArith ZArith.
From Verif Require Import GoStr Num Lib Types Docx SpecForm.
Import ListNotations.
Local Open Scope list_scope.
Local Open Scope string_scope.

(** what stands behind the white space in the declaration *)
Definition decl_body (d : string) : Prop := lacks "?>" d /\ forall a t, d = String a t -> ~ white (String a "").

(** two documents that were loaded alike: same body, same relationships and
    media files, same list of other parts *)
Definition same_loaded (x y : docx) : Prop :=
  d_items x = d_items y /\ d_reg x = d_reg y /\ d_ns x = d_ns y /\ t_name (d_tmpl x) = t_name (d_tmpl y) /\ t_list (d_tmpl x) = t_list (d_tmpl y).
