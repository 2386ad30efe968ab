(** Specification of the size of a new picture. *)
From Coq Require Import String List ZArith.
From Verif Require Import GoStr Num Types SpecApi SpecEdit.
Local Open Scope Z_scope.

(** A4 text width in EMU: 5274310; sizes in pixels in, sizes in EMU out *)
Definition fitted (w h : Z) : Z * Z :=
  if 6 * h <? 5 * w then (5274310, 5274310 * h / w) else (2637155, 5274310 * h / w / 2).
Definition sizes (x : xy) : Z * Z := (iv (xy_x x), iv (xy_y x)).

(** the size a drawing has in the text, and the size of the picture in it *)
Definition outer_size (c : rchild) : option (Z * Z) :=
  match c with
  | RDraw (Some x) None => option_map sizes (inlineR_extent x)
  | RDraw None (Some x) => option_map sizes (anchorR_extent x)
  | _ => None
  end.
Definition inner_size (c : rchild) : option (Z * Z) :=
  let g := match c with RDraw (Some x) None => inlineR_graphic x | RDraw None (Some x) => anchorR_graphic x | _ => None end in
  match graphic_pic g with Some p => option_map sizes (pic_extent p) | None => None end.
