(** Specification: documents that stay as they are when they are saved and
    loaded again. *)
From Coq Require Import List ZArith.
From Verif Require Import Num Types Reload.
Import ListNotations.

(** the flags of the look of a table *)
Definition look_flags (x : look) : list i64 :=
  [look_firstRow x; look_lastRow x; look_firstCol x; look_lastCol x; look_noHBand x; look_noVBand x].
Definition item_look (x : item) : option look :=
  match x with
  | ITable t => match table_props t with Some p => tblpr_look p | None => None end
  | _ => None
  end.
(** all look flags of the tables of a body *)
Definition body_flags (l : list item) : list i64 :=
  flat_map (fun x => match item_look x with Some k => look_flags k | None => [] end) l.
Definition digit_flag (v : i64) : Prop := (0 <= iv v <= 9)%Z.

(** the same item but for the flags of its look, which are changed by [reload_look] *)
Definition with_look (k : look) (x : item) : item :=
  match x with
  | ITable t =>
      match table_props t with
      | Some p => ITable (mk_table (Some (mk_tblpr (tblpr_pos p) (tblpr_style p) (tblpr_width p) (tblpr_jc p) (tblpr_borders p) (Some k))) (table_grid t) (table_rows t))
      | None => x
      end
  | _ => x
  end.
Definition reflag_item (x : item) : item := match item_look x with Some k => with_look (reload_look k) x | None => x end.
