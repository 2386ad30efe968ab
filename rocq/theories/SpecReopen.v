(** Histories of calls whose arguments can be written as XML. *)
From Coq Require Import String Ascii List Bool Arith NArith.
From Verif Require Import GoStr Num Lib Types XmlTok Docx Api Rels Pack History SpecLex SpecPack.
Import ListNotations.
Local Open Scope list_scope.
Local Open Scope string_scope.

Definition opt_strings {A : Type} (f : A -> list string) (o : option A) : list string := match o with Some x => f x | None => [] end.
(** the strings a call is given *)
Definition end_strings (x : lend) : list string := [lend_type x; lend_w x; lend_len x].
Definition line_strings (x : aline) : list string :=
  [aline_cap x; aline_cmpd x; aline_algn x] ++ opt_strings (opt_strings (fun c => [c])) (aline_solid x) ++ opt_strings (fun c => [c]) (aline_dash x)
  ++ opt_strings (fun c => [c]) (aline_miter x) ++ opt_strings end_strings (aline_head x) ++ opt_strings end_strings (aline_tail x).
Definition color_strings (x : colors) : list string := [c_top x; c_left x; c_bottom x; c_right x; c_insideH x; c_insideV x].
Definition rop_strings (o : rop) : list string :=
  match o with
  | RColor v | RSize v | RSizeCs v | RUnderline v | RHighlight v => [v]
  | RShade a b c => [a; b; c]
  | RFont a b c d => [a; b; c; d]
  | _ => []
  end.
Definition pop_strings (o : pop) : list string :=
  match o with
  | OText t => [t]
  | OLink t l => [t; l]
  | OShape _ _ _ n b p ln => [n; b; p] ++ opt_strings line_strings ln
  | OJc v | OStyle v | ONumSize v => [v]
  | ONum a b => [a; b]
  | ONumFont a b c d => [a; b; c; d]
  | ORun _ o => rop_strings o
  | _ => []
  end.
Definition call_strings (o : op) : list string :=
  match o with
  | OPara _ _ o | ODetached _ o => pop_strings o
  | OTable _ _ _ _ c | OTwips _ _ _ _ c => opt_strings color_strings c
  | OTableJc _ _ v | ORowJc _ _ _ v => [v]
  | OCellShade _ _ _ _ a b c => [a; b; c]
  | _ => []
  end.

(** calls whose strings consist of XML characters; a package that is parsed has
    no name twice, and numbers that leave room for more *)
Definition roomy (g : reg) : Prop :=
  low_images (media g) /\ forall r n, In r (rels g) -> id_num (rel_id r) n -> (n < 2 ^ 62)%N.
Definition legal_call `{GoLib} (o : op) : Prop :=
  Forall xml_string (call_strings o) /\
  match o with
  | OPara _ _ (ODrawing _ data) | ODetached _ (ODrawing _ data) => forall a b f, lib_imgsize data = Some (a, b, f) -> xml_string f
  | OLoad _ _ => False
  | OParse a => NoDup (map fst a) /\ forall f d, unpack f a = Ok d -> roomy (d_reg d)
  | _ => True
  end.
