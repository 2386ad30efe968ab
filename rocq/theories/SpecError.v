(** Vocabulary: which calls return an error. *)
From Coq Require Import String Ascii List Bool Arith NArith ZArith.
From Verif Require Import GoStr Num Lib Types XmlTok Docx Api Pack History SpecApi SpecPack.
Import ListNotations.
Local Open Scope list_scope.
Local Open Scope string_scope.

(** the package made of this entry alone cannot be opened *)
Definition refused `{GoLib} (w : world) (e : entry) : Prop := exists err, parse [e] w = Err err.
(** AddInlineDrawing or AddAnchorDrawing with data that is no picture *)
Definition no_picture `{GoLib} (o : pop) : Prop := match o with ODrawing _ data => lib_imgsize data = None | _ => False end.
Definition fails `{GoLib} (o : op) (w : world) : Prop :=
  match o with
  | OPara d a o => (exists x p, nth_error w d = Some x /\ get_para (d_items x) a = Some p) /\ no_picture o
  | ODetached _ o => no_picture o
  | OParse a => exists e, In e a /\ refused w e
  | _ => False
  end.
(** Conditions on the call: the rule of SplitByParagraph gives true, false or
    panics; the package has no entry twice. *)
Definition decent (o : op) : Prop :=
  match o with
  | OSplit _ sep => forall p e, sep p <> Err e
  | OParse a => NoDup (map fst a)
  | _ => True
  end.

(** the value of the last attribute with that local name, "" if there is none *)
Definition given (n : string) (a : list attr) (v : string) : Prop :=
  (exists a1 x a2, a = (a1 ++ x :: a2)%list /\ snd (fst x) = n /\ snd x = v /\ forall y, In y a2 -> snd (fst y) <> n) \/
  (v = "" /\ forall y, In y a -> snd (fst y) <> n).
(** an id that the loader takes: rId and a number below 2^64 *)
Definition numbered (a : list attr) : Prop := exists v n, given "Id" a v /\ id_num v n.
(** a part that Parse looks at *)
Definition looked_at (name : string) : Prop :=
  name = "word/_rels/document.xml.rels" \/ name = "word/document.xml" \/ exists x, name = "word/media/" ++ x.
