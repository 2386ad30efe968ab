(** Specifications for the properties of the XML part. Nothing here uses the
    encoder or the decoder. *)
From Coq Require Import String Ascii List Bool Arith NArith ZArith.
From Verif Require Import GoStr Num Types XmlTok.
Import ListNotations.
Local Open Scope string_scope.
Local Open Scope list_scope.

(** a document whose body has the given content *)
Definition doc_of (body : list tree) : tree := Elem (w "document") [] [Elem (w "body") [] body].

(** a document with one paragraph with one run with the given content *)
Definition run_doc (content : list tree) : tree := doc_of [Elem (w "p") [] [Elem (w "r") [] content]].

(** the loaded form of it: [p] properties, [c] children, [f] the document *)
Definition run_items (f : option nat) (p : option rpr) (c : list rchild) : list item :=
  [IPara (Para (mk_paraR None [PRun (mk_runR "" p "" c)] f))].

(** character data or a comment *)
Definition piece (t : tree) : Prop := t = Cmt \/ exists s, t = Chr s.

(** the character data of a list of pieces *)
Fixpoint chardata (l : list tree) : string :=
  match l with
  | [] => ""
  | Chr s :: l' => s ++ chardata l'
  | _ :: l' => chardata l'
  end.
(** the last character data in a list of pieces, [d] if there is none *)
Fixpoint last_chardata (d : string) (l : list tree) : string :=
  match l with
  | [] => d
  | Chr s :: l' => last_chardata s l'
  | _ :: l' => last_chardata d l'
  end.

(** names of the children of the body *)
Definition body_names (t : tree) : list string :=
  match t with
  | Elem _ _ [Elem _ _ c] => flat_map (fun x => match x with Elem q _ _ => [snd q] | _ => [] end) c
  | _ => []
  end.
(** names the items of a loaded body have in the file *)
Definition item_names (l : list item) : list string :=
  map (fun x => match x with IPara _ => "p" | ITable _ => "tbl" | ISect _ => "sectPr" end) l.

(** numbering properties of the paragraphs of a body, in order *)
Definition numberings (l : list item) : list (option numpr) :=
  flat_map (fun x => match x with
                     | IPara p => [match para_ppr p with Some q => ppr_num q | None => None end]
                     | _ => []
                     end) l.

(** a run property element says that a toggle is off (ECMA-376 ST_OnOff) *)
Definition toggled_off (a : list attr) : Prop :=
  exists v, In (w "val", v) a /\ (v = "0" \/ v = "false" \/ v = "off").
