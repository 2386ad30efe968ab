(** Properties of saving and loading word/document.xml. *)
From Coq Require Import String Ascii List Bool Arith NArith ZArith.
From Verif Require Import GoStr Num Lib Types XmlTok Marshal Unmarshal UnmarshalNum NumprFacts DecFuel Reload RoundTrip2 SpecXml XmlFacts.
Import ListNotations.
Local Open Scope string_scope.
Local Open Scope list_scope.

(** a library instance for the examples *)
Definition ex_lib : GoLib := {| lib_float := fun _ => None; lib_md5 := fun s => s; lib_imgsize := fun _ => None |}.

(** C29: saving word/document.xml and loading it gives the document back up to
    the losses listed in Reload.v. [f] is the document loaded into. *)
Theorem C29_save_load : forall (L : GoLib) (f : option nat) (l : list item),
  parse_document f (toks (m_document l)) = (map (reload_item f) l, SOk).
Proof. exact @parse_marshal. Qed.
Print Assumptions C29_save_load.

Example C29_ex : @parse_document ex_lib (Some 0) (toks (m_document
   [IPara (mk_para (Some (set_ppr_jc (Some "center") ppr0)) [PRun (mk_runR "" (Some (set_rpr_bold true rpr0)) "" [RText (mk_text "preserve" " x "); RTab tab0]);
                            PLink "rId4" (mk_runR "" None "text" [])] None);
    ITable (mk_table None (Some [Some (i64_of 100); None]) [mk_row None [mk_cell None [mk_para None [] None] None]])]))
 = ([IPara (mk_para (Some (set_ppr_jc (Some "center") ppr0)) [PRun (mk_runR "" (Some (set_rpr_bold true rpr0)) "" [RText (mk_text "preserve" " x "); RTab tab0]);
                            PLink "rId4" (mk_runR "" None "text" [])] (Some 0));
    ITable (mk_table None (Some [Some (i64_of 100)]) [mk_row None [mk_cell None [mk_para None [] (Some 0)] (Some 0)]])], SOk).
Proof. vm_compute. reflexivity. Qed.

(** C33: loading terminates: the recursion bounds used in the model are never
    reached, whatever the tokens are. *)
Theorem C33_parse_terminates : forall (L : GoLib) (f : option nat) (ts : list token),
  snd (parse_document f ts) <> SFuel.
Proof. exact @parse_document_fuel. Qed.
Print Assumptions C33_parse_terminates.

(** C31: the full claim "numbering survives" fails: it is always lost. *)
Theorem C31_refuted : exists (l : list item), forall (L : GoLib) f,
  numberings (fst (parse_document f (toks (m_document l)))) <> numberings l.
Proof. exact numbering_lost_witness. Qed.
Print Assumptions C31_refuted.

Theorem C31_numbering_always_lost : forall (L : GoLib) f l,
  Forall (fun n => n = None) (numberings (fst (parse_document f (toks (m_document l))))).
Proof. exact @numbering_always_lost. Qed.
Print Assumptions C31_numbering_always_lost.

(** The numbering properties are written and read back by their own methods;
    what is missing is that the paragraph properties call the reading one. *)
Theorem C31_numbering_alone : forall x k, match m_numpr x with Elem q a c => u_numpr a (ftoks c ++ TEnd q :: TEof :: k) = (x, SOk, TEof :: k) | _ => False end.
Proof. exact numpr_alone. Qed.
Print Assumptions C31_numbering_alone.
Example C31_ex_alone : m_numpr (mk_numpr (Some "3") (Some "0")) =
    Elem (w "numPr") [] [Elem (w "numId") [(w "val", "3")] []; Elem (w "ilvl") [(w "val", "0")] []] /\
  u_numpr [] (ftoks [Elem (w "ilvl") [(w "val", "1")] []; Elem (w "ins") [] [Elem (w "numId") [] []]; Elem (w "numId") [(w "val", "7")] []] ++ [TEnd (w "numPr"); TEof])
  = (mk_numpr (Some "7") (Some "1"), SOk, [TEof]).
Proof. split; reflexivity. Qed.

(** C32: a toggle that is switched off loads and saves as switched on. *)
Theorem C32_refuted : exists (t : tree) (a : list attr), toggled_off a /\
  t = run_doc [Elem (w "rPr") [] [Elem (w "b") a []; Elem (w "i") a []]] /\
  forall (L : GoLib) f, exists items,
    parse_document f (toks t) = (items, SOk) /\
    m_document items = Elem (w "document") doc_attrs [Elem (w "body") [] [Elem (w "p") [] [Elem (w "r") []
        [Elem (w "rPr") [] [Elem (w "b") [] []; Elem (w "i") [] []]]]]].
Proof. exact toggle_witness. Qed.
Print Assumptions C32_refuted.

Theorem C32_toggle_value_ignored : forall (L : GoLib) f a b,
  parse_document f (toks (run_doc [Elem (w "rPr") [] [Elem (w "b") a []; Elem (w "i") b []]])) =
  (run_items f (Some (set_rpr_bold true (set_rpr_italic true rpr0))) [], SOk).
Proof. exact @load_bold. Qed.
Print Assumptions C32_toggle_value_ignored.

(** C35: of the character data of a text element only the last piece is kept. *)
Theorem C35_refuted : exists l, Forall piece l /\ forall (L : GoLib) f,
  forall sp, parse_document f (toks (run_doc [Elem (w "t") [] l])) <> (run_items f None [RText (mk_text sp (chardata l))], SOk).
Proof. exact text_witness. Qed.
Print Assumptions C35_refuted.

Theorem C35_last_piece_kept : forall (L : GoLib) f a l, Forall piece l -> exists sp,
  parse_document f (toks (run_doc [Elem (w "t") a l])) = (run_items f None [RText (mk_text sp (last_chardata "" l))], SOk).
Proof. exact @load_text_ex. Qed.
Print Assumptions C35_last_piece_kept.

(** text that is not divided is loaded completely *)
Theorem C35_undivided_text : forall (L : GoLib) f s,
  parse_document f (toks (run_doc [Elem (w "t") [] [Chr s]])) = (run_items f None [RText (mk_text "" s)], SOk).
Proof. exact @load_text_one. Qed.
Print Assumptions C35_undivided_text.

Example C35_ex : Forall piece [Chr "a"; Cmt; Chr "b"] /\ chardata [Chr "a"; Cmt; Chr "b"] = "ab" /\ last_chardata "" [Chr "a"; Cmt; Chr "b"] = "b".
Proof. split; [|split; reflexivity]. repeat (constructor; [unfold piece; eauto|]). constructor. Qed.

(** C49: loading reports success although everything behind a paragraph is
    missing. (strconv.ParseFloat rejects "false".) *)
Theorem C49_refuted : exists t, forall (L : GoLib) f, lib_float "false" = None ->
  snd (parse_document f (toks t)) = SOk /\ item_names (fst (parse_document f (toks t))) = ["p"] /\ body_names t = ["p"; "p"; "tbl"; "sectPr"].
Proof. exact truncated_witness. Qed.
Print Assumptions C49_refuted.

Example C49_ex : @lib_float ex_lib "false" = None.
Proof. reflexivity. Qed.
