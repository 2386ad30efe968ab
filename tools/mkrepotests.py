#!/usr/bin/env python3
"""Writes rocq/theories/RepoTests.v: the test cases in /repo/*_test.go, run on
the model. The XML and the expected values are copied from the Go files."""
import re, os
here = os.path.dirname(os.path.dirname(os.path.abspath(__file__)))
d = open('/repo/structdoc_test.go').read()
docs = dict(re.findall(r'const (decoded_doc_\d) = `([^`]*)`', d))
counts = dict(re.findall(r'\{(decoded_doc_\d), (\d+)\}', d))
t = open('/repo/structtext_test.go').read()
x = re.search(r'const xml2merge = `([^`]*)`', t).group(1)
texts = dict(re.findall(r'(\w+text)\s*= `([^`]*)`', t))
lens = re.findall(r'len\(np\.Children\) != (\d+)', t)
md5 = re.search(r'm != "(\w+)"', open('/repo/structrel_test.go').read()).group(1)
q = lambda s: '"' + s.replace('"', '""') + '"'
o = open(os.path.join(here, 'rocq/theories/RepoTests.v'), 'w')
o.write(r'''(** The library's own tests (structdoc_test.go, structtext_test.go,
    structrel_test.go, structtable_test.go, structshape_test.go,
    structdrawing_test.go), run on the model. They compare the model with what
    the authors observe of the code; they are tests, not proofs. Written by
    tools/mkrepotests.py, which copies the XML and the expected values. *)
From Coq Require Import String Ascii List Bool Arith NArith ZArith.
From Verif Require Import GoStr Num Lib Types XmlTok Lex Unmarshal Marshal Rels Docx Api Text Merge Pack History.
Import ListNotations.
Local Open Scope list_scope.
Local Open Scope string_scope.

(** the pictures in testdata: their sizes are those in the headers of the files *)
Definition JPG := "fumiama.JPG".
Definition WEBP := "fumiama2x.webp".
Definition PNG := "fumiamayoko.png".
Definition test_lib : GoLib := {| lib_float := fun _ => None; lib_md5 := fun s => s;
  lib_imgsize := fun s => if String.eqb s JPG then Some (i64_of 1024, i64_of 1536, "jpeg")
                     else if String.eqb s WEBP then Some (i64_of 2048, i64_of 3072, "webp")
                     else if String.eqb s PNG then Some (i64_of 722, i64_of 502, "png") else None |}.

(** ** structdoc_test.go:27-73 TestUnmarshalPlainStructure *)
''')
for n in sorted(docs): o.write(f'Definition {n} : string := {q(docs[n])}.\n')
o.write(r'''Definition loaded (s : string) : list item * status := @parse_document test_lib None (lex s).
(** a paragraph has children, a link has an id, the section has the size of A4 *)
Definition item_ok (x : item) : bool :=
  match x with
  | IPara p => negb (Nat.eqb (length (para_children p)) 0) &&
               forallb (fun c => match c with PLink i _ => negb (String.eqb i "") | _ => true end) (para_children p)
  | ITable _ => true
  | ISect s => match sect_pgSz s with Some z => Z.eqb (iv (pgsz_w z)) 11906 && Z.eqb (iv (pgsz_h z)) 16838 | None => false end
  end.
''')
for n in sorted(docs):
    o.write(f'Example TestUnmarshalPlainStructure{n[-2:]} :\n  snd (loaded {n}) = SOk /\\ length (fst (loaded {n})) = {counts[n]} /\\ forallb item_ok (fst (loaded {n})) = true.\nProof. vm_compute. repeat split. Qed.\n')
o.write('\n(** ** structtext_test.go TestMergeText *)\n')
o.write(f'Definition xml2merge : string := {q(x)}.\n')
o.write(r'''Definition p2merge : para * status := root (@u_para test_lib None) (mk_para None [] None) (check [] (lex xml2merge)).
(** the text of each run of the merged paragraph, which has at most one child *)
Definition run_texts (c : pchild) : option string :=
  match c with
  | PRun r => match runR_children r with [] => Some "" | [RText x] => Some (text_text x) | _ => None end
  | _ => None
  end.
Definition merged (f : rule) : option (list (option string)) :=
  match merge_text f (fst p2merge) with Ok p => Some (map run_texts (para_children p)) | _ => None end.
Definition each_bar (l : list (option string)) : option string :=
  fold_right (fun x s => match x, s with Some x, Some s => Some (x ++ "|" ++ s) | _, _ => None end) (Some "") l.
Definition lists {A} (o : option (list A)) : list A := match o with Some l => l | None => [] end.
Example TestMergeText_load : snd p2merge = SOk.
Proof. vm_compute. reflexivity. Qed.
''')
o.write(f'''Example TestMergeText_all : merged merge_all_runs = Some [Some {q(texts["allmergedtext"])}].
Proof. vm_compute. reflexivity. Qed.
Example TestMergeText_same : length (lists (merged merge_same_prop_runs)) = {lens[1]} /\\
  each_bar (lists (merged merge_same_prop_runs)) = Some {q(texts["propmergedtext"])}.
Proof. vm_compute. split; reflexivity. Qed.
Example TestMergeText_named : length (lists (merged (merge_same_prop_runs_of ["Bold"; "Size"; "Underline"]))) = {lens[2]} /\\
  each_bar (lists (merged (merge_same_prop_runs_of ["Bold"; "Size"; "Underline"]))) = Some {q(texts["namedpropmergdtext"])}.
Proof. vm_compute. split; reflexivity. Qed.
''')
o.write(r'''
(** ** structrel_test.go TestRelationships *)
(** MD5 (RFC 1321) *)
Section Md5.
Local Open Scope N_scope.
Definition M32 : N := 2 ^ 32.
Definition add32 (a b : N) : N := (a + b) mod M32.
Definition not32 (a : N) : N := M32 - 1 - a.
Definition rotl (x n : N) : N := N.lor (N.shiftl x n mod M32) (N.shiftr x (32 - n)).
''')
import math
K = [int(abs(math.sin(i + 1)) * 2**32) & 0xffffffff for i in range(64)]
S = [7, 12, 17, 22] * 4 + [5, 9, 14, 20] * 4 + [4, 11, 16, 23] * 4 + [6, 10, 15, 21] * 4
G = [i for i in range(16)] + [(5*i+1) % 16 for i in range(16, 32)] + [(3*i+5) % 16 for i in range(32, 48)] + [7*i % 16 for i in range(48, 64)]
o.write('(** the steps: kind, constant, rotation, word *)\nDefinition steps : list (nat * N * N * nat) :=\n  [' + '; '.join(f'({i//16}%nat, {K[i]}, {S[i]}, {G[i]}%nat)' + ('\n  ' if i % 4 == 3 and i < 63 else '') for i in range(64)) + '].\n')
o.write(r'''Definition mix (k : nat) (b c d : N) : N :=
  match k with
  | 0%nat => N.lor (N.land b c) (N.land (not32 b) d)
  | 1%nat => N.lor (N.land d b) (N.land (not32 d) c)
  | 2%nat => N.lxor b (N.lxor c d)
  | _ => N.lxor c (N.lor b (not32 d))
  end.
Definition step (m : list N) (s : N * N * N * N) (x : nat * N * N * nat) : N * N * N * N :=
  let '(a, b, c, d) := s in let '(k, c0, r, g) := x in
  (d, add32 b (rotl (add32 (add32 a (mix k b c d)) (add32 c0 (nth g m 0))) r), b, c).
Definition block (s : N * N * N * N) (m : list N) : N * N * N * N :=
  let '(a, b, c, d) := s in let '(a', b', c', d') := fold_left (step m) steps s in
  (add32 a a', add32 b b', add32 c c', add32 d d').
Fixpoint bytes (s : string) : list N := match s with "" => [] | String a s' => N_of_ascii a :: bytes s' end.
Fixpoint le_bytes (k : nat) (n : N) : list N := match k with O => [] | S k' => (n mod 256) :: le_bytes k' (n / 256) end.
Definition padded (s : string) : list N :=
  let n := String.length s in
  (bytes s ++ 128 :: repeat 0 ((119 - n mod 64) mod 64) ++ le_bytes 8 (8 * N.of_nat n mod 2 ^ 64))%list.
Fixpoint words (l : list N) : list N :=
  match l with a :: b :: c :: d :: l' => a + 256 * b + 65536 * c + 16777216 * d :: words l' | _ => [] end.
Fixpoint blocks (n : nat) (s : N * N * N * N) (l : list N) : N * N * N * N :=
  match n, l with S n', _ :: _ => blocks n' (block s (firstn 16 l)) (skipn 16 l) | _, _ => s end.
Definition digit (n : N) : ascii := ascii_of_N (if n <? 10 then 48 + n else 87 + n).
Fixpoint hex (l : list N) : string := match l with [] => "" | b :: l' => String (digit (b / 16)) (String (digit (b mod 16)) (hex l')) end.
Definition md5 (s : string) : string :=
  let w := words (padded s) in
  let '(a, b, c, d) := blocks (length w) (1732584193, 4023233417, 2562383102, 271733878) w in
  hex (le_bytes 4 a ++ le_bytes 4 b ++ le_bytes 4 c ++ le_bytes 4 d)%list.
End Md5.
(** RFC 1321, A.5 *)
Example md5_suite : map md5 [""; "a"; "abc"; "12345678901234567890123456789012345678901234567890123456789012345678901234567890"] =
  ["d41d8cd98f00b204e9800998ecf8427e"; "0cc175b9c0f1b6a831c399e269772661"; "900150983cd24fb0d6963f7d28e17f72"; "57edf4a22be3c955ac49da2e2107b67a"].
Proof. vm_compute. reflexivity. Qed.
''')
o.write(f'''(** the relationships in the test are those of a new document *)
Example TestRelationships : md5 (write_xml (m_rels (d_reg new_docx))) = {q(md5)}.
Proof. vm_compute. reflexivity. Qed.
''')
o.write(r'''
(** ** the tests that write a document, load it and write it again *)
Definition written (d : docx) : string := write_xml (m_docx d).
(** xml.NewDecoder(f).Decode(&w.Document) into a new document *)
Definition again (s : string) : option string :=
  match @parse_doc_part test_lib 0 s new_docx with Ok d => Some (written d) | _ => None end.
(** [same l f]: the calls [l] make a document; [f] does the assignments to its
    fields; loading what is written and writing again gives the same bytes *)
Definition same (l : list op) (f : docx -> docx) : bool :=
  match @run_ops test_lib (ONew :: l) [] with
  | Some [d] => let s := written (f d) in match again s with Some s' => String.eqb s s' && negb (String.eqb s (written new_docx)) | None => false end
  | _ => false
  end.
(** the assignments *)
Definition on_pic (f : pic -> pic) (d : docx) (a : addr) (k : nat) : docx :=
  let g x := match graphicR_data x with Some y => set_graphicR_data (Some match gdataR_pic y with Some p => set_gdataR_pic (Some (f p)) y | None => y end) x | None => x end in
  let child c := match c with RDraw i (Some b) => RDraw i (Some match anchorR_graphic b with Some x => set_anchorR_graphic (Some (g x)) b | None => b end) | _ => c end in
  match get_para (d_items d) a with
  | Some p => match nth_error (para_children p) k with
              | Some (PRun r) => set_d_items (put_para (d_items d) a (set_para_children (set_nth (para_children p) k (PRun (set_runR_children (map child (runR_children r)) r))) p)) d
              | _ => d
              end
  | None => d
  end.
Definition blip_alpha (p : pic) : pic :=
  match pic_blip p with Some b => set_pic_blip (Some (set_picblip_blip (set_ablip_alpha (Some (i64_of 50000)) (picblip_blip b)) b)) p | None => p end.
Definition locked (p : pic) : pic :=
  match pic_nvpic p with Some n => set_pic_nvpic (Some (set_nvpic_locks (Some (i64_of 1)) n)) p | None => p end.
Definition turned (p : pic) : pic :=
  match pic_sp p with Some s => set_pic_sp (Some (set_picsp_xfrm (set_xfrm_rot (i64_of 50000) (picsp_xfrm s)) s)) p | None => p end.
Definition v_merge (r : nat) (v : string) (t : table) : table :=
  match nth_error (table_rows t) r with
  | Some row => match row_cells row with
                | c :: l => set_table_rows (set_nth (table_rows t) r (set_row_cells (set_cell_props (option_map (set_tcpr_vMerge (Some v)) (cell_props c)) c :: l) row)) t
                | [] => t
                end
  | None => t
  end.
Definition positioned (t : table) : table :=
  set_table_props (option_map (set_tblpr_pos (Some (set_tblpos_leftFT (i64_of 2333) tblpos0))) (table_props t)) t.
Definition on_table (f : table -> table) (k : nat) (d : docx) : docx :=
  match nth_error (d_items d) k with Some (ITable t) => set_d_items (set_nth (d_items d) k (ITable (f t))) d | _ => d end.

(** structtable_test.go TestTableStructure *)
Definition table_calls : list op :=
  [OAddPara 0; OPara 0 (ABody 0) (OText "table");
   OTable 0 (i64_of 4) (i64_of 3) (i64_of 1000) (Some (mk_colors "#ff0000" "#ff0000" "#ff0000" "#ff0000" "#ff0000" "")); OTableJc 0 1 "center";
   ORowJc 0 1 3 "center"; OCellShade 0 1 3 2 "clear" "auto" "E7E6E6"; OCellPara 0 1 3 2; OPara 0 (ACell 1 3 2 0) (ODrawing true JPG);
   OCellPara 0 1 0 0; OPara 0 (ACell 1 0 0 0) (OText "first cell")].
Definition table_fields (d : docx) : docx :=
  on_table (fun t => v_merge 2 "" (v_merge 1 "" (v_merge 0 "restart" (positioned t)))) 1
    (on_pic (fun p => turned (locked (blip_alpha p))) d (ACell 1 3 2 0) 0).
Example TestTableStructure : same table_calls table_fields = true.
Proof. vm_compute. reflexivity. Qed.

(** structshape_test.go TestShapeStructure *)
Definition shape_line : aline :=
  set_aline_w (i64_of 9525) (set_aline_solid (Some (Some "000000")) (set_aline_round true (set_aline_head (Some lend0) (set_aline_tail (Some lend0) aline0)))).
Definition shape_calls : list op :=
  [OAddPara 0; OPara 0 (ABody 0) (OText "test anchor shape");
   OPara 0 (ABody 0) (OShape true (i64_of 808355) (i64_of 238760) "AutoShape" "auto" "straightConnector1" (Some shape_line));
   OAddPara 0; OPara 0 (ABody 1) (OText "test inline shape");
   OPara 0 (ABody 1) (OShape false (i64_of 808355) (i64_of 238760) "AutoShape" "auto" "straightConnector1" (Some shape_line))].
Example TestShapeStructure : same shape_calls (fun d => d) = true.
Proof. vm_compute. reflexivity. Qed.

(** structdrawing_test.go TestDrawingStructure *)
Definition drawing_calls : list op :=
  [OAddPara 0; OPara 0 (ABody 0) (OText "直接粘贴 inline"); OPara 0 (ABody 0) (ORun 0 (RShade "clear" "auto" "E7E6E6"));
   OPara 0 (ABody 0) (ORun 0 RAddTab); OPara 0 (ABody 0) (ORun 0 RBold); OPara 0 (ABody 0) (ORun 0 (RUnderline "single"));
   OPara 0 (ABody 0) (ORun 0 (RHighlight "yellow")); OPara 0 (ABody 0) (ORun 0 RItalic);
   OPara 0 (ABody 0) (ORun 0 (RFont "宋体" "宋体" "宋体" "eastAsia")); OPara 0 (ABody 0) (ODrawing true JPG);
   OAddPara 0; OPara 0 (ABody 1) (OJc "center"); OPara 0 (ABody 1) (ODrawing false JPG);
   OPara 0 (ABody 1) OTab; OPara 0 (ABody 1) (ORun 1 RAddTab); OPara 0 (ABody 1) (ORun 1 RAddTab); OPara 0 (ABody 1) (ORun 1 RAddTab);
   OPara 0 (ABody 1) (ODrawing false WEBP); OAddPara 0; OPara 0 (ABody 2) (ODrawing false PNG)].
Example TestDrawingStructure : same drawing_calls (fun d => on_pic (fun p => turned (locked (blip_alpha p))) d (ABody 0) 1) = true.
Proof. vm_compute. reflexivity. Qed.
''')
o.close()
