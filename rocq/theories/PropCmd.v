(** The program that comes with the package (cmd/main), run with -a. *)
From Coq Require Import String Ascii List Bool Arith NArith ZArith.
From Verif Require Import GoStr Num Lib Types Docx Api Keep Copy Text Pack Theme History SpecEdit SpecCopy SpecPack SpecReopen SpecCmd Cmd RelsFacts CmdFacts CmdFacts2 CmdFacts3 CmdFacts4.
Import ListNotations.
Local Open Scope list_scope.
Local Open Scope string_scope.

(** A run that comes to its end prints the text of every paragraph and table of
    the body, in order; of the flags only -c can change it. *)
Theorem C75_text : forall (L : GoLib) x sys fl a es u, tool x sys fl a = (es, Some u) ->
  exists d ls, unpack 0 a = Ok d /\ shown [d] (if fl_clean fl then drop_drawing_of "NilPicture" (d_items d) else d_items d) ls /\
    lines es = ("Plain text:" :: ls ++ ["End of main"])%list.
Proof. exact @printed_lines. Qed.
Print Assumptions C75_text.

(** ... and writes these files and no others, each in full: the document with -u,
    its parts with -s, its copies with -d. *)
Theorem C75_files : forall (L : GoLib) x sys fl a es u dir base, stands (fl_loc fl) dir base -> tool x sys fl a = (es, Some u) ->
  exists d l' parts copies stem ext, unpack 0 a = Ok d /\ left_of fl (drop_drawing_of "NilPicture") (d_items d) l' /\
    written es = ((if fl_unm fl then [((dir ++ "unmarshal_" ++ base)%string, set_d_items l' d)] else []) ++
                  combine (map (part_name dir stem ext) (seq 0 (length parts))) parts ++
                  map (pair (dup_at (fl_loc fl) dir base)) copies)%list /\
    made es = map fst (written es) /\ Forall (fun f => exists ar, writes (snd f) (Ok ar)) (written es) /\
    (parts <> [] -> dotted base stem ext) /\ split_into fl [set_d_items l' d] l' parts /\ copied_into x fl [set_d_items l' d] l' copies.
Proof. exact @files. Qed.
Print Assumptions C75_files.
Theorem C75_distinct : forall (L : GoLib) x sys fl a es u, tool x sys fl a = (es, Some u) -> NoDup (made es).
Proof. exact @distinct. Qed.
Print Assumptions C75_distinct.

(** Also in a run that panics, a file that is made has a longer name than the file
    that is read. *)
Theorem C75_untouched : forall (L : GoLib) x sys fl a n, In n (made (fst (tool x sys fl a))) -> String.length (fl_loc fl) < String.length n.
Proof. exact @longer. Qed.
Print Assumptions C75_untouched.

(** Every file name has a directory part. *)
Theorem C75_stands : forall loc, exists dir base, stands loc dir base.
Proof. exact stands_some. Qed.
Print Assumptions C75_stands.

(** Without -s and -d, a run comes to its end exactly if the package opens, no
    text of it panics, and the file for -u can be written. *)
Theorem C75_finishes : forall (L : GoLib) x sys fl a dir base, stands (fl_loc fl) dir base -> fl_split fl = None -> (fl_dup fl <= 1)%N ->
  (snd (tool x sys fl a) = Some tt <->
   exists d l' ls, unpack 0 a = Ok d /\ left_of fl (drop_drawing_of "NilPicture") (d_items d) l' /\
     shown [d] (if fl_clean fl then drop_drawing_of "NilPicture" (d_items d) else d_items d) ls /\
     (fl_unm fl = true -> sys_create sys (dir ++ "unmarshal_" ++ base) = true /\ sys_write sys (dir ++ "unmarshal_" ++ base) = true /\ exists ar, writes (set_d_items l' d) (Ok ar))).
Proof. exact @plain_run. Qed.
Print Assumptions C75_finishes.

(** With all flags: a run comes to its end exactly if, besides, splitting returns
    and every part can be written to its file, for which the name of the file
    needs an extension, and copying returns and its result can be written.
    C64 says when splitting and copying return. *)
Theorem C75_ends : forall (L : GoLib) x sys fl a dir base, stands (fl_loc fl) dir base ->
  (snd (tool x sys fl a) = Some tt <->
   exists d l' ls parts, unpack 0 a = Ok d /\ left_of fl (drop_drawing_of "NilPicture") (d_items d) l' /\
     shown [d] (if fl_clean fl then drop_drawing_of "NilPicture" (d_items d) else d_items d) ls /\
     (fl_unm fl = true -> can_save sys (dir ++ "unmarshal_" ++ base) (set_d_items l' d)) /\
     match fl_split fl with
     | None => parts = []
     | Some None => False
     | Some (Some re) => exec (OSplit 0 (fun p => bind (para_string [set_d_items l' d] p) (fun s => Ok (re s)))) [set_d_items l' d] = Ok (set_d_items l' d :: parts)
     end /\
     (parts <> [] -> exists stem ext, dotted base stem ext /\ forall k e, nth_error parts k = Some e -> can_save sys (part_name dir stem ext k) e) /\
     ((1 < fl_dup fl)%N -> exists w' c, run_ops (copying x fl (S (length parts))) (set_d_items l' d :: parts) = Some w' /\ nth_error w' (S (length parts)) = Some c /\
        can_save sys (dup_at (fl_loc fl) dir base) c)).
Proof. exact @any_run. Qed.
Print Assumptions C75_ends.

(** The file written for -u, read by the program again, prints the same. *)
Theorem C75_again : forall (L : GoLib) x sys fl a es u dir base d d1 ar, stands (fl_loc fl) dir base -> tool x sys fl a = (es, Some u) -> fl_droppp fl = false -> legal_call (OParse a) ->
  unpack 0 a = Ok d -> (N.of_nat (length (rels (d_reg d))) < 2 ^ 62)%N -> no_media_tmpl d -> In (dir ++ "unmarshal_" ++ base, d1) (written es) -> writes d1 (Ok ar) ->
  forall sys2 fl2, fl_clean fl2 = false -> fl_unm fl2 = false -> fl_split fl2 = None -> (fl_dup fl2 <= 1)%N ->
  exists es2, tool x sys2 fl2 ar = (es2, Some tt) /\ lines es2 = lines es.
Proof. exact @again. Qed.
Print Assumptions C75_again.

(** Two flags do not work for every file name: with -s, a name without an
    extension makes the program panic (after it has printed the text) unless the
    body is empty; with -d, the copy of a file in a directory is to be put into
    a directory "dup_" in it, which usually does not exist. *)
Theorem C75_undotted : forall (L : GoLib) x sys fl a d dir base re, stands (fl_loc fl) dir base -> count "." base = 0 -> fl_split fl = Some re ->
  unpack 0 a = Ok d -> d_items d <> [] -> snd (tool x sys fl a) = None.
Proof. exact @undotted. Qed.
Print Assumptions C75_undotted.
Theorem C75_directory : forall (L : GoLib) x sys fl a dir base, stands (fl_loc fl) dir base -> 2 <= String.length dir -> (1 < fl_dup fl)%N ->
  sys_create sys (dir ++ "dup_/" ++ base) = false -> snd (tool x sys fl a) = None.
Proof. exact @uncopied. Qed.
Print Assumptions C75_directory.

(** A document with a heading, a text with a link, a second heading and a table *)
Definition ex_lib : GoLib := {| lib_float := fun _ => None; lib_md5 := fun s => s; lib_imgsize := fun s => None |}.
Definition ex_assets : assets := mk_assets "<app/>" "<core/>" "<theme/>" "<fonts/>" "<styles/>".
Definition ex_ops : list op :=
  [ONew; OAddPara 0; OPara 0 (ABody 0) (OText "# one"); OAddPara 0; OPara 0 (ABody 1) (OText "see "); OPara 0 (ABody 1) (OLink "there" "http://e");
   OAddPara 0; OPara 0 (ABody 2) (OText "# two"); OPara 0 (ABody 2) (OJc "center"); OTable 0 (i64_of 1) (i64_of 1) (i64_of 100) None; OCellPara 0 3 0 0; OPara 0 (ACell 3 0 0 0) (OText "c")].
Definition ex_file : archive := match @run_ops ex_lib ex_ops [] with Some [d] => match pack_files d with Ok m => m | _ => [] end | _ => [] end.
(** the files that can be made are those in directories that exist *)
Definition ex_sys : system := mk_system (fun n => Nat.leb (count "/" n) 1) (fun _ => true).
Definition heading (s : string) : bool := match s with String c _ => Ascii.eqb c "#" | "" => false end.
Definition ex_flags (loc : string) (dup : N) : flags := mk_flags loc false true (Some (Some heading)) true dup.
Definition ex_run (loc : string) (dup : N) : prog unit := @tool ex_lib ex_assets ex_sys (ex_flags loc dup) ex_file.
Definition ex_table : string := "|  :----: |" ++ String "010" "| c |".
Definition ex_texts (d : docx) : list (option string) :=
  map (fun y => match y with
                | IPara p => match @para_string ex_lib (repeat d 4) p with Ok s => Some s | _ => None end
                | ITable t => match @table_string ex_lib (repeat d 4) t with Ok s => Some s | _ => None end
                | ISect _ => None
                end) (d_items d).
Definition one_two : list (option string) := [Some "# one"; Some "see [there](http://e)"; Some "# two"; Some ex_table].
Example C75_ex_flat : let (es, r) := ex_run "b.docx" 2 in r = Some tt /\
  lines es = ["Plain text:"; "# one"; "see [there](http://e)"; "# two"; ex_table; "End of main"] /\
  map (fun f => (fst f, ex_texts (snd f))) (written es) =
    [("unmarshal_b.docx", one_two);
     ("unmarshal_b_split0.docx", [Some "# one"; Some "see [there](http://e)"]); ("unmarshal_b_split1.docx", [Some "# two"; Some ex_table]);
     ("dup_b.docx", (None :: one_two ++ one_two)%list)].
Proof. vm_compute. auto. Qed.
(** The same file in a directory: -u and -s write next to it, -d panics. *)
Example C75_ex_directory : (let (es, r) := ex_run "a/b.docx" 1 in r = Some tt /\ made es = ["a/unmarshal_b.docx"; "a/unmarshal_b_split0.docx"; "a/unmarshal_b_split1.docx"]) /\
  (let (es, r) := ex_run "a/b.docx" 2 in r = None /\ made es = ["a/unmarshal_b.docx"; "a/unmarshal_b_split0.docx"; "a/unmarshal_b_split1.docx"]) /\
  stands "a/b.docx" "a/" "b.docx" /\ dup_at "a/b.docx" "a/" "b.docx" = "a/dup_/b.docx".
Proof. split; [vm_compute; auto|]. split; [vm_compute; auto|]. split; [|reflexivity]. split; [reflexivity|]. split; [right; exists "a"; reflexivity|reflexivity]. Qed.
(** A name without an extension *)
Example C75_ex_undotted : (let (es, r) := ex_run "./b" 0 in r = None /\ lines es = ["Plain text:"; "# one"; "see [there](http://e)"; "# two"; ex_table] /\ made es = ["./unmarshal_b"]) /\
  count "." "b" = 0 /\ match @unpack ex_lib 0 ex_file with Ok d => d_items d <> [] | _ => False end.
Proof. vm_compute. repeat split; auto. discriminate. Qed.
(** More than 2^63 copies are none. *)
Example C75_ex_many : let (es, r) := ex_run "b.docx" 9223372036854775809 in r = Some tt /\ match nth_error (written es) 3 with Some f => d_items (snd f) = [ISect A4] | None => False end.
Proof. vm_compute. auto. Qed.
(** The hypotheses of [C75_again] *)
Definition ex_again : flags := mk_flags "b.docx" false true None false 0.
Lemma ex_legal : @legal_call ex_lib (OParse ex_file).
Proof.
  split; [constructor|]. split; [|].
  { assert (Q : map fst ex_file = [RELS_PART; DOC_PART]) by (vm_compute; reflexivity). rewrite Q. repeat constructor; [intros [J|[]]; discriminate J|intros []]. }
  intros f d E. assert (G : match @unpack ex_lib f ex_file with Ok d => media (d_reg d) = [] /\ map rel_id (rels (d_reg d)) = ["rId1"; "rId2"; "rId3"; "rId4"] | _ => False end) by (vm_compute; auto).
  rewrite E in G. destruct G as (G1 & G2). split; [rewrite G1; intros m n fmt []|]. intros r n I N. apply (in_map rel_id) in I. rewrite G2 in I. apply id_number_spec in N.
  revert I N. generalize (rel_id r). intros id I N. repeat (destruct I as [I|I]; [subst id; vm_compute in N; injection N as <-; reflexivity|]). destruct I.
Qed.
Example C75_ex_again : let (es, r) := @tool ex_lib ex_assets ex_sys ex_again ex_file in r = Some tt /\
  match written es, @unpack ex_lib 0 ex_file with
  | f :: _, Ok d => fst f = "unmarshal_b.docx" /\ t_list (d_tmpl d) = [] /\ match pack_files (snd f) with
              | Ok ar => lines (fst (@tool ex_lib ex_assets ex_sys (mk_flags "c" false false None false 0) ar)) = lines es
              | _ => False
              end
  | _, _ => False
  end.
Proof. vm_compute. auto. Qed.
