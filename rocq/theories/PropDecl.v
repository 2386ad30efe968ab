(** Properties of XML declarations in loaded parts. *)
From Coq Require Import String Ascii List Bool Arith NArith ZArith.
From Verif Require Import GoStr Num Lib Types XmlTok Docx Lex LexFuel Pack SpecForm SpecDecl FormMarkup DeclFacts.
Import ListNotations.
Local Open Scope list_scope.
Local Open Scope string_scope.

(** C72: a part of the package starts with an XML declaration: if it names
    another version than 1.0 or another encoding than UTF-8, the package is
    refused; otherwise it loads as without the declaration. *)
Theorem C72_declaration : forall (L : GoLib) f a1 n w0 d rest a2, n = RELS_PART \/ n = DOC_PART -> white w0 -> w0 <> "" -> decl_body d ->
  let plain := unpack f (a1 ++ (n, Some rest) :: a2)%list in
  let declared := unpack f (a1 ++ (n, Some ("<?xml" ++ w0 ++ d ++ "?>" ++ rest)%string) :: a2)%list in
  (acceptable d -> (forall x, plain = Ok x -> exists y, declared = Ok y /\ same_loaded x y) /\ (forall y, declared = Ok y -> exists x, plain = Ok x)) /\
  (~ acceptable d -> forall y, declared <> Ok y).
Proof. exact @decl_package. Qed.
Print Assumptions C72_declaration.

(** Declarations may stand anywhere in the part. *)
Theorem C72_tokens : forall w d rest, white w -> w <> "" -> decl_body d ->
  (acceptable d -> lex ("<?xml" ++ w ++ d ++ "?>" ++ rest) = TMisc :: lex rest) /\
  (~ acceptable d -> lex ("<?xml" ++ w ++ d ++ "?>" ++ rest) = [TErr]).
Proof. exact decl_lex. Qed.
Print Assumptions C72_tokens.

(** The bound on the number of tokens in the model of the reader is never met. *)
Theorem C72_fuel : forall n m s, String.length s < n -> String.length s < m -> lex_n n s = lex_n m s.
Proof. exact lex_fuel. Qed.
Print Assumptions C72_fuel.

Definition ex_lib : GoLib := {| lib_float := fun _ => None; lib_md5 := fun s => s; lib_imgsize := fun _ => None |}.
Definition ex_doc : string := "<document><body><p/></body></document>".
Definition loads (decl : string) : bool := match @unpack ex_lib 0 [(DOC_PART, Some (decl ++ ex_doc))] with Ok d => Nat.eqb (length (d_items d)) 1 | _ => false end.
Example C72_ex : map loads
  [""; "<?xml version='1.0'?>"; "<?xml version=""1.1""?>"; "<?xml version='1.0' encoding=""Utf-8""?>"; "<?xml version='1.0' encoding='latin1'?>";
   "<?xml encoding='utf-16' ?>"; "<?xml version = '2.0'?>"; "<?xml?>"; "<?xml version='1.1?>"; "<?xml version=''?>"] =
  [true; true; false; true; false; false; true; true; true; true].
Proof. vm_compute. reflexivity. Qed.
Example C72_ex_decl : let d := "version='1.1' encoding=""UTF-8""" in
  decl_body d /\ ~ acceptable d /\ says "encoding" d "UTF-8".
Proof.
  cbn zeta. split; [split|split].
  - apply find_none; [discriminate|reflexivity].
  - intros a t E. injection E as <- _. discriminate.
  - intros [V _]. specialize (V "1.1"). destruct V as [V|V]; try discriminate.
    exists "", "'"%char, " encoding=""UTF-8""". split; [auto|]. split; [reflexivity|]. split; [|intros; apply Nat.le_0_l].
    apply find_none; [discriminate|reflexivity].
  - replace "UTF-8" with (proc_inst "encoding" "version='1.1' encoding=""UTF-8""") by reflexivity. apply inst_says. discriminate.
Qed.
