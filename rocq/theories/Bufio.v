(** WriteTo to a destination that may fail (docx.go:151-157): archive/zip writes
    through a bufio.Writer of 4096 bytes and WriteTo ignores the error of
    Writer.Close. How an archive is encoded is a parameter. *)
From Coq Require Import String Ascii List Bool Arith NArith ZArith.
From Verif Require Import GoStr Num Lib Types Docx Pack.
Import ListNotations.
Local Open Scope list_scope.
Local Open Scope string_scope.

(** The destination: given the number of earlier calls and the bytes, [None] when
    it takes them all without error, [Some n] when it takes [n] of them and
    returns an error (io.Writer must return one when it takes fewer). *)
Definition dest := nat -> string -> option nat.
(** bufio.Writer and the destination behind it *)
Record bw := mk_bw { b_buf : string; b_err : bool; b_calls : nat; b_out : string }.
Definition SIZE : nat := 64 * 64.
Fixpoint stake (n : nat) (s : string) : string :=
  match n, s with S n', String a s' => String a (stake n' s') | _, _ => "" end.
Fixpoint sdrop (n : nat) (s : string) : string :=
  match n, s with S n', String a s' => sdrop n' s' | _, _ => s end.

Section Dest.
Variable D : dest.
(** bufio.Writer.Flush *)
Definition flush (b : bw) : bw :=
  if b_err b || String.eqb (b_buf b) "" then b
  else match D (b_calls b) (b_buf b) with
       | None => mk_bw "" false (S (b_calls b)) (b_out b ++ b_buf b)
       | Some n => mk_bw (sdrop n (b_buf b)) true (S (b_calls b)) (b_out b ++ stake n (b_buf b))
       end.
(** a large write with an empty buffer *)
Definition direct (p : string) (b : bw) : bw :=
  match D (b_calls b) p with
  | None => mk_bw "" false (S (b_calls b)) (b_out b ++ p)
  | Some n => mk_bw "" true (S (b_calls b)) (b_out b ++ stake n p)
  end.
(** bufio.Writer.Write; the error is reported when [b_err] is set afterwards *)
Definition bwrite (p : string) (b : bw) : bw :=
  if b_err b then b
  else
    let room := SIZE - String.length (b_buf b) in
    if Nat.leb (String.length p) room then mk_bw (b_buf b ++ p) false (b_calls b) (b_out b)
    else if String.eqb (b_buf b) "" then direct p b
    else
      let b1 := flush (mk_bw (b_buf b ++ stake room p) false (b_calls b) (b_out b)) in
      if b_err b1 then b1
      else let p' := sdrop room p in
           if Nat.leb (String.length p') SIZE then mk_bw (b_buf b1 ++ p') false (b_calls b1) (b_out b1)
           else direct p' b1.
Definition bwrites (l : list string) (b : bw) : bw := fold_left (fun b p => bwrite p b) l b.

(** docx.go:152-156: [body] is what Create and Copy write for the files, [tail]
    what Close writes (the end of the last file and the directory). Every write
    error during [body] makes pack fail; the error of Close is dropped. The
    result is whether the returned error is nil, and what the destination got. *)
Definition write_to (body tail : list string) : bool * string :=
  let b := bwrites body (mk_bw "" false 0 "") in
  if b_err b then (false, b_out b)
  else (true, b_out (flush (bwrites tail b))).
End Dest.
