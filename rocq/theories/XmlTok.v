(** XML as the encoding/xml decoder and encoder present it to the package. *)
From Coq Require Import String Ascii List Bool Arith NArith ZArith Lia.
From Verif Require Import GoStr Num Lib.
Import ListNotations.
Local Open Scope string_scope.
Local Open Scope list_scope.

(** A qualified name: prefix and local part. The decoding code looks only at
    the local part (xml.Name.Local). *)
Definition qname := (string * string)%type.
Definition attr := (qname * string)%type.

(** Trees: elements, character data, comments (and the like). The encoder
    produces no comments. *)
Inductive tree :=
| Elem (q : qname) (a : list attr) (c : list tree)
| Chr (s : string)
| Cmt.

(** What Decoder.Token returns. [TMisc] is a comment, processing instruction or
    directive; [TErr] is a syntax error reported at this point. [TEof] is not
    part of the input: it is the mark that Decoder.pushEOF places behind the
    end element of the element being decoded; Token returns io.EOF there, and
    popEOF removes it. (In encoding/xml the mark is an entry of the element
    stack below the entry of the open element, so it comes to the top exactly
    when the matching end element has been read.) *)
Inductive token :=
| TStart (q : qname) (a : list attr)
| TEnd (q : qname)
| TChar (s : string)
| TMisc
| TErr
| TEof.

(** the tokens of a tree *)
Fixpoint toks (t : tree) : list token :=
  match t with
  | Elem q a c => TStart q a :: flat_map toks c ++ [TEnd q]
  | Chr s => [TChar s]
  | Cmt => [TMisc]
  end.

Definition ftoks (c : list tree) : list token := flat_map toks c.

(** ** encoder helpers (encoding/xml struct tags) *)

(** `xml:"name,attr"` *)
Definition at_ (q : qname) (v : string) : list attr := [(q, v)].
(** `xml:"name,attr,omitempty"` for strings *)
Definition ato (q : qname) (v : string) : list attr := if String.eqb v "" then [] else [(q, v)].
(** `xml:"name,attr"` for integers *)
Definition ati (q : qname) (v : i64) : list attr := [(q, itoa (iv v))].
(** `xml:"name,attr,omitempty"` for integers *)
Definition atio (q : qname) (v : i64) : list attr := if Z.eqb (iv v) 0 then [] else [(q, itoa (iv v))].
(** an optional child element *)
Definition el {A} (f : A -> tree) (x : option A) : list tree :=
  match x with Some v => [f v] | None => [] end.
(** a child that is a pointer to an empty struct *)
Definition elb (q : qname) (b : bool) : list tree := if b then [Elem q [] []] else [].
(** `xml:",chardata"`: nothing is written for an empty string *)
Definition chr (s : string) : list tree := if String.eqb s "" then [] else [Chr s].

Definition w (l : string) : qname := ("w", l).
Definition wp (l : string) : qname := ("wp", l).
Definition wps (l : string) : qname := ("wps", l).
Definition wpc (l : string) : qname := ("wpc", l).
Definition wpg (l : string) : qname := ("wpg", l).
Definition a_ (l : string) : qname := ("a", l).
Definition pic_ (l : string) : qname := ("pic", l).
Definition r_ (l : string) : qname := ("r", l).
Definition xmlns (l : string) : qname := ("xmlns", l).
Definition xml_ (l : string) : qname := ("xml", l).
Definition nn (l : string) : qname := ("", l).

(** a struct with one string attribute val *)
Definition val_el (q : qname) (v : string) : tree := Elem q (at_ (w "val") v) [].
Definition val_elo (q : qname) (v : string) : tree := Elem q (ato (w "val") v) [].
Definition val_eli (q : qname) (v : i64) : tree := Elem q (ati (w "val") v) [].

(** ** decoder *)

(** the errors of the decoder and of helper.go:45-70 *)
Inductive xerr :=
| XSyntax          (** malformed XML *)
| XEOF             (** io.EOF returned as an error (Skip ran into the end) *)
| XNotConsumed     (** xml: ... did not consume entire element *)
| XInt.            (** number format error not starting with "expected" *)

(** How a decoding step ends: [SExp] is an error whose text starts with
    "expected" (fmt.Sscanf's "expected integer"), which the callers of
    DecodeElement ignore. [SFuel] marks exhaustion of the recursion bound of
    the model; theorem [decode_never_out_of_fuel] excludes it. *)
Inductive status :=
| SOk
| SExp
| SAbort (e : xerr)
| SFuel.

(** decoders return the value as far as it was filled in, the status and the
    remaining tokens *)
Definition out (A : Type) := (A * status * list token)%type.

(** structdoc.go:48-55 getAtt *)
Fixpoint get_att (a : list attr) (name : string) : string :=
  match a with
  | [] => ""
  | (q, v) :: a' => if String.eqb (snd q) name then v else get_att a' name
  end.

(** The loop [for _, attr := range start.Attr] with a switch on the local name
    (for instance structsect.go:119-134); stops at the first error. *)
Fixpoint attrs {X} (f : X -> string -> string -> X * status) (s : X) (a : list attr) : X * status :=
  match a with
  | [] => (s, SOk)
  | (q, v) :: a' =>
      match f s (snd q) v with
      | (s', SOk) => attrs f s' a'
      | (s', e) => (s', e)
      end
  end.

(** the value and the error of helper.go:45-70 *)
Definition st_of (g : gint) : i64 * status :=
  match g with
  | GVal v => (v, SOk)
  | GExp v => (v, SExp)
  | GErr v => (v, SAbort XInt)
  end.

(** Decoder.Skip (encoding/xml): read up to the end element matching the most
    recent start element. *)
Fixpoint skip_from (depth : nat) (ts : list token) : status * list token :=
  match ts with
  | [] => (SAbort XSyntax, [])
  | TStart _ _ :: ts' => skip_from (S depth) ts'
  | TEnd _ :: ts' => match depth with O => (SOk, ts') | S d => skip_from d ts' end
  | TErr :: _ => (SAbort XSyntax, ts)
  | TEof :: _ => (SAbort XEOF, ts)
  | _ :: ts' => skip_from depth ts'
  end.
Definition skip := skip_from 0.

(** pushEOF: put the mark behind the matching end element. *)
Fixpoint push_from (depth : nat) (ts : list token) : list token :=
  match ts with
  | [] => []
  | TStart q a :: ts' => TStart q a :: push_from (S depth) ts'
  | TEnd q :: ts' => TEnd q :: match depth with O => TEof :: ts' | S d => push_from d ts' end
  | t :: ts' => t :: push_from depth ts'
  end.
Definition push_eof := push_from 0.

(** popEOF *)
Definition pop_eof (ts : list token) : option (list token) :=
  match ts with TEof :: ts' => Some ts' | _ => None end.

(** Decoder.unmarshalInterface: calls the UnmarshalXML method [f] between
    pushEOF and popEOF. After an error the mark may be left in place. *)
Definition sub {A} (f : list token -> out A) (ts : list token) : out A :=
  let '(x, st, ts') := f (push_eof ts) in
  match st, pop_eof ts' with
  | SOk, Some ts'' => (x, SOk, ts'')
  | SOk, None => (x, SAbort XNotConsumed, ts')
  | st, Some ts'' => (x, st, ts'')
  | st, None => (x, st, ts')
  end.

(** The call sites [err = d.DecodeElement(..); if err != nil &&
    !strings.HasPrefix(err.Error(), "expected") { return err }] followed by the
    assignment [set] (for instance structpara.go:62-67). *)
Definition decode {X A} (f : list token -> out A) (set : A -> X -> X) (s : X) (ts : list token) : out X :=
  let '(x, st, ts') := sub f ts in
  match st with
  | SOk | SExp => (set x s, SOk, ts')
  | st => (s, st, ts')
  end.

(** default branch: err = d.Skip(); if err != nil { return err } (for instance
    structsect.go:105-109) *)
Definition skipping {X} (s : X) (ts : list token) : out X :=
  let '(st, ts') := skip ts in (s, st, ts').

(** "Consume the end element: _, err = d.Token()" (for instance
    structsect.go:135-137) *)
Definition next_tok (ts : list token) : status * list token :=
  match ts with
  | [] => (SAbort XSyntax, [])
  | TErr :: _ => (SAbort XSyntax, ts)
  | TEof :: _ => (SAbort XEOF, ts)
  | _ :: ts' => (SOk, ts')
  end.

(** UnmarshalXML methods that read attributes only (for instance
    structsect.go:116-138). *)
Definition leaf {X} (f : X -> string -> string -> X * status) (s : X) (a : list attr) (ts : list token) : out X :=
  match attrs f s a with
  | (s', SOk) => let '(st, ts') := next_tok ts in (s', st, ts')
  | (s', e) => (s', e, ts)
  end.

(** The common loop (for instance structpara.go:52-59): read tokens until
    io.EOF; the handler [h] is run on each
    start element (with the tokens following it), other tokens are ignored. *)
Fixpoint loop_n {X} (n : nat) (h : X -> string -> list attr -> list token -> out X) (s : X) (ts : list token) : out X :=
  match n with
  | O => (s, SFuel, ts)
  | S n' =>
      match ts with
      | [] => (s, SAbort XSyntax, [])
      | TErr :: _ => (s, SAbort XSyntax, ts)
      | TEof :: _ => (s, SOk, ts)
      | TStart q a :: ts' =>
          match h s (snd q) a ts' with
          | (s', SOk, ts'') => loop_n n' h s' ts''
          | r => r
          end
      | _ :: ts' => loop_n n' h s ts'
      end
  end.

(** number of tokens of the input left (marks do not count) *)
Fixpoint size (ts : list token) : nat :=
  match ts with
  | [] => 0
  | TEof :: ts' => size ts'
  | _ :: ts' => S (size ts')
  end.

Definition loop {X} (h : X -> string -> list attr -> list token -> out X) (s : X) (ts : list token) : out X :=
  loop_n (S (size ts)) h s ts.

(** attributes first, then the loop (for instance structdrawing.go:1084-1121) *)
Definition attrs_loop {X} (f : X -> string -> string -> X * status)
    (h : X -> string -> list attr -> list token -> out X) (s : X) (a : list attr) (ts : list token) : out X :=
  match attrs f s a with
  | (s', SOk) => loop h s' ts
  | (s', e) => (s', e, ts)
  end.

(** Decoding into a Go string (encoding/xml's default rule, called in
    structrun.go:95 and structdrawing.go:1449-1494): the character data of the
    element itself, child elements are skipped. Reads up to and including the
    end element. *)
Fixpoint str_n (n : nat) (acc : string) (ts : list token) : out string :=
  match n with
  | O => (acc, SFuel, ts)
  | S n' =>
      match ts with
      | [] => (acc, SAbort XSyntax, [])
      | TErr :: _ => (acc, SAbort XSyntax, ts)
      | TEof :: _ => (acc, SAbort XEOF, ts)
      | TEnd _ :: ts' => (acc, SOk, ts')
      | TChar s :: ts' => str_n n' (acc ++ s)%string ts'
      | TMisc :: ts' => str_n n' acc ts'
      | TStart _ _ :: ts' =>
          match skip ts' with
          | (SOk, ts'') => str_n n' acc ts''
          | (e, ts'') => (acc, e, ts'')
          end
      end
  end.
Definition str (ts : list token) : out string := str_n (S (size ts)) "" ts.

(** Well nesting check of the decoder: from the first end element that does not
    match (or an end of input with open elements) on, Token reports a syntax
    error. *)
Fixpoint check (open : list qname) (ts : list token) : list token :=
  match ts with
  | [] => match open with [] => [] | _ => [TErr] end
  | TStart q a :: ts' => TStart q a :: check (q :: open) ts'
  | TEnd q :: ts' =>
      match open with
      | q' :: open' => if (String.eqb (fst q) (fst q') && String.eqb (snd q) (snd q'))%bool
                       then TEnd q :: check open' ts' else [TErr]
      | [] => [TErr]
      end
  | TErr :: _ => [TErr]
  | TEof :: ts' => check open ts'
  | t :: ts' => t :: check open ts'
  end.

(** Decoder.Decode(v), called in unpack.go:100 and unpack.go:112: read to the
    first start element, then decode it. *)
Fixpoint root {A} (f : list attr -> list token -> out A) (z : A) (ts : list token) : A * status :=
  match ts with
  | [] => (z, SAbort XEOF)
  | TErr :: _ => (z, SAbort XSyntax)
  | TStart q a :: ts' => let '(x, st, _) := sub (f a) ts' in (x, st)
  | _ :: ts' => root f z ts'
  end.
