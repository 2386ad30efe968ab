(** XML as bytes: the writing of encoding/xml's Encoder and the reading of its
    Decoder (Go 1.20), as far as the package uses them. This is the library the
    package calls at pack.go:87-94 (marshaller.WriteTo), unpack.go:100 and
    unpack.go:112; it is modelled here so that the parts of an archive can be
    byte strings. *)
From Coq Require Import String Ascii List Bool Arith NArith ZArith.
From Verif Require Import GoStr Num Lib XmlTok NameTab.
Import ListNotations.
Local Open Scope list_scope.
Local Open Scope string_scope.

(** ** UTF-8 *)
Definition byte (a : ascii) : N := N_of_ascii a.
Definition between (lo hi : N) (a : ascii) : bool := (lo <=? byte a)%N && (byte a <=? hi)%N.
Definition cont (a : ascii) : bool := between 128 191 a.

(** utf8.DecodeRune: the code point and its width; [None] for an invalid byte
    (RuneError of width 1). [s] is not empty. *)
Definition rune_at (s : string) : option (N * nat) :=
  match s with
  | EmptyString => None
  | String a s1 =>
      let x := byte a in
      if (x <? 128)%N then Some (x, 1)
      else match s1 with
      | EmptyString => None
      | String b s2 =>
          let y := byte b in
          if between 194 223 a then
            if cont b then Some ((x - 192) * 64 + (y - 128), 2%nat)%N else None
          else match s2 with
          | EmptyString => None
          | String c s3 =>
              let z := byte c in
              if between 224 239 a then
                let lo := (if x =? 224 then 160 else 128)%N in
                let hi := (if x =? 237 then 159 else 191)%N in
                if between lo hi b && cont c then Some ((x - 224) * 4096 + (y - 128) * 64 + (z - 128), 3%nat)%N else None
              else match s3 with
              | EmptyString => None
              | String d _ =>
                  if between 240 244 a then
                    let lo := (if x =? 240 then 144 else 128)%N in
                    let hi := (if x =? 244 then 143 else 191)%N in
                    if between lo hi b && cont c && cont d
                    then Some ((x - 240) * 262144 + (y - 128) * 4096 + (z - 128) * 64 + (byte d - 128), 4%nat)%N else None
                  else None
              end
          end
      end
  end.

(** encoding/xml isInCharacterRange *)
Definition in_char_range (r : N) : bool :=
  ((r =? 9) || (r =? 10) || (r =? 13) || ((32 <=? r) && (r <=? 55295)) || ((57344 <=? r) && (r <=? 65533)) || ((65536 <=? r) && (r <=? 1114111)))%N.

(** the check at the end of Decoder.text: every rune is valid UTF-8 and a legal
    character; [skip] counts the bytes left of the current rune *)
Fixpoint legal_go (skip : nat) (s : string) : bool :=
  match s with
  | EmptyString => true
  | String _ s' =>
      match skip with
      | S k => legal_go k s'
      | O => match rune_at s with
             | Some (r, n) => in_char_range r && legal_go (pred n) s'
             | None => false
             end
      end
  end.
Definition legal (s : string) : bool := legal_go 0 s.

(** ** writing *)
(** EscapeString and EscapeText (newlines escaped): a byte that starts a rune is
    replaced when the rune has an escape or is not legal *)
Definition esc_rune (s : string) : option string :=
  match rune_at s with
  | None => Some (String "239" (String "191" (String "189" "")))
  | Some (r, _) =>
      if (r =? 34)%N then Some "&#34;"
      else if (r =? 39)%N then Some "&#39;"
      else if (r =? 38)%N then Some "&amp;"
      else if (r =? 60)%N then Some "&lt;"
      else if (r =? 62)%N then Some "&gt;"
      else if (r =? 9)%N then Some "&#x9;"
      else if (r =? 10)%N then Some "&#xA;"
      else if (r =? 13)%N then Some "&#xD;"
      else if in_char_range r then None
      else Some (String "239" (String "191" (String "189" "")))
  end.
(** [del] says that the bytes left of the current rune are dropped *)
Fixpoint escape_go (skip : nat) (del : bool) (s : string) : string :=
  match s with
  | EmptyString => ""
  | String a s' =>
      match skip with
      | S k => if del then escape_go k del s' else String a (escape_go k del s')
      | O =>
          let n := match rune_at s with Some (_, n) => n | None => 1 end in
          match esc_rune s with
          | Some e => e ++ escape_go (pred n) true s'
          | None => String a (escape_go (pred n) false s')
          end
      end
  end.
Definition escape (s : string) : string := escape_go 0 false s.

(** names: the struct tags of the package put the prefix into the local name *)
Definition show_name (q : qname) : string :=
  if String.eqb (fst q) "" then snd q else fst q ++ ":" ++ snd q.
Definition QUOTE : ascii := "034".
(** printer.writeStart: the attributes *)
Fixpoint show_attrs (l : list attr) : string :=
  match l with
  | [] => ""
  | (q, v) :: l' => String " " (show_name q ++ String "=" (String QUOTE (escape v ++ String QUOTE (show_attrs l'))))
  end.
(** printer.marshalValue, writeStart and writeEnd *)
Fixpoint show (t : tree) : string :=
  match t with
  | Elem q a c =>
      "<" ++ show_name q ++ show_attrs a ++ ">" ++
      (fix go (l : list tree) : string := match l with [] => "" | t :: l' => show t ++ go l' end) c ++
      "</" ++ show_name q ++ ">"
  | Chr s => escape s
  | Cmt => ""
  end.
Definition shows (l : list tree) : string := sconcat (map show l).

(** xml.Header *)
Definition XML_HEADER : string :=
  "<?xml version=" ++ String QUOTE ("1.0" ++ String QUOTE (" encoding=" ++ String QUOTE ("UTF-8" ++ String QUOTE ("?>" ++ String "010" "")))).
(** pack.go:87-94 marshaller.WriteTo *)
Definition write_xml (t : tree) : string := XML_HEADER ++ show t.

(** ** reading *)
Definition is_space (a : ascii) : bool :=
  match byte a with 32%N | 9%N | 10%N | 13%N => true | _ => false end.
(** Decoder.space *)
Fixpoint skip_space (s : string) : string :=
  match s with String a s' => if is_space a then skip_space s' else s | EmptyString => "" end.

Definition is_letter (a : ascii) : bool := between 65 90 a || between 97 122 a.
Definition is_digit (a : ascii) : bool := between 48 57 a.
(** isNameByte, and bytes of multi byte runes *)
Definition name_byte (a : ascii) : bool :=
  is_letter a || is_digit a || (byte a =? 95)%N || (byte a =? 58)%N || (byte a =? 46)%N || (byte a =? 45)%N || (128 <=? byte a)%N.
Fixpoint take_name (s : string) : string * string :=
  match s with
  | String a s' => if name_byte a then let (n, r) := take_name s' in (String a n, r) else ("", s)
  | EmptyString => ("", "")
  end.
(** isName: the first rune and the others *)
Definition name_start (a : ascii) : bool := is_letter a || (byte a =? 95)%N || (byte a =? 58)%N.
Definition first_rune (r : N) : bool :=
  if (r <? 128)%N then name_start (ascii_of_N r) else in_ranges FIRST_RANGES r.
Definition name_rune (r : N) : bool :=
  if (r <? 128)%N then name_byte (ascii_of_N r) else in_ranges FIRST_RANGES r || in_ranges SECOND_RANGES r.
Fixpoint name_go (skip : nat) (s : string) : bool :=
  match s with
  | EmptyString => true
  | String _ s' =>
      match skip with
      | S k => name_go k s'
      | O => match rune_at s with
             | Some (r, n) => name_rune r && name_go (pred n) s'
             | None => false
             end
      end
  end.
Definition valid_name (s : string) : bool :=
  match rune_at s with Some (r, _) => first_rune r && name_go 0 s | None => false end.
(** strings.Cut(s, ":") *)
Fixpoint cut_colon (s : string) : option (string * string) :=
  match s with
  | EmptyString => None
  | String a s' => if Ascii.eqb a ":" then Some ("", s')
                   else match cut_colon s' with Some (x, y) => Some (String a x, y) | None => None end
  end.
(** Decoder.nsname; at the end of the input mustgetc reports an error *)
Definition ns_name (s : string) : option (qname * string) :=
  let (n, r) := take_name s in
  if valid_name n && negb (1 <? count ":" n)%nat && negb (String.eqb r "") then
    match cut_colon n with
    | Some (x, y) => if String.eqb x "" || String.eqb y "" then Some (("", n), r) else Some ((x, y), r)
    | None => Some (("", n), r)
    end
  else None.

(** utf8.EncodeRune for a character reference; surrogates give U+FFFD *)
Definition a_of (n : N) : ascii := ascii_of_N n.
Definition utf8 (r : N) : string :=
  if (r <? 128)%N then String (a_of r) ""
  else if (r <? 2048)%N then String (a_of (192 + r / 64)) (String (a_of (128 + r mod 64)) "")
  else if ((55296 <=? r) && (r <=? 57343))%N then String "239" (String "191" (String "189" ""))
  else if (r <? 65536)%N then String (a_of (224 + r / 4096)) (String (a_of (128 + (r / 64) mod 64)) (String (a_of (128 + r mod 64)) ""))
  else String (a_of (240 + r / 262144)) (String (a_of (128 + (r / 4096) mod 64)) (String (a_of (128 + (r / 64) mod 64)) (String (a_of (128 + r mod 64)) ""))).
Definition hex_digit (a : ascii) : option N :=
  if is_digit a then Some (byte a - 48)%N
  else if between 97 102 a then Some (byte a - 87)%N
  else if between 65 70 a then Some (byte a - 55)%N
  else None.
Fixpoint number (base : N) (acc : N) (s : string) : option N :=
  match s with
  | EmptyString => Some acc
  | String a s' =>
      match hex_digit a with
      | Some d => if (d <? base)%N then number base (acc * base + d)%N s' else None
      | None => None
      end
  end.
Definition char_ref (base : N) (s : string) : option string :=
  if String.eqb s "" then None
  else match number base 0 s with
       | Some n => if (n <=? 1114111)%N then Some (utf8 n) else None
       | None => None
       end.
(** the text between & and ; *)
Definition entity (s : string) : option string :=
  match s with
  | String "#" (String "x" s') => char_ref 16 s'
  | String "#" s' => char_ref 10 s'
  | _ => if String.eqb s "lt" then Some "<"
         else if String.eqb s "gt" then Some ">"
         else if String.eqb s "amp" then Some "&"
         else if String.eqb s "apos" then Some "'"
         else if String.eqb s "quot" then Some (String QUOTE "")
         else None
  end.

(** Decoder.text: [q] is the quote, if any, [b0] and [b1] are the two bytes read
    before, [ent] is the entity being read, if any. Gives the text and the rest,
    or an error. A reference that lacks its semicolon is an error here as there,
    noticed at the next semicolon or at the end. The end of the input inside a
    quoted value is an error (noticed by the next read). *)
Fixpoint text_go (q : option ascii) (b0 b1 : ascii) (ent : option string) (s : string) : option (string * string) :=
  match s with
  | EmptyString => match q, ent with None, None => Some ("", "") | _, _ => None end
  | String b s' =>
      match ent with
      | Some e =>
          if Ascii.eqb b ";" then
            match entity e with
            | Some t => match text_go q zero zero None s' with Some (x, r) => Some (t ++ x, r) | None => None end
            | None => None
            end
          else text_go q b0 b1 (Some (e ++ String b "")) s'
      | None =>
          if (match q with None => true | Some _ => false end) && Ascii.eqb b0 "]" && Ascii.eqb b1 "]" && Ascii.eqb b ">" then None
          else if Ascii.eqb b "<" then match q with None => Some ("", s) | Some _ => None end
          else if (match q with Some c => Ascii.eqb b c | None => false end) then Some ("", s')
          else if Ascii.eqb b "&" then text_go q b0 b1 (Some "") s'
          else
            match text_go q b1 b None s' with
            | None => None
            | Some (x, r) =>
                if Ascii.eqb b "013" then Some (String "010" x, r)
                else if Ascii.eqb b1 "013" && Ascii.eqb b "010" then Some (x, r)
                else Some (String b x, r)
            end
      end
  end.
Definition text (q : option ascii) (s : string) : option (string * string) :=
  match text_go q zero zero None s with
  | Some (x, r) => if legal x then Some (x, r) else None
  | None => None
  end.

(** the text of a CDATA section, up to ]]> *)
Fixpoint cdata_go (b1 : ascii) (s : string) : option (string * string) :=
  match s with
  | EmptyString => None
  | String b s' =>
      if has_prefix "]]>" s then match drop 3 s with Some r => Some ("", r) | None => None end
      else match cdata_go b s' with
           | None => None
           | Some (x, r) =>
               if Ascii.eqb b "013" then Some (String "010" x, r)
               else if Ascii.eqb b1 "013" && Ascii.eqb b "010" then Some (x, r)
               else Some (String b x, r)
           end
  end.
Definition cdata (s : string) : option (string * string) :=
  match cdata_go zero s with
  | Some (x, r) => if legal x then Some (x, r) else None
  | None => None
  end.

(** the attributes of a start element and whether it closes itself; [n] bounds
    the number of attributes *)
Fixpoint read_attrs (n : nat) (s : string) : option (list attr * bool * string) :=
  match n with
  | O => None
  | S n' =>
      match skip_space s with
      | EmptyString => None
      | String b r =>
          if Ascii.eqb b "/" then
            match r with String b' r' => if Ascii.eqb b' ">" then Some ([], true, r') else None | EmptyString => None end
          else if Ascii.eqb b ">" then Some ([], false, r)
          else
            match ns_name (String b r) with
            | None => None
            | Some (q, r1) =>
                match skip_space r1 with
                | String e r2 =>
                    if Ascii.eqb e "=" then
                      match skip_space r2 with
                      | String c r3 =>
                          if Ascii.eqb c QUOTE || Ascii.eqb c "'" then
                            match text (Some c) r3 with
                            | None => None
                            | Some (v, r4) =>
                                match read_attrs n' r4 with
                                | Some (l, x, r5) => Some ((q, v) :: l, x, r5)
                                | None => None
                                end
                            end
                          else None
                      | EmptyString => None
                      end
                    else None
                | EmptyString => None
                end
            end
      end
  end.

(** the rest behind the first occurrence of a string *)
Fixpoint find_after (p : string) (s : string) : option string :=
  match s with
  | EmptyString => None
  | String _ s' => if has_prefix p s then drop (String.length p) s else find_after p s'
  end.
Fixpoint before (p : string) (s : string) : string :=
  match s with
  | EmptyString => ""
  | String a s' => if has_prefix p s then "" else String a (before p s')
  end.
(** procInst: the quoted value behind the first [param=] *)
Definition proc_inst (param s : string) : string :=
  match find_after (param ++ "=") s with
  | Some (String c v) =>
      if Ascii.eqb c QUOTE || Ascii.eqb c "'" then
        match find_after (String c "") v with Some _ => before (String c "") v | None => "" end
      else ""
  | _ => ""
  end.
Fixpoint lower (s : string) : string :=
  match s with
  | EmptyString => ""
  | String a s' => String (if between 65 90 a then ascii_of_N (byte a + 32) else a) (lower s')
  end.
(** only version 1.0 and UTF-8 are accepted *)
Definition pi_ok (target data : string) : bool :=
  negb (String.eqb target "xml") ||
  ((String.eqb (proc_inst "version" data) "" || String.eqb (proc_inst "version" data) "1.0") &&
   (String.eqb (proc_inst "encoding" data) "" || String.eqb (lower (proc_inst "encoding" data)) "utf-8")).

(** The rest of a directive (<!DOCTYPE ..>), from behind its first byte: angle
    brackets nest, those in quotes and in comments do not count. The value is
    what follows the closing bracket. [DSkip n]: n more bytes of <!-- to come;
    [DComment x y]: in a comment, after the bytes x and y. *)
Inductive dmode := DPlain | DQuote (c : ascii) | DSkip (n : nat) | DComment (x y : ascii).
Fixpoint directive (m : dmode) (depth : nat) (s : string) : option string :=
  match s with
  | EmptyString => None
  | String b r =>
      match m with
      | DPlain =>
          if Ascii.eqb b ">" then match depth with O => Some r | S d => directive DPlain d r end
          else if Ascii.eqb b QUOTE || Ascii.eqb b "'" then directive (DQuote b) depth r
          else if Ascii.eqb b "<" then
            if has_prefix "!--" r then directive (DSkip 2) depth r else directive DPlain (S depth) r
          else directive DPlain depth r
      | DQuote c => directive (if Ascii.eqb b c then DPlain else m) depth r
      | DSkip O => directive (DComment "000" "000") depth r
      | DSkip (S n) => directive (DSkip n) depth r
      | DComment x y =>
          if Ascii.eqb x "-" && Ascii.eqb y "-" && Ascii.eqb b ">" then directive DPlain depth r
          else directive (DComment y b) depth r
      end
  end.

(** Decoder.rawToken: the tokens of one call (two for an element that closes
    itself) and the rest; [None] is a syntax error. A comment that contains two
    dashes is an error in encoding/xml. *)
Definition raw_token (s : string) : option (list token * string) :=
  match s with
  | EmptyString => None
  | String b r =>
      if Ascii.eqb b "<" then
        match r with
        | EmptyString => None
        | String c r1 =>
            if Ascii.eqb c "/" then
              match ns_name r1 with
              | Some (q, r2) => match skip_space r2 with
                                | String d r3 => if Ascii.eqb d ">" then Some ([TEnd q], r3) else None
                                | EmptyString => None
                                end
              | None => None
              end
            else if Ascii.eqb c "?" then
              let (n, r2) := take_name r1 in
              let r3 := skip_space r2 in
              match find_after "?>" r3 with
              | Some r4 => if valid_name n && pi_ok n (before "?>" r3) then Some ([TMisc], r4) else None
              | None => None
              end
            else if Ascii.eqb c "!" then
              if has_prefix "--" r1 then
                match drop 2 r1 with
                | None => None
                | Some r2 =>
                    match find_after "--" r2 with
                    | Some (String d r3) => if Ascii.eqb d ">" then Some ([TMisc], r3) else None
                    | _ => None
                    end
                end
              else if has_prefix "[CDATA[" r1 then
                match drop 7 r1 with
                | None => None
                | Some r2 => match cdata r2 with Some (x, r3) => Some ([TChar x], r3) | None => None end
                end
              else
                match r1 with
                | EmptyString => None
                | String d r2 =>
                    if Ascii.eqb d "-" || Ascii.eqb d "[" then None
                    else match directive DPlain 0 r2 with Some r3 => Some ([TMisc], r3) | None => None end
                end
            else
              match ns_name r with
              | None => None
              | Some (q, r2) =>
                  match read_attrs (S (String.length r2)) r2 with
                  | Some (l, true, r3) => Some ([TStart q l; TEnd q], r3)
                  | Some (l, false, r3) => Some ([TStart q l], r3)
                  | None => None
                  end
              end
        end
      else
        match text None s with
        | Some (x, r) => Some ([TChar x], r)
        | None => None
        end
  end.

(** all tokens; after an error nothing more is read *)
Fixpoint lex_n (n : nat) (s : string) : list token :=
  match s with
  | EmptyString => []
  | _ =>
      match n with
      | O => [TErr]
      | S n' =>
          match raw_token s with
          | None => [TErr]
          | Some (l, r) => (l ++ lex_n n' r)%list
          end
      end
  end.
Definition lex (s : string) : list token := lex_n (S (String.length s)) s.
