(** Specifications for properties about a stream that goes wrong somewhere:
    what stands before. Nothing here uses the decoder. *)
From Coq Require Import String Ascii List Bool Arith NArith ZArith.
From Verif Require Import GoStr Num Lib Types XmlTok.
Import ListNotations.
Local Open Scope list_scope.

(** [open_after ts qs]: the tokens [ts] are properly nested, and behind them
    the elements [qs] are open, the innermost first. *)
Inductive open_after : list token -> list qname -> Prop :=
| oa_nil : open_after [] []
| oa_start : forall ts qs q a, open_after ts qs -> open_after (ts ++ [TStart q a]) (q :: qs)
| oa_end : forall ts qs q, open_after ts (q :: qs) -> open_after (ts ++ [TEnd q]) qs
| oa_chr : forall ts qs s, open_after ts qs -> open_after (ts ++ [TChar s]) qs
| oa_misc : forall ts qs, open_after ts qs -> open_after (ts ++ [TMisc]) qs.

(** The stream cannot go on like this when [qs] are open: it ends, there is a
    syntax error, or an end element does not match. *)
Inductive broken : list qname -> list token -> Prop :=
| br_end : forall q qs, broken (q :: qs) []
| br_err : forall qs ts, broken qs (TErr :: ts)
| br_match : forall q q' qs ts, q <> q' -> broken (q :: qs) (TEnd q' :: ts)
| br_none : forall q ts, broken [] (TEnd q :: ts).
