(** Vocabulary for documents built by several goroutines. *)
From Coq Require Import String List Bool Arith NArith.
From Verif Require Import GoStr Lib Types Docx Par.
Import ListNotations.
Local Open Scope string_scope.
Local Open Scope list_scope.

(** no call has begun; all calls have returned *)
Definition par_start (s : pstate) : Prop :=
  p_locked s = false /\ forall j, In j (p_jobs s) -> j_at j = Free /\ j_out j = [].
Definition par_done (s : pstate) : Prop := forall j, In j (p_jobs s) -> j_at j = Free /\ j_todo j = [].

(** everything the finished calls got *)
Definition outcomes (s : pstate) : list outcome := flat_map j_out (p_jobs s).
Definition count_calls (s : pstate) : nat := length (flat_map j_todo (p_jobs s)).

(** drawing ids, relationship ids, picture files and numbered names in what
    calls got *)
Definition o_doc (o : outcome) : list N :=
  match o with OShape _ d _ => [d] | OPicture _ _ d _ _ _ => [d] | OLink _ _ => [] end.
Definition o_rid (o : outcome) : list string :=
  match o with OShape _ _ _ => [] | OPicture _ _ _ _ _ r => [("rId" ++ itoa_u r)%string] | OLink _ r => [("rId" ++ itoa_u r)%string] end.
Definition o_file (o : outcome) : list string :=
  match o with OPicture f _ _ _ i _ => [("image" ++ itoa_u i ++ "." ++ f)%string] | _ => [] end.
Definition o_number (o : outcome) : list (string * N) :=
  match o with OShape nm _ n => [(nm, n)] | OPicture _ _ _ n _ _ => [(TUPIAN, n)] | OLink _ _ => [] end.

(** no counter can wrap around or leave the non-negative ints *)
Definition room (s : pstate) : Prop :=
  let k := N.of_nat (count_calls s) in
  (docid (p_reg s) + k < 9223372036854775808)%N /\
  (rid (p_reg s) + k < 9223372036854775808)%N /\
  (imgid (p_reg s) + k < 9223372036854775808)%N /\
  (forall nm, match mget nm (slow (p_reg s)) with Some v => v + k | None => k end < 9223372036854775808)%N.

(** a call that adds a relationship *)
Definition relates (c : call) : Prop :=
  match c with KDraw (WShape _) => False | _ => True end.
(** only goroutine [i] adds links and pictures *)
Definition one_relates (i : nat) (s : pstate) : Prop :=
  forall k j, nth_error (p_jobs s) k = Some j -> k <> i -> forall c, In c (j_todo j) -> ~ relates c.

(** The calls of one goroutine made one after the other with nobody else
    around: what they do to the relationships and pictures, and the relationship
    ids they get. *)
Fixpoint alone (l : list call) (g : reg) : list string * reg :=
  match l with
  | [] => ([], g)
  | KDraw (WShape _) :: l' => alone l' g
  | KDraw (WPicture f d) :: l' => let '(id, g1) := add_image f d g in let '(ids, g2) := alone l' g1 in (id :: ids, g2)
  | KLink k :: l' => let '(id, g1) := add_link_relation k g in let '(ids, g2) := alone l' g1 in (id :: ids, g2)
  end.
(** two registries agree on relationships and pictures *)
Definition same_parts (a b : reg) : Prop :=
  rels a = rels b /\ media a = media b /\ midx a = midx b /\ rid a = rid b /\ imgid a = imgid b.

(** the relationship of a finished call is there *)
Definition registered (g : reg) (o : outcome) : Prop :=
  match o with
  | OShape _ _ _ => True
  | OLink k r => refer_target g ("rId" ++ itoa_u r)%string = Ok k
  | OPicture f d _ _ i r =>
      refer_target g ("rId" ++ itoa_u r)%string = Ok ("media/image" ++ itoa_u i ++ "." ++ f)%string /\
      In (("image" ++ itoa_u i ++ "." ++ f)%string, d) (media g)
  end.
(** no relationship has an id that will be handed out *)
Definition fresh_ids (g : reg) : Prop :=
  forall k, (rid g < k)%N -> (k < 9223372036854775808)%N -> ~ In ("rId" ++ itoa_u k)%string (map rel_id (rels g)).
