(** C58: a document built by several goroutines. *)
From Coq Require Import String List Bool Arith NArith.
From Verif Require Import GoStr Lib Types Docx Par SpecPar ParFacts ParFacts2 ParFacts3.
Import ListNotations.
Local Open Scope string_scope.
Local Open Scope list_scope.

(** Whatever the schedule: all drawing ids, relationship ids, picture files and
    numbered names that calls got are different. *)
Theorem C58_distinct : forall s sched, par_start s -> room s ->
  NoDup (flat_map o_doc (outcomes (prun sched s))) /\ NoDup (flat_map o_rid (outcomes (prun sched s))) /\
  NoDup (flat_map o_file (outcomes (prun sched s))) /\ NoDup (flat_map o_number (outcomes (prun sched s))).
Proof. exact par_distinct. Qed.
Print Assumptions C58_distinct.

(** When one goroutine adds links and pictures and the others add shapes, every
    relationship id a call has got leads to its link or picture, at every moment. *)
Theorem C58_registered : forall s sched i, par_start s -> room s -> fresh_ids (p_reg s) -> one_relates i s ->
  forall o, In o (outcomes (prun sched s)) -> registered (p_reg (prun sched s)) o.
Proof. exact par_registered. Qed.
Print Assumptions C58_registered.

(** And between its calls the relationships and pictures of the document are
    those that the same calls make with nobody else around, with the same ids. *)
Theorem C58_as_alone : forall s sched i j j', par_start s -> one_relates i s -> nth_error (p_jobs s) i = Some j ->
  nth_error (p_jobs (prun sched s)) i = Some j' -> j_at j' = Free ->
  exists past, j_todo j = past ++ j_todo j' /\ flat_map o_rid (j_out j') = fst (alone past (p_reg s)) /\
    same_parts (p_reg (prun sched s)) (snd (alone past (p_reg s))).
Proof. exact par_one. Qed.
Print Assumptions C58_as_alone.

(** No run gets stuck. *)
Theorem C58_can_finish : forall s sched, par_start s -> room s -> exists more, par_done (prun (sched ++ more) s).
Proof. exact par_can_finish. Qed.
Print Assumptions C58_can_finish.

(** Whenever two goroutines begin by adding a link there is a schedule after
    which the id of a finished call is not among the relationships. *)
Theorem C58_two_writers_lose : forall s i k ji jk a b ta tb, par_start s -> room s -> fresh_ids (p_reg s) -> i <> k ->
  nth_error (p_jobs s) i = Some ji -> nth_error (p_jobs s) k = Some jk -> j_todo ji = KLink a :: ta -> j_todo jk = KLink b :: tb ->
  exists sched id, In id (flat_map o_rid (outcomes (prun sched s))) /\ ~ In id (map rel_id (rels (p_reg (prun sched s)))).
Proof. exact par_loses. Qed.
Print Assumptions C58_two_writers_lose.

(** A new document; the first goroutine adds a link, a shape and a picture, two
    others add shapes of the same name. *)
Definition ex_par : pstate :=
  mk_pstate false empty_reg
    [mk_job [KLink "https://a"; KDraw (WShape "box"); KDraw (WPicture "png" "data")] Free [];
     mk_job [KDraw (WShape "box"); KDraw (WShape "box")] Free [];
     mk_job [KDraw (WShape "box")] Free []].
Lemma ex_fresh : fresh_ids (p_reg ex_par).
Proof. exact fresh_empty. Qed.
Fixpoint rounds (n : nat) : list nat := match n with O => [] | S m => [1; 0; 2; 0; 1] ++ rounds m end.
Example C58_ex : par_start ex_par /\ room ex_par /\ fresh_ids (p_reg ex_par) /\ one_relates 0 ex_par /\
  par_done (prun (rounds 30) ex_par) /\
  outcomes (prun (rounds 30) ex_par) =
    [OLink "https://a" 4; OShape "box" 3 2; OPicture "png" "data" 5 1 1 5; OShape "box" 1 1; OShape "box" 4 4; OShape "box" 2 3] /\
  refer_target (p_reg (prun (rounds 30) ex_par)) "rId5" = Ok "media/image1.png".
Proof.
  split; [|split; [|split; [exact ex_fresh|split; [|split; [|split; vm_compute; reflexivity]]]]].
  - split; [reflexivity|]. intros j [<-|[<-|[<-|[]]]]; split; reflexivity.
  - repeat split; intros; reflexivity.
  - intros [|[|[|[|k]]]] j E D c I; cbn in E; try discriminate; try congruence; injection E as <-; cbn in I;
    repeat destruct I as [<-|I]; cbn; tauto.
  - apply idle_done. vm_compute. reflexivity.
Qed.
(** Two goroutines with one link each: the schedule of the theorem. *)
Definition ex_two : pstate :=
  mk_pstate false empty_reg [mk_job [KLink "https://a"] Free []; mk_job [KLink "https://b"] Free []].
Example C58_ex_lost : par_done (prun [0; 0; 1; 1; 1; 0] ex_two) /\
  outcomes (prun [0; 0; 1; 1; 1; 0] ex_two) = [OLink "https://a" 4; OLink "https://b" 5] /\
  refer_target (p_reg (prun [0; 0; 1; 1; 1; 0] ex_two)) "rId5" = Err "ref id not found".
Proof. split; [apply idle_done|split]; vm_compute; reflexivity. Qed.
