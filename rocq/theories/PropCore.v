(** Properties of the counters and of the number readers. *)
From Coq Require Import String Ascii List Bool Arith NArith ZArith Permutation.
From Verif Require Import GoStr Num Lib Docx Conc SpecConc ConcFacts SpecNum NumFacts.
Import ListNotations.
Local Open Scope string_scope.
Local Open Scope list_scope.

(** C10: IncreaseID under every schedule. *)
Theorem C10_any_schedule : forall s sched nm, start s ->
  (forall x, (counter x s + N.of_nat (all_calls x s) < 2 ^ 64)%N) ->
  NoDup (all_returned nm (crun sched s)) /\
  (forall n, In n (all_returned nm (crun sched s)) -> (counter nm s < n <= counter nm s + N.of_nat (all_calls nm s))%N) /\
  (done (crun sched s) ->
     Permutation (all_returned nm (crun sched s)) (next_numbers (counter nm s) (all_calls nm s)) /\
     counter nm (crun sched s) = (counter nm s + N.of_nat (all_calls nm s))%N).
Proof. exact increase_any_schedule. Qed.
Print Assumptions C10_any_schedule.
(** No schedule gets stuck: it can always be continued until all calls returned. *)
Theorem C10_can_finish : forall s, start s -> (forall x, (counter x s + N.of_nat (all_calls x s) < 2 ^ 64)%N) ->
  forall sched, exists more, done (crun (sched ++ more) s).
Proof. exact can_finish. Qed.
Print Assumptions C10_can_finish.
Definition ex_conc : cstate := mk_cstate false [("a", 7%N)] [mk_gor ["a"; "b"] Idle []; mk_gor ["a"] Idle []; mk_gor ["b"; "a"] Idle []].
Example C10_ex : start ex_conc /\
  let s := crun [1; 0; 1; 2; 1; 1; 1; 0; 2; 0; 0; 0; 0; 2; 2; 2; 2; 2; 0; 0; 0; 0; 0; 2; 2; 2; 2; 2; 2] ex_conc in
  done s /\ all_returned "a" s = [9; 8; 10]%N /\ all_returned "b" s = [2; 1]%N.
Proof.
  split.
  - split; [reflexivity|]. intros g [<-|[<-|[<-|[]]]]; auto.
  - vm_compute. split; auto. intros g [<-|[<-|[<-|[]]]]; auto.
Qed.

(** C41: GetInt and GetInt64 on every spelling, with or without sign and with
    any leading zeros, of every 64 bit integer; and on what FormatInt writes. *)
Theorem C41_get_int : forall (L : GoLib) s z, spells s z -> in64 z = true -> exists v, get_int s = GVal v /\ iv v = z.
Proof. exact get_int_spelling. Qed.
Print Assumptions C41_get_int.
Theorem C41_get_int_itoa : forall (L : GoLib) (a : i64), get_int (itoa (iv a)) = GVal a.
Proof. exact get_int_itoa. Qed.
Print Assumptions C41_get_int_itoa.
Example C41_ex : spells "-007" (-7)%Z /\ itoa (iv (i64_of (-9223372036854775808))) = "-9223372036854775808".
Proof.
  split; [|reflexivity]. change "-007" with ("-" ++ "007")%string. change (-7)%Z with (- Z.of_N 7)%Z. apply sp_minus; [|discriminate].
  apply (dec_snoc "00" 0 "7" 7); [|split; reflexivity]. apply (dec_snoc "0" 0 "0" 0); [|split; reflexivity].
  apply (dec_snoc "" 0 "0" 0); [constructor|split; reflexivity].
Qed.
