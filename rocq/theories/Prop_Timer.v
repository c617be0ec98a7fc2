(* Prop_Timer.v - property C29. *)
From Verif Require Import Timer Spec_Timer Proof_Timer.

(* C29: take any history pre in which identifier id was handed out, start id with v, and let any
   calls follow that do not start or stop id (they may start, stop, create other timers). Then
   id is running iff less than v has been processed since. *)
Theorem C29_timer_runs_for_its_duration :
  forall num pre id v post,
    num <= 255 ->
    In id (valid (fst (tRun (timerInit num) pre))) ->
    Forall (fun op => ~ touches id op) post ->
    timerRunning (snd (tRun (timerStart (snd (tRun (timerInit num) pre)) id v) post)) id
    = (elapsed post <? v mod 65536).
Proof. exact running_after_start. Qed.
Print Assumptions C29_timer_runs_for_its_duration.

(* a stopped timer stays stopped until it is started again *)
Theorem C29_timer_stop :
  forall num pre id post,
    num <= 255 ->
    In id (valid (fst (tRun (timerInit num) pre))) ->
    Forall (fun op => ~ touches id op) post ->
    timerRunning (snd (tRun (timerStop (snd (tRun (timerInit num) pre)) id) post)) id = false.
Proof. exact stopped_after_stop. Qed.
Print Assumptions C29_timer_stop.

(* identifiers are distinct, and a creation fails iff num timers exist already *)
Theorem C29_timer_ids_distinct :
  forall num ops, num <= 255 ->
    NoDup (valid (fst (tRun (timerInit num) ops))) /\
    (fst (timerCreate (snd (tRun (timerInit num) ops))) = TIMER_ID_INVALID <->
     N.of_nat (length (valid (fst (tRun (timerInit num) ops)))) = num).
Proof.
  intros num ops H. split.
  - apply (run_ids ops _ (tInv_init num H)).
  - apply create_available, H.
Qed.
Print Assumptions C29_timer_ids_distinct.

(* a timer that was never started, and an identifier out of range, never runs *)
Theorem C29_not_started :
  forall num ops id, (forall v, ~ In (TStart id v) ops) \/ num <= id ->
    timerRunning (snd (tRun (timerInit num) ops)) id = false.
Proof. exact not_started. Qed.
Print Assumptions C29_not_started.

Example C29_not_started_example :
  let ops := [TCreate; TCreate; TStart 0 50; TStart 7 9; TProcess 5] in
  (forall v, ~ In (TStart 1 v) ops) /\ map (timerRunning (snd (tRun (timerInit 5) ops))) [0; 1; 7; 255] = [true; false; false; false].
Proof. cbv zeta. split; [|vm_compute; reflexivity]. intros v H. cbn in H. repeat destruct H as [H|H]; try discriminate H. exact H. Qed.

Example C29_example :
  let pre := [TCreate; TCreate; TStart 0 50; TCreate] in
  let post := [TProcess 10; TStart 0 99; TProcess 20; TStop 2] in
  5 <= 255 /\ valid (fst (tRun (timerInit 5) pre)) = [0; 1; 2] /\
  Forall (fun op => ~ touches 1 op) post /\ elapsed post = 30 /\
  timerRunning (snd (tRun (timerStart (snd (tRun (timerInit 5) pre)) 1 31) post)) 1 = true /\
  timerRunning (snd (tRun (timerStart (snd (tRun (timerInit 5) pre)) 1 30) post)) 1 = false.
Proof.
  cbv zeta. split; [lia|]. split; [vm_compute; reflexivity|]. split.
  - repeat constructor; cbn [touches]; lia.
  - repeat split; vm_compute; reflexivity.
Qed.
