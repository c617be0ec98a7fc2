(* Prop_SwTimer.v - property C72. *)
From Verif Require Import SwTimer Spec_SwTimer Proof_SwTimer.

(* C72, manual timers: started with v after any history, the timer is reported as expired exactly when
   v (modulo 256) interrupts have passed, whatever calls for other timers and however many polls happen. *)
Theorem C72_manual :
  forall num pre id v post,
    id < num -> Forall (fun op => ~ sTouches id op) post ->
    expired (swInit num) (pre ++ SStart id v true :: post) id = (v mod 256 <=? ticks post).
Proof. exact expired_manual. Qed.
Print Assumptions C72_manual.

(* C72, automatic timers: after an expiration was reported, the next one is reported exactly when v
   further interrupts have passed. *)
Theorem C72_automatic :
  forall num pre id v p1 p2,
    id < num -> Forall (fun op => ~ sTouches id op) (p1 ++ SPoll id :: p2) ->
    let ts := sRun (swInit num) (pre ++ SStart id v false :: p1) in
    fst (swGetStatus ts id) = true ->
    expirations (sRun ts [SPoll id]) p2 id = 0 ->
    expired ts (SPoll id :: p2) id = (v mod 256 <=? ticks p2).
Proof. exact expired_again. Qed.
Print Assumptions C72_automatic.

(* C72, automatic timers never run fast: n expirations need at least n * v interrupts, for every
   interleaving of interrupts and polls. *)
Theorem C72_never_fast :
  forall num pre id v post,
    id < num -> v < 256 -> Forall (fun op => ~ sTouches id op) post ->
    v * expirations (sRun (swInit num) (pre ++ [SStart id v false])) post id <= ticks post.
Proof. exact auto_never_fast. Qed.
Print Assumptions C72_never_fast.

(* C72, a main loop that polls after every interrupt sees exactly one expiration per period *)
Theorem C72_exact_when_polled :
  forall num pre id v k,
    id < num -> 0 < v < 256 ->
    expirations (sRun (swInit num) (pre ++ [SStart id v false])) (rounds id k) id = N.of_nat k / v.
Proof. exact auto_exact. Qed.
Print Assumptions C72_exact_when_polled.

(* C72, an identifier that does not exist: reported as stopped, no timer is affected *)
Theorem C72_invalid_id :
  forall num ops id, num <= id ->
    let ts := sRun (swInit num) ops in
    swGetStatus ts id = (true, ts) /\ swStop ts id = ts /\ (forall v m, swStart ts id v m = ts).
Proof. exact out_of_range. Qed.
Print Assumptions C72_invalid_id.

(* C72, a timer that was never started since swTimer_init is always reported as stopped, whatever is
   stopped, polled or started beside it and however many interrupts come *)
Theorem C72_never_started :
  forall num ops id, (forall v m, ~ In (SStart id v m) ops) -> expired (swInit num) ops id = true.
Proof. exact never_started. Qed.
Print Assumptions C72_never_started.

(* C72, swTimer_stop stops a manual timer: it is reported as stopped until it is started again *)
Theorem C72_stop_manual :
  forall num pre id v p1 p2,
    id < num -> Forall (fun op => ~ sTouches id op) p1 -> (forall w m, ~ In (SStart id w m) p2) ->
    expired (swInit num) (pre ++ SStart id v true :: p1 ++ SStop id :: p2) id = true.
Proof. exact stopped_manual. Qed.
Print Assumptions C72_stop_manual.

(* C72, what is not true: swTimer_stop does not stop an automatic timer; the next poll starts it again,
   and it expires 5 interrupts later although nobody has started it *)
Theorem C72_stop_refuted :
  exists ops, let ts := sRun (swInit 2) (ops ++ [SStop 1]) in
    (forall op, In op ops -> op = SStart 1 5 false) /\
    expired ts [] 1 = true /\ expired ts [SPoll 1] 1 = false /\
    expired ts (SPoll 1 :: repeat STick 4) 1 = false /\ expired ts (SPoll 1 :: repeat STick 5) 1 = true.
Proof.
  exists [SStart 1 5 false]. cbv zeta. split.
  - intros op [<-|[]]; reflexivity.
  - vm_compute. auto.
Qed.
Print Assumptions C72_stop_refuted.

(* C72, what is not true: the time base is not kept when the loop polls late: 500 interrupts of a timer
   of 250 with one late poll give one expiration only *)
Theorem C72_late_poll_refuted :
  exists post, Forall (fun op => ~ sTouches 1 op) post /\ ticks post = 500 /\
    expired (sRun (swInit 2) [SStart 1 250 false]) post 1 = false /\
    expirations (sRun (swInit 2) [SStart 1 250 false]) post 1 = 1.
Proof.
  exists (repeat STick 300 ++ SPoll 1 :: repeat STick 200). split; [|vm_compute; auto].
  apply Forall_app; split; [|constructor; [exact (fun H => H)|]].
  all: apply Forall_forall; intros op H; apply repeat_spec in H; subst; exact (fun H => H).
Qed.
Print Assumptions C72_late_poll_refuted.

Example C72_example :
  let pre := [SStart 0 10 true; STick; SPoll 0; STick] in
  let post := [STick; SPoll 1; SStart 0 7 true; STick; SPoll 0; STick] in
  1 < 2 /\ Forall (fun op => ~ sTouches 1 op) post /\ ticks post = 3 /\
  expired (swInit 2) (pre ++ SStart 1 3 true :: post) 1 = true /\
  expired (swInit 2) (pre ++ SStart 1 4 true :: post) 1 = false /\
  let ts := sRun (swInit 2) (pre ++ SStart 1 3 false :: [STick; STick; STick]) in
  fst (swGetStatus ts 1) = true /\ expirations (sRun ts [SPoll 1]) [STick; SPoll 1; STick; STick] 1 = 0 /\
  expired ts (SPoll 1 :: [STick; SPoll 1; STick; STick]) 1 = true /\
  expirations (sRun (swInit 2) (pre ++ [SStart 1 250 false])) (rounds 1 1000) 1 = 4.
Proof.
  cbv zeta. split; [lia|]. split.
  - repeat constructor; cbn [sTouches]; lia.
  - repeat split; vm_compute; reflexivity.
Qed.

(* C72_never_started and C72_stop_manual *)
Example C72_stop_example :
  (forall v m, ~ In (SStart 1 v m) [SStart 0 9 false; STick; SPoll 1; SStop 1; STick]) /\
  expired (swInit 2) [SStart 0 9 false; STick; SPoll 1; SStop 1; STick] 1 = true /\
  expired (swInit 2) ([STick] ++ SStart 1 9 true :: [STick; SPoll 1]) 1 = false /\
  expired (swInit 2) ([STick] ++ SStart 1 9 true :: [STick; SPoll 1] ++ SStop 1 :: [SPoll 1; STick; SPoll 1]) 1 = true.
Proof.
  split; [|vm_compute; auto]. intros v m H. repeat (destruct H as [H|H]; [discriminate|]). exact H.
Qed.
