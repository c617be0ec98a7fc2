(* Prop_TimerDrv.v - property C81: the timer driver of the AVR example *)
From Verif Require Import Spec_TimerDrv Proof_TimerDrv.
From Coq Require Import Lia.

(* Ten overflow interrupts are one tick: after any number of interrupts the tick counter is the number of full tens (modulo 256), and the
   callback has been called exactly once per tick; without a callback nothing is called. *)
Theorem C81_ticks : forall given k,
  let d := drvSetCallback given drvInit in
  drvGetTick (overflows k d) = (N.of_nat k / 10) mod 256 /\
  callbacks k d = if given then N.of_nat k / 10 else 0.
Proof.
  intros. destruct (overflows_gen k d) as (A & _ & _ & B); try (cbn; lia). exact (conj A B).
Qed.
Print Assumptions C81_ticks.
Example C81_ticks_example : drvGetTick (overflows 2575 (drvSetCallback true drvInit)) = 1 /\ callbacks 2575 (drvSetCallback true drvInit) = 257.
Proof. vm_compute. split; reflexivity. Qed.

(* The callback is called at the tenth, twentieth, ... interrupt: whatever was before, the next one comes within ten interrupts and no
   earlier than ten interrupts after the last one. *)
Theorem C81_regular : forall k, fst (drvIsr (overflows k (drvSetCallback true drvInit))) = true <-> N.of_nat (S k) mod 10 = 0.
Proof.
  intros k. destruct (overflows_gen k (drvSetCallback true drvInit)) as (_ & A & B & _); try (cbn; lia).
  cbn [td_intr drvSetCallback drvInit td_cb] in A, B. rewrite N.add_0_l in A. unfold drvIsr. rewrite A, B. unfold THRESHOLD, u8.
  pose proof (N.mod_lt (N.of_nat k) 10 ltac:(lia)) as L. rewrite (N.mod_small (_ + 1)) by lia.
  pose proof (N.div_mod (N.of_nat k) 10 ltac:(lia)) as D.
  set (q := N.of_nat k / 10) in *. set (r := N.of_nat k mod 10) in *.
  replace (N.of_nat (S k)) with (r + 1 + q * 10) by lia. rewrite N.mod_add by lia.
  destruct (N.leb_spec 10 (r + 1)); cbn [fst].
  - replace (r + 1) with 10 by lia. split; reflexivity.
  - rewrite N.mod_small by lia. split; [discriminate|lia].
Qed.
Print Assumptions C81_regular.
Example C81_regular_example : fst (drvIsr (overflows 19 (drvSetCallback true drvInit))) = true /\
  fst (drvIsr (overflows 20 (drvSetCallback true drvInit))) = false.
Proof. vm_compute. split; reflexivity. Qed.

(* timerDrv_sleep(n), 1 <= n, called at any counter value: if the processor reads the counter fast enough it returns exactly when the n-th
   tick after the call is seen, also if the counter wraps around meanwhile, and it does not wait any longer. *)
Theorem C81_sleep_partial : forall n t gaps, 0 < n < 256 -> t < 256 -> brisk gaps ->
  (forall x, sleep n t gaps = Some x -> x = n) /\ (n < total gaps -> sleep n t gaps <> None).
Proof.
  intros n t gaps Hn Ht Hb. pose proof (sleep_brisk n t gaps Hn Ht Hb) as H.
  destruct (sleep n t gaps); split; intros; try congruence; lia.
Qed.
Print Assumptions C81_sleep_partial.
Example C81_sleep_example : brisk [0; 1; 0; 0; 1; 0; 0; 1; 0] /\ 3 < 256 /\ sleep 3 254 [0; 1; 0; 0; 1; 0; 0; 1; 0] = Some 3.
Proof. split. cbn. lia. split; [lia|]. vm_compute. reflexivity. Qed.

(* It is not true of timerDrv_sleep(0): a tick between the first two reads makes it wait for 256 ticks, however fast the processor is;
   nor of a tick before each of the first reads: sleep(1) called at the counter value 254 then waits for 257 ticks. *)
Theorem C81_sleep_refuted :
  (forall t, t < 255 -> exists gaps, brisk gaps /\ sleep 0 t gaps = Some 256) /\
  (exists gaps, Forall (fun g => g <= 1) gaps /\ sleep 1 254 gaps = Some 257).
Proof.
  split.
  - intros t H. exists (1 :: alternating 256). split; [|exact (sleep_zero t H)].
    split; [lia|]. split; [cbn; lia|]. apply brisk_alternating.
  - exists (1 :: 1 :: alternating 256). split; [|vm_compute; reflexivity].
    repeat (constructor; [lia|]). vm_compute. repeat (constructor; [discriminate|]). constructor.
Qed.
Print Assumptions C81_sleep_refuted.
