(* Prop_MainLoop.v - properties C76 (segment initialisation button) and C77 (status lamp). *)
From Verif Require Import MainLoop Spec_MainLoop Proof_MainLoop.

(* C76, debouncing on the AVR board: after any schedule the flag is set iff the button was down in the
   last 101 samples *)
Theorem C76_debounce :
  forall ps, b_pressed (loop avrTick ps) = debounced (samples ps).
Proof. intro ps. exact (proj2 (Bok_all ps [] btnInit Bok_init)). Qed.
Print Assumptions C76_debounce.

(* C76, AVR board: as long as no interrupt falls between the two reads of the flag, every press that lasts
   until a pass of the main loop starts the segment initialisation exactly once *)
Theorem C76_once_per_press_partial :
  forall ps, Forall (fun p => snd p = []) ps ->
    b_starts (loop avrTick ps) = presses [] false ps.
Proof. intros ps H. exact (loop_starts ps [] btnInit Bok_init H). Qed.
Print Assumptions C76_once_per_press_partial.

(* C76: once pressed, holding the button for ever starts nothing more, with interrupts anywhere *)
Theorem C76_held :
  forall ps qs, debounced (samples ps) = true -> forallb (fun x => x) (samples qs) = true ->
    b_starts (loop avrTick (ps ++ qs)) = b_starts (loop avrTick ps).
Proof. exact held_one_start. Qed.
Print Assumptions C76_held.

(* C76, what is not true: a press is lost if the interrupt that sets the flag comes between the two reads *)
Theorem C76_race_refuted :
  exists ps, debounced (samples ps) = true /\ b_starts (loop avrTick ps) = 0 /\
    b_starts (loop avrTick (ps ++ repeat ([true], []) 500)) = 0.
Proof. exists [(repeat true 100, [true])]. vm_compute. auto. Qed.
Print Assumptions C76_race_refuted.

(* C76, what is not true on the ARM board: the test of the button is inverted. A button that nobody
   touches starts the segment initialisation 101 ms after start up; a pressed one never does. *)
Theorem C76_arm_refuted :
  b_starts (loop armTick [(repeat false 101, [])]) = 1 /\
  (forall n, b_starts (loop armTick (repeat ([true], []) n)) = 0).
Proof.
  split; [vm_compute; reflexivity|]. intro n.
  enough (G : forall b, b_starts b = 0 -> b_starts (fold_left (pass armTick) (repeat ([true], []) n) b) = 0)
    by exact (G btnInit eq_refl).
  induction n as [|n IH]; intros b H; cbn [repeat fold_left]; auto.
Qed.
Print Assumptions C76_arm_refuted.

Example C76_example :
  let ps := [(repeat true 60, []); ([false], []); (repeat true 150, []); (repeat true 5, []);
             ([false; true], []); (repeat true 120, [])] in
  Forall (fun p => snd p = []) ps /\ b_starts (loop avrTick ps) = 2 /\ presses [] false ps = 2 /\
  debounced (samples ps) = true /\
  forallb (fun x => x) (samples [(repeat true 5, [true]); ([true], [])]) = true.
Proof. cbv zeta. split; [repeat constructor|]. vm_compute. auto. Qed.

(* C77: steady states show at once; in the slow blinking state, entered from another state, the LED
   changes at the calls number 1, 5, 9, ..., for any number of calls (also when the 8 bit counter
   overflows); in the fast blinking state at every call *)
Theorem C77_steady :
  forall l, l_on (lampStep LampOff l) = false /\ l_on (lampStep LampOn l) = true /\
            l_slow (lampStep LampOff l) = 0 /\ l_slow (lampStep LampOn l) = 0 /\
            l_slow (lampStep LampBlinkFast l) = 0.
Proof. intro l. repeat split. Qed.
Print Assumptions C77_steady.
Theorem C77_slow :
  forall on n, l_on (Nat.iter n (lampStep LampBlinkSlow) (mkLed on 0)) =
               xorb on (N.odd ((N.of_nat n + 3) / 4)).
Proof.
  intros on n. rewrite iter_lamp_slow by lia. cbn [l_on]. rewrite !N.add_0_l.
  change (3 / 4) with 0. now rewrite N.sub_0_r.
Qed.
Print Assumptions C77_slow.
Theorem C77_fast :
  forall on k n, l_on (Nat.iter n (lampStep LampBlinkFast) (mkLed on k)) = xorb on (N.odd (N.of_nat n)).
Proof. intros on k n. exact (iter_lamp_fast n on k). Qed.
Print Assumptions C77_fast.

Example C77_example :
  map (fun n => l_on (Nat.iter n (lampStep LampBlinkSlow) (mkLed false 0))) (seq 0 10)
  = [false; true; true; true; true; false; false; false; false; true] /\
  l_on (Nat.iter 257 (lampStep LampBlinkSlow) (mkLed false 0)) = true.
Proof. vm_compute. auto. Qed.
