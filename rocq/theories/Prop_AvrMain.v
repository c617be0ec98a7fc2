(* Prop_AvrMain.v - property C82: the whole program of the AVR example *)
From Verif Require Import Spec_AvrMain Proof_AvrMain Proof_ExampleAvr Proof_MainLoop Prop_MainLoop Prop_Lamp FixtureReq.
From Coq Require Import Lia.

(* C82: the program always reaches its main loop *)
Theorem C82_starts : forall ps wr, exists y0, avrStart ps wr = Some y0.
Proof. exact avr_start. Qed.
Print Assumptions C82_starts.

(* C82: whatever the interrupts do, the program uses the framework as it is meant to be used: after the power up the node gets one process call
   per turn, with the messages in the order of their arrival, and besides nothing but starts of the segment initialisation and 250 ms steps.
   So everything proved about reachable states of a node holds for the AVR example. *)
Theorem C82_node :
  forall ps wr y0 ts, (forall x, ps x < 256) -> avrStart ps wr = Some y0 -> Forall turn_wf ts ->
    let y := avrMain ts y0 in
    reachable (y_node y) /\
    exists os, Forall mainOp os /\ reads os = map u_rd ts /\ y_node y = run (map EOp os) (powerUp ps false wr).
Proof.
  intros ps wr y0 ts HP HS HW y. destruct (main_from_start ps wr y0 ts HS) as (os & v & k & P1 & P2 & P3 & _). split.
  - exists ps, false, wr, (map EOp os). split; [exact HP|]. split; [exact (mainOp_wf os ts P1 P2 HW)|exact P3].
  - exists os. auto.
Qed.
Print Assumptions C82_node.

(* C82: the framework is never told more time than has passed, and the clock shows what the framework was told *)
Theorem C82_time :
  forall ps wr y0 ts, avrStart ps wr = Some y0 -> let y := avrMain ts y0 in let told := toldMs (history (y_node y)) in
    told <= msIn ts /\ told mod 250 = 0 /\ y_clk y = times (timeProcess 250) (told / 250) timeInit.
Proof.
  intros ps wr y0 ts HS y told. destruct (main_from_start ps wr y0 ts HS) as (os & v & k & _ & _ & _ & P4 & P5 & _ & P7 & P8 & _).
  fold y in P5, P7. unfold told. rewrite P5. split; [lia|]. rewrite N.mul_comm, N.mod_mul, N.div_mul by lia. auto.
Qed.
Print Assumptions C82_time.

(* C82: if no turn of the main loop takes longer than g milliseconds, every 250 ms step is late by at most g - 1 milliseconds *)
Theorem C82_lag :
  forall ps wr y0 ts g, avrStart ps wr = Some y0 -> 1 <= g -> paced g 0 ts ->
    let told := toldMs (history (y_node (avrMain ts y0))) in msIn ts < told + 250 + (g - 1) * (told / 250).
Proof.
  intros ps wr y0 ts g HS HG HP told. destruct (main_from_start ps wr y0 ts HS) as (os & v & k & _ & _ & _ & P4 & P5 & _ & _ & _ & P9).
  unfold told. rewrite P5. specialize (P9 g HG HP). rewrite (N.mul_comm 250 k), N.div_mul by lia. lia.
Qed.
Print Assumptions C82_lag.

(* C82: if the main loop turns at least once per millisecond, the framework's time is exact to the last full period of 250 ms *)
Theorem C82_exact :
  forall ps wr y0 ts, avrStart ps wr = Some y0 -> paced 1 0 ts -> toldMs (history (y_node (avrMain ts y0))) = 250 * (msIn ts / 250).
Proof.
  intros ps wr y0 ts HS HP. destruct (main_from_start ps wr y0 ts HS) as (os & v & k & _ & _ & _ & P4 & P5 & _ & _ & P8 & P9).
  rewrite P5. specialize (P9 1 ltac:(lia) HP). f_equal. apply (N.div_unique (msIn ts) 250 k (250 - v)); lia.
Qed.
Print Assumptions C82_exact.

(* C82, what is not true: that the framework's time stays near the real time. The period is restarted when the main loop notices its end, and
   turns of 3 ms are enough to let the clock fall behind without bound. *)
Theorem C82_drift_refuted :
  forall ps wr y0 lag, avrStart ps wr = Some y0 ->
    exists ts, Forall turn_wf ts /\ paced 3 0 ts /\ toldMs (history (y_node (avrMain ts y0))) + lag < msIn ts.
Proof.
  intros ps wr y0 lag HS. destruct (start_all ps wr y0 HS) as (S1 & _ & _ & _ & S5 & _).
  exists (repeat turn3 (84 * N.to_nat (lag + 1))). split; [|split].
  - apply Forall_forall. intros t Ht. apply repeat_spec in Ht. subst t. exact Logic.I.
  - apply (drift_paced _ 0).
  - destruct (drift_blocks (N.to_nat (lag + 1)) 0 y0 S1) as [_ K]. cbv zeta in K. rewrite K, S5, drift_ms. lia.
Qed.
Print Assumptions C82_drift_refuted.

(* C82: how often the segment initialisation is started is decided by the button alone, as described by property C76: if no millisecond
   interrupt falls between the two reads of the flag, once for every press of at least 101 ms that a turn of the main loop sees *)
Theorem C82_button :
  forall ps wr y0 ts, avrStart ps wr = Some y0 -> let ps := passesOf 0 [] ts in
    initCalls (history (y_node (avrMain ts y0))) = b_starts (loop avrTick ps) /\
    (Forall (fun p => snd p = []) ps -> initCalls (history (y_node (avrMain ts y0))) = presses [] false ps).
Proof.
  intros ps wr y0 ts HS p. destruct (main_from_start ps wr y0 ts HS) as (os & v & k & _ & _ & _ & _ & _ & P6 & _).
  fold p in P6. split; [symmetry; exact P6|]. intros H. rewrite <- P6. apply C76_once_per_press_partial, H.
Qed.
Print Assumptions C82_button.

(* C82: every 250 ms step brings the LED in line with the state of the node, whatever actions were executed before: it is lit if the node is
   active and dark if the node is idle, waits for its reset or has failed *)
Theorem C82_lamp :
  forall ps wr y0 ts t, (forall x, ps x < 256) -> avrStart ps wr = Some y0 -> Forall turn_wf (ts ++ [t]) ->
    let y := avrMain ts y0 in let y' := avrMain (ts ++ [t]) y0 in let s := w_st (y_node y') in
    toldMs (history (y_node y')) <> toldMs (history (y_node y)) ->
    (exists led, y_led y' = lampStep (lampFor s) led) /\
    (isActive (y_node y') = true -> l_on (y_led y') = true) /\ (s = IDLE \/ s = RESET \/ s = ERROR -> l_on (y_led y') = false).
Proof.
  intros ps wr y0 ts t HP HS HW y y' s HT.
  destruct (C82_node ps wr y0 (ts ++ [t]) HP HS HW) as [HR _]. fold y' in HR.
  assert (EY : y' = avrTurn y t) by (unfold y', y, avrMain; rewrite fold_left_app; reflexivity).
  destruct (start_all ps wr y0 HS) as (S1 & _ & S3 & _).
  destruct (main_all ts 0 250 0 y0 [] btnInit S1 ltac:(lia) S3 ltac:(cbn; lia)) as (os & v & k & _ & _ & _ & P4 & _). cbv zeta in P4. fold y in P4.
  pose proof (turn_all _ _ _ t [] (y_btn y) P4 eq_refl) as K. cbv zeta in K. rewrite <- EY in K.
  destruct K as (_ & (st & K2 & _) & _ & _ & K5).
  destruct (v <=? _) eqn:F in K2, K5.
  2:{ exfalso. apply HT. rewrite K2. rewrite (proj1 (run_counts _ _ (turnOps_main _ _ _))). destruct st; cbn; lia. }
  destruct (K5 eq_refl) as (c & led & EL).
  assert (LS : lampState (w_out (y_node y')) = lampFor s).
  { pose proof (C78_lamp bool avrEnv (y_node y') HR) as X. unfold history in X. destruct (lamp_shown (w_out (y_node y'))) as [[Z _]|Z]; [congruence|].
    rewrite Z in X. injection X as X. exact X. }
  rewrite LS in EL. split; [eexists; exact EL|]. split.
  - intros A. unfold isActive in A. fold s in A. rewrite EL. destruct s; try discriminate A. reflexivity.
  - intros A. rewrite EL. destruct A as [-> | [-> | ->]]; reflexivity.
Qed.
Print Assumptions C82_lamp.

(* a node with the nickname 5: a turn of 139 ms, then 111 turns of one ms with the button pressed. The segment initialisation starts once, the
   framework and the clock are told 250 ms in the last turn, which switches the LED on. *)
Definition exTurn (l : list bool) : Turn := mkTurn None l [] [].
Definition exTurns : list Turn := exTurn (repeat false 1390) :: repeat (exTurn (repeat true 10)) 111.
Definition exSys : Sys :=
  mkSys (powerUp (exPs avrCfg 5) false []) (drvSetCallback true drvInit) (swStart (swStart (swInit 2) 0 10 false) 1 250 false) btnInit (mkLed false 0) timeInit.
Lemma exSys_start : avrStart (exPs avrCfg 5) [] = Some exSys.
Proof. unfold avrStart. rewrite avr_init_ok. unfold exSys, powerUp. reflexivity. Qed.
Example C82_example :
  (forall x, exPs avrCfg 5 x < 256) /\ avrStart (exPs avrCfg 5) [] = Some exSys /\ Forall turn_wf exTurns /\ paced 139 0 exTurns /\
  Forall (fun p => snd p = []) (passesOf 0 [] exTurns) /\ paced 1 0 (repeat (exTurn (repeat true 10)) 3) /\
  let y := avrMain exTurns exSys in let before := avrMain (removelast exTurns) exSys in
  (msIn exTurns, toldMs (history (y_node before)), toldMs (history (y_node y)), initCalls (history (y_node y)), w_st (y_node y),
   tm_ms (ck_time (y_clk y)), presses [] false (passesOf 0 [] exTurns), l_on (y_led before), l_on (y_led y)) =
  (250, 0, 250, 1, INIT, 250, 1, false, true).
Proof.
  split. { intros x. unfold exPs. destruct (x =? ps_nick avrCfg); [reflexivity|]. destruct (x =? ps_ctrl avrCfg); reflexivity. }
  split; [exact exSys_start|]. split. { constructor; [exact Logic.I|]. apply Forall_forall. intros t Ht. apply repeat_spec in Ht. subst t. exact Logic.I. }
  split. { vm_compute. repeat split; discriminate. }
  split. { vm_compute. repeat constructor. }
  split. { vm_compute. repeat split; discriminate. }
  vm_compute. reflexivity.
Qed.
(* with a rule that switches the LED off: the LED of the active node is lit, goes out, and is lit again at the next 250 ms step *)
Definition exDark : Sys :=
  mkSys (powerUp (fun x => if (ps_dm avrCfg <=? x) && (x <? ps_dm avrCfg + 8) then nth (N.to_nat (x - ps_dm avrCfg)) [0; 128; 0; 0; 255; 4; 2; 0] 0
                           else exPs avrCfg 5 x) false [])
    (drvSetCallback true drvInit) (swStart (swStart (swInit 2) 0 10 false) 1 250 false) btnInit (mkLed false 0) timeInit.
Example C82_lamp_example :
  let quarter := exTurn (repeat false 2500) in let off := mkTurn (Some (exMsg 20 4 9 [0; 0; 0])) [] [] [] in
  map (fun ts => let y := avrMain ts exDark in (isActive (y_node y), l_on (y_led y)))
    [[quarter]; [quarter; off]; [quarter; off; quarter]] = [(true, true); (true, false); (true, true)].
Proof. vm_compute. reflexivity. Qed.
