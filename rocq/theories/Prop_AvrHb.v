(* Prop_AvrHb.v - property C82: the heartbeats of the AVR example in real time *)
From Verif Require Import Spec_AvrMain Spec_HbRun Proof_AvrMain Proof_HbRun Proof_Heartbeat Proof_ExampleAvr Proof_AvrHb Prop_AvrMain Prop_HbRun FixtureReq.
From Coq Require Import Lia.

Lemma opwf os ts : Forall mainOp os -> reads os = map u_rd ts -> Forall turn_wf ts -> Forall op_wf os.
Proof. intros H1 H2 H3. pose proof (mainOp_wf os ts H1 H2 H3) as X. rewrite Forall_map in X. exact X. Qed.

(* C82: in any stretch of turns, whatever the interrupts and the bus do and however long the turns take, n heartbeats take at least n - 1 periods of
   30 s of real time, but for the granularity of 250 ms *)
Theorem C82_heartbeat_rate :
  forall ps wr y0 ts1 ts2, (forall x, ps x < 256) -> avrStart ps wr = Some y0 -> Forall turn_wf (ts1 ++ ts2) ->
    let y1 := avrMain ts1 y0 in let y2 := avrMain (ts1 ++ ts2) y0 in
    (heartbeats (y_node y2) - heartbeats (y_node y1)) * 30000 <= msIn (ts1 ++ ts2) - msIn ts1 + 250 + 30000.
Proof.
  intros ps wr y0 ts1 ts2 HP HS HW y1 y2. apply Forall_app in HW. destruct HW as [W1 W2].
  destruct (C82_node ps wr y0 ts1 HP HS W1) as [HR _]. fold y1 in HR.
  assert (E2 : y2 = avrMain ts2 y1) by (unfold y2, y1, avrMain; apply fold_left_app).
  destruct (stretch_all ps wr y0 ts1 ts2 HS) as (os & k & Q1 & Q2 & Q3 & Q4 & Q5 & _). fold y1 in Q3, Q4. rewrite <- E2 in Q3, Q4.
  destruct (RC_effects _ _ (RC_run os (y_node y1) Q1)) as [F _]. rewrite <- Q3 in F. destruct (calm_not _ F) as [N1 N2].
  pose proof (C55_rate bool avrEnv avr_valid avr_timersNeeded eq_refl (y_node y1) os HR (opwf os ts2 Q1 Q2 W2)) as R. cbv zeta in R. rewrite <- Q3 in R.
  specialize (R N1 N2). rewrite <- told_elapsed, Q4 in R. change hbPeriod with 30000 in R. lia.
Qed.
Print Assumptions C82_heartbeat_rate.

(* C82: and an active node sends its heartbeat: if no turn of a stretch takes longer than g milliseconds, the stretch lasts 30 s and (g - 1) ms for every
   250 ms of them, and the node did not get active anew, then the turn after it at the latest sends one. With one turn per millisecond these are
   just the 30 s. *)
Theorem C82_heartbeat_alive :
  forall ps wr y0 ts1 ts2 t g, (forall x, ps x < 256) -> avrStart ps wr = Some y0 -> Forall turn_wf (ts1 ++ ts2 ++ [t]) ->
    1 <= g -> paced g (overflowsIn ts1) ts2 ->
    let y1 := avrMain ts1 y0 in let y2 := avrMain (ts1 ++ ts2) y0 in let y3 := avrMain (ts1 ++ ts2 ++ [t]) y0 in
    msIn ts1 + 30000 + 120 * (g - 1) <= msIn (ts1 ++ ts2) -> isActive (y_node y2) = true -> ~ In (OLamp LampOn) (effects (y_node y1) (y_node y3)) ->
    heartbeats (y_node y1) < heartbeats (y_node y3).
Proof.
  intros ps wr y0 ts1 ts2 t g HP HS HW G1 HG y1 y2 y3 HM HA HL. apply Forall_app in HW. destruct HW as [W1 W2]. apply Forall_app in W2. destruct W2 as [W2 W3].
  inversion W3 as [|? ? Wt _]; subst.
  destruct (C82_node ps wr y0 ts1 HP HS W1) as [HR (os0 & O1 & _ & O3)]. fold y1 in HR, O3.
  assert (E2 : y2 = avrMain ts2 y1) by (unfold y2, y1, avrMain; apply fold_left_app).
  assert (E3 : y3 = avrTurn y2 t) by (unfold y3, y2, avrMain; rewrite !fold_left_app; reflexivity).
  destruct (stretch_all ps wr y0 ts1 ts2 HS) as (os & k & Q1 & Q2 & Q3 & Q4 & _ & Q6). fold y1 in Q3, Q4. rewrite <- E2 in Q3, Q4.
  destruct (RC_effects _ _ (RC_run os (y_node y1) Q1)) as [_ H12]. rewrite <- Q3 in H12.
  destruct (start_all ps wr y0 HS) as (S1 & _ & S3 & _).
  destruct (main_all (ts1 ++ ts2) 0 250 0 y0 [] btnInit S1 ltac:(lia) S3 ltac:(cbn; lia)) as (_ & v & _ & _ & _ & _ & P4 & _). cbv zeta in P4. fold y2 in P4.
  pose proof (turn_all _ _ _ t [] (y_btn y2) P4 eq_refl) as K. cbv zeta in K. rewrite <- E3 in K. destruct K as (_ & (st & K2 & _) & _).
  pose proof (turnOps_main t st (v <=? (0 + overflowsIn (ts1 ++ ts2) + N.of_nat (length (interrupts t))) / 10 - (0 + overflowsIn (ts1 ++ ts2)) / 10)) as TM.
  unfold turnOps in K2, TM. set (rest := _ ++ _) in K2, TM at 1. inversion TM as [|? ? _ TR]; subst.
  change (y_node y3 = run (map EOp rest) (after (y_node y2) (u_rd t))) in K2.
  pose proof (RC_run rest (after (y_node y2) (u_rd t)) TR) as R3. rewrite <- K2 in R3.
  pose proof (RC_step (OpProcess (u_rd t)) (y_node y2) ltac:(constructor)) as R2. change (RC (y_node y2) (after (y_node y2) (u_rd t))) in R2.
  pose proof (RC_run os (y_node y1) Q1) as R1. rewrite <- Q3 in R1.
  pose proof (RC_trans _ _ _ R1 R2) as R12.
  destruct (RC_effects _ _ R3) as [_ H3]. destruct (RC_effects _ _ R12) as [F12 H4]. destruct (RC_effects _ _ (RC_trans _ _ _ R12 R3)) as [_ H5].
  assert (SP : effects (y_node y1) (y_node y3) = effects (y_node y1) (after (y_node y2) (u_rd t)) ++ effects (after (y_node y2) (u_rd t)) (y_node y3)).
  { rewrite H4, <- app_assoc in H3. rewrite H5 in H3. apply app_inv_head in H3. exact H3. }
  assert (SD : steady (effects (y_node y1) (after (y_node y2) (u_rd t)))).
  { apply Forall_forall. intros o Ho. rewrite Forall_forall in F12. pose proof (F12 o Ho) as C.
    assert (NL : o <> OLamp LampOn) by (intros ->; apply HL; rewrite SP; apply in_or_app; left; exact Ho).
    destruct o; try exact C; try exact Logic.I. destruct l; try exact Logic.I. apply NL. reflexivity. }
  assert (HE : hb_en (hbState (history (y_node y1))) = true).
  { destruct (RC_effects _ _ (RC_run os0 (powerUp ps false wr) O1)) as [F H]. rewrite <- O3 in F, H. rewrite H, hb_app. apply noHb_en; [|apply power_en].
    eapply Forall_impl; [|exact F]. exact calm_noHb. }
  assert (HT : hbPeriod <= Spec_States.elapsed (effects (y_node y1) (y_node y2))).
  { rewrite <- told_elapsed, Q4. change hbPeriod with 30000. specialize (Q6 g G1 HG).
    destruct (N.le_gt_cases 120 k) as [L|L]; [lia|]. exfalso. assert ((g - 1) * k <= (g - 1) * 119) by (apply N.mul_le_mono_l; lia). lia. }
  pose proof (C55_alive bool avrEnv avr_valid avr_timersNeeded eq_refl (y_node y1) os (u_rd t) HR (opwf os ts2 Q1 Q2 W2) Wt) as AL. cbv zeta in AL.
  rewrite <- Q3 in AL. specialize (AL SD HE HT HA). eapply N.lt_le_trans; [exact AL|]. apply heart_mono, H3.
Qed.
Print Assumptions C82_heartbeat_alive.

(* the node with the nickname 5, turns of 250 ms: after two turns it is active, and it sends two heartbeats within the 60 s after that *)
Definition exQ (k : N) : list Turn := repeat (exTurn (repeat false 2500)) (N.to_nat k).
Lemma exQ_wf k : Forall turn_wf (exQ k). Proof. apply Forall_forall. intros t Ht. apply repeat_spec in Ht. subst t. exact Logic.I. Qed.
Lemma quarter_paced t j : N.of_nat (length (interrupts t)) = 2500 -> forall n, paced 250 n (repeat t j).
Proof.
  intros L. induction j as [|j IH]; intros n; [exact Logic.I|]. cbn [repeat paced]. cbv zeta. split; [|apply IH].
  rewrite L. replace (n + 2500) with (n + 250 * 10) by lia. rewrite N.div_add by lia. lia.
Qed.
Lemma exQ_paced k n : paced 250 n (exQ k).
Proof. apply quarter_paced. vm_compute. reflexivity. Qed.
Definition isLampOn (o : Obs) : bool := match o with OLamp LampOn => true | _ => false end.
Example C82_heartbeat_example :
  let ts1 := exQ 2 in let ts2 := exQ 240 in let t := exTurn [] in
  let y1 := avrMain ts1 exSys in let y2 := avrMain (ts1 ++ ts2) exSys in let y3 := avrMain (ts1 ++ ts2 ++ [t]) exSys in
  avrStart (exPs avrCfg 5) [] = Some exSys /\ Forall turn_wf (ts1 ++ ts2 ++ [t]) /\ paced 250 (overflowsIn ts1) ts2 /\
  (isActive (y_node y1), isActive (y_node y2), existsb isLampOn (effects (y_node y1) (y_node y3)), msIn (ts1 ++ ts2) - msIn ts1,
   heartbeats (y_node y1), heartbeats (y_node y3)) = (true, true, false, 60000, 0, 2).
Proof.
  cbv zeta. split; [exact exSys_start|]. split. { apply Forall_app. split; [apply exQ_wf|]. apply Forall_app. split; [apply exQ_wf|repeat constructor]. }
  split; [apply exQ_paced|]. vm_compute. reflexivity.
Qed.
