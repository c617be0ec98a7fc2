(* Prop_ArmHb.v - property C83: the heartbeats of the ARM example in real time *)
From Verif Require Import Spec_ArmMain Spec_HbRun Proof_AvrMain Proof_ArmMain Proof_HbRun Proof_Heartbeat Proof_AvrHb Proof_ArmHb Prop_ArmMain Prop_HbRun FixtureReq.
From Coq Require Import Lia.

Lemma opwfU os ts : Forall mainOp os -> reads os = map u_rd ts -> Forall turn_wf ts -> Forall op_wf os.
Proof. intros H1 H2 H3. pose proof (mainOp_wfU os ts H1 H2 H3) as X. rewrite Forall_map in X. exact X. Qed.

(* C83: in any stretch of turns, whatever the interrupts and the bus do and however long the turns take, n heartbeats take at least n - 1 periods of
   30 s of real time, but for the granularity of 250 ms *)
Theorem C83_heartbeat_rate :
  forall ps wr y0 ts1 ts2, (forall x, ps x < 256) -> armStart ps wr = Some y0 -> Forall turn_wf (ts1 ++ ts2) ->
    let y1 := armMain ts1 y0 in let y2 := armMain (ts1 ++ ts2) y0 in
    (heartbeats (a_node y2) - heartbeats (a_node y1)) * 30000 <= armMs ts2 + 250 + 30000.
Proof.
  intros ps wr y0 ts1 ts2 HP HS HW y1 y2. apply Forall_app in HW. destruct HW as [W1 W2].
  destruct (C83_node ps wr y0 ts1 HP HS W1) as [HR _]. fold y1 in HR.
  assert (E2 : y2 = armMain ts2 y1) by (unfold y2, y1, armMain; apply fold_left_app).
  destruct (arm_stretch ps wr y0 ts1 ts2 HS) as (os & k & Q1 & Q2 & Q3 & Q4 & Q5 & _). fold y1 in Q3, Q4. rewrite <- E2 in Q3, Q4.
  destruct (URC_effects _ _ (URC_run os (a_node y1) Q1)) as [F _]. rewrite <- Q3 in F. destruct (calm_not _ F) as [N1 N2].
  pose proof (C55_rate unit armEnv arm_valid arm_timersNeeded eq_refl (a_node y1) os HR (opwfU os ts2 Q1 Q2 W2)) as R. cbv zeta in R. rewrite <- Q3 in R.
  specialize (R N1 N2). rewrite <- told_elapsed, Q4 in R. change hbPeriod with 30000 in R. lia.
Qed.
Print Assumptions C83_heartbeat_rate.

(* C83: and an active node sends its heartbeat: if no turn of a stretch takes longer than g milliseconds, the stretch lasts 30 s and (g - 1) ms for every
   250 ms of them, and the node did not get active anew, then the turn after it at the latest sends one. With one turn per millisecond these are
   just the 30 s. *)
Theorem C83_heartbeat_alive :
  forall ps wr y0 ts1 ts2 t g, (forall x, ps x < 256) -> armStart ps wr = Some y0 -> Forall turn_wf (ts1 ++ ts2 ++ [t]) ->
    1 <= g -> armPaced g ts2 ->
    let y1 := armMain ts1 y0 in let y2 := armMain (ts1 ++ ts2) y0 in let y3 := armMain (ts1 ++ ts2 ++ [t]) y0 in
    30000 + 120 * (g - 1) <= armMs ts2 -> isActive (a_node y2) = true -> ~ In (OLamp LampOn) (effects (a_node y1) (a_node y3)) ->
    heartbeats (a_node y1) < heartbeats (a_node y3).
Proof.
  intros ps wr y0 ts1 ts2 t g HP HS HW G1 HG y1 y2 y3 HM HA HL. apply Forall_app in HW. destruct HW as [W1 W2]. apply Forall_app in W2. destruct W2 as [W2 W3].
  inversion W3 as [|? ? Wt _]; subst.
  destruct (C83_node ps wr y0 ts1 HP HS W1) as [HR (os0 & O1 & _ & O3)]. fold y1 in HR, O3.
  assert (E2 : y2 = armMain ts2 y1) by (unfold y2, y1, armMain; apply fold_left_app).
  assert (E3 : y3 = armTurn y2 t) by (unfold y3, y2, armMain; rewrite !fold_left_app; reflexivity).
  destruct (arm_stretch ps wr y0 ts1 ts2 HS) as (os & k & Q1 & Q2 & Q3 & Q4 & _ & Q6). fold y1 in Q3, Q4. rewrite <- E2 in Q3, Q4.
  destruct (URC_effects _ _ (URC_run os (a_node y1) Q1)) as [_ H12]. rewrite <- Q3 in H12.
  destruct (armStart_all ps wr y0 HS) as (S1 & _ & S3 & _).
  destruct (armMain_all (ts1 ++ ts2) 250 0 0 y0 [] btnInit S1 ltac:(lia) S3 ltac:(lia)) as (_ & v & _ & _ & _ & _ & P4 & _). cbv zeta in P4. fold y2 in P4.
  pose proof (armTurn_all _ _ t [] (a_btn y2) P4 eq_refl) as K. cbv zeta in K. rewrite <- E3 in K. destruct K as (_ & (st & K2 & _) & _).
  pose proof (turnOps_main t st (v <=? N.of_nat (length (interrupts t)))) as TM.
  unfold turnOps in K2, TM. set (rest := _ ++ _) in K2, TM at 1. inversion TM as [|? ? _ TR]; subst.
  change (a_node y3 = run (map EOp rest) (after (a_node y2) (u_rd t))) in K2.
  pose proof (URC_run rest (after (a_node y2) (u_rd t)) TR) as R3. rewrite <- K2 in R3.
  pose proof (URC_step (OpProcess (u_rd t)) (a_node y2) ltac:(constructor)) as R2. change (URC (a_node y2) (after (a_node y2) (u_rd t))) in R2.
  pose proof (URC_run os (a_node y1) Q1) as R1. rewrite <- Q3 in R1.
  pose proof (URC_trans _ _ _ R1 R2) as R12.
  destruct (URC_effects _ _ R3) as [_ H3]. destruct (URC_effects _ _ R12) as [F12 H4]. destruct (URC_effects _ _ (URC_trans _ _ _ R12 R3)) as [_ H5].
  assert (SP : effects (a_node y1) (a_node y3) = effects (a_node y1) (after (a_node y2) (u_rd t)) ++ effects (after (a_node y2) (u_rd t)) (a_node y3)).
  { rewrite H4, <- app_assoc in H3. rewrite H5 in H3. apply app_inv_head in H3. exact H3. }
  assert (SD : steady (effects (a_node y1) (after (a_node y2) (u_rd t)))).
  { apply Forall_forall. intros o Ho. rewrite Forall_forall in F12. pose proof (F12 o Ho) as C.
    assert (NL : o <> OLamp LampOn) by (intros ->; apply HL; rewrite SP; apply in_or_app; left; exact Ho).
    destruct o; try exact C; try exact Logic.I. destruct l; try exact Logic.I. apply NL. reflexivity. }
  assert (HE : hb_en (hbState (history (a_node y1))) = true).
  { destruct (URC_effects _ _ (URC_run os0 (powerUp ps tt wr) O1)) as [F H]. rewrite <- O3 in F, H. rewrite H, hb_app. apply noHb_en; [|apply upower_en].
    eapply Forall_impl; [|exact F]. exact calm_noHb. }
  assert (HT : hbPeriod <= Spec_States.elapsed (effects (a_node y1) (a_node y2))).
  { rewrite <- told_elapsed, Q4. change hbPeriod with 30000. specialize (Q6 g G1 HG).
    destruct (N.le_gt_cases 120 k) as [L|L]; [lia|]. exfalso. assert ((g - 1) * k <= (g - 1) * 119) by (apply N.mul_le_mono_l; lia). lia. }
  pose proof (C55_alive unit armEnv arm_valid arm_timersNeeded eq_refl (a_node y1) os (u_rd t) HR (opwfU os ts2 Q1 Q2 W2) Wt) as AL. cbv zeta in AL.
  rewrite <- Q3 in AL. specialize (AL SD HE HT HA). eapply N.lt_le_trans; [exact AL|]. apply uheart_mono, H3.
Qed.
Print Assumptions C83_heartbeat_alive.

(* the node with the nickname 5 and a button that is held, as the program understands it not pressed; turns of 250 ms: after two turns the node is
   active, and it sends two heartbeats within the 60 s after that *)
Definition exHeld (k : N) : list Turn := repeat (mkTurn None (repeat true 250) [] []) (N.to_nat k).
Definition isLampOn (o : Obs) : bool := match o with OLamp LampOn => true | _ => false end.
Example C83_heartbeat_example :
  let ts1 := exHeld 2 in let ts2 := exHeld 240 in let t := mkTurn None [] [] [] in
  let y1 := armMain ts1 (armSys 5) in let y2 := armMain (ts1 ++ ts2) (armSys 5) in let y3 := armMain (ts1 ++ ts2 ++ [t]) (armSys 5) in
  armStart (exPs armCfg 5) [] = Some (armSys 5) /\ Forall turn_wf (ts1 ++ ts2 ++ [t]) /\ armPaced 250 ts2 /\
  (isActive (a_node y1), isActive (a_node y2), existsb isLampOn (effects (a_node y1) (a_node y3)), armMs ts2,
   heartbeats (a_node y1), heartbeats (a_node y3)) = (true, true, false, 60000, 0, 2).
Proof.
  cbv zeta. assert (W : forall k, Forall turn_wf (exHeld k)) by (intros k; apply Forall_forall; intros t Ht; apply repeat_spec in Ht; subst t; exact Logic.I).
  split; [apply armSys_start|]. split. { apply Forall_app. split; [apply W|]. apply Forall_app. split; [apply W|repeat constructor]. }
  split. { apply Forall_forall. intros t Ht. apply repeat_spec in Ht. subst t. vm_compute. discriminate. }
  vm_compute. reflexivity.
Qed.
