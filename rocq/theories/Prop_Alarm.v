(* Prop_Alarm.v - property C38: alarm bits *)
From Verif Require Import Proof_Alarm FixtureReq.

(* C38: an alarm bit that was raised and not reported since is pending, and stays in the alarm status: over any operation, whatever frames are received,
   transmitted or rejected, as long as no increment or decrement of register 0x80 is received.
   Missing from the full claim: the frame that reports the bit may be rejected by the transport (C38_failure_refuted), and an increment or decrement
   of register 0x80 drops all alarm bits unreported (C38_increment_refuted). *)
Theorem C38_kept_partial :
  forall A (E : Env A), valid_env E -> forall w o b, reachable w -> op_wf o -> b < 8 ->
    let w' := snd (step o w) in let l := effects w w' in
    (forall m, In (ORx m) l -> countsAlarm m = false) ->
    pending b (N.testbit (w_alarm w) b) l = true -> N.testbit (w_alarm w') b = true.
Proof.
  intros A E VE w o b HR WF HB w' l HI HP. destruct (RP_step b HB o w HI) as (l' & O & H). apply H. unfold l in HP. rewrite (effects_app w w' _ O), rev_involutive in HP. exact HP.
Qed.
Print Assumptions C38_kept_partial.

(* C38: any number of operations *)
Theorem C38_run_partial :
  forall A (E : Env A), valid_env E -> forall os w b, reachable w -> Forall op_wf os -> b < 8 ->
    let w' := run (map EOp os) w in let l := effects w w' in
    (forall m, In (ORx m) l -> countsAlarm m = false) ->
    pending b (N.testbit (w_alarm w) b) l = true -> N.testbit (w_alarm w') b = true.
Proof.
  intros A E VE os w b HR WF HB w' l HI HP.
  assert (X : forall os w, reachable w -> Forall op_wf os -> exists d, w_out (run (map EOp os) w) = d ++ w_out w).
  { clear - VE HB. induction os as [|o os IH]; intros w HR WF; [exists []; reflexivity|]. inversion WF as [|? ? Wo Ws]; subst. cbn [map run fold_left]. 
    destruct (RU_step b HB o w) as (l1 & D1 & _). set (d1 := rev l1) in D1. clearbody d1.
    destruct (IH (stepE (EOp o) w) (reach_step w (EOp o) HR Wo) Ws) as (d2 & D2). exists (d2 ++ d1). unfold run in D2. rewrite D2. cbn [stepE]. rewrite D1, app_assoc. reflexivity. }
  assert (Q : forall os w, reachable w -> Forall op_wf os -> (forall m, In (ORx m) (effects w (run (map EOp os) w)) -> countsAlarm m = false) -> RP b w (run (map EOp os) w)).
  { clear - VE HB X. induction os as [|o os IH]; intros w HR WF HI; [exists []; split; [reflexivity|auto]|]. inversion WF as [|? ? Wo Ws]; subst. cbn [map run fold_left] in *.
    pose proof (reach_step w (EOp o) HR Wo) as HR1. destruct (X os (stepE (EOp o) w) HR1 Ws) as (d2 & D2).
    destruct (X [o] w HR (Forall_cons _ Wo (Forall_nil _))) as (d1 & D1). cbn [map run fold_left] in D1.
    assert (DD : effects w (run (map EOp os) (stepE (EOp o) w)) = rev d1 ++ rev d2) by (rewrite (effects_app w _ (d2 ++ d1)) by (rewrite D2, D1, app_assoc; reflexivity); apply rev_app_distr).
    apply RP_trans with (stepE (EOp o) w).
    - apply RP_step; [exact HB|]. intros m Hm. apply HI. unfold run in DD. rewrite DD. apply in_or_app. left. rewrite <- (effects_app _ _ _ D1). exact Hm.
    - apply IH; [exact HR1|exact Ws|]. intros m Hm. apply HI. unfold run in DD. rewrite DD. apply in_or_app. right. rewrite <- (effects_app _ _ _ D2). exact Hm. }
  destruct (Q os w HR WF HI) as (l' & O & H). apply H. unfold l in HP. rewrite (effects_app w w' _ O), rev_involutive in HP. exact HP.
Qed.
Print Assumptions C38_run_partial.

(* C38: the alarm status gains only bits the application raised *)
Theorem C38_no_invention :
  forall A (E : Env A), valid_env E -> forall w o b, reachable w -> op_wf o -> b < 8 ->
    let w' := snd (step o w) in N.testbit (w_alarm w') b = true -> N.testbit (w_alarm w) b = true \/ raised b (effects w w').
Proof.
  intros A E VE w o b HR WF HB w' HT. destruct (RU_step b HB o w) as (l & O & H). destruct (H HT) as [Q|Q]; [auto|].
  right. rewrite (effects_app w w' _ O), rev_involutive. exact Q.
Qed.
Print Assumptions C38_no_invention.

(* C38: a frame that reports the alarm may be rejected by the transport: the alarm is lost *)
Theorem C38_failure_refuted :
  exists (E : Env Regs), valid_env E /\ exists w, reachable w /\ exists m, op_wf (OpProcess (Some m)) /\
    let w' := snd (step (OpProcess (Some m)) w) in
    N.testbit (w_alarm w) 3 = true /\ N.testbit (w_alarm w') 3 = false /\ (forall x, ~ In (OTx x true) (effects w w')).
Proof.
  pose (E := exEnv (exCfg oDm)). exists E. split; [exvalid|].
  exists (run [EOp (OpProcess None); EOp (OpApi (AAlarm 8))] (powerUp (exPs (exCfg oDm) 5) regs0 [true; false])).
  split; [exists (exPs (exCfg oDm) 5); exists regs0, [true; false], [EOp (OpProcess None); EOp (OpApi (AAlarm 8))]; split; [intros x; unfold exPs; destruct (x =? _); [lia|]; destruct (x =? _); lia|]; split; [exwf|reflexivity]|].
  exists (exReq 9 [5; 128]). split; [exwf|]. cbv zeta. split; [vm_compute; reflexivity|]. split; [vm_compute; reflexivity|]. intros x. vm_compute. intuition discriminate.
Qed.
Print Assumptions C38_failure_refuted.

(* C38: an increment of register 0x80 loses the alarm without any frame *)
Theorem C38_increment_refuted :
  exists (E : Env Regs), valid_env E /\ exists w m, request w (Some m) m 29 [5; 128] /\
    let w' := snd (step (OpProcess (Some m)) w) in
    N.testbit (w_alarm w) 3 = true /\ N.testbit (w_alarm w') 3 = false /\ (forall x ok, ~ In (OTx x ok) (effects w w')).
Proof.
  pose (E := exEnv (exCfg oDm)). exists E. split; [exvalid|].
  exists (exNode oDm [EOp (OpApi (AAlarm 8))]), (exReq 29 [5; 128]). split; [exreq|]. cbv zeta.
  split; [vm_compute; reflexivity|]. split; [vm_compute; reflexivity|]. intros x ok. vm_compute. intuition discriminate.
Qed.
Print Assumptions C38_increment_refuted.

(* two alarms are raised and kept over other traffic (a read of register 0x81, a heartbeat), a read of register 0x80 reports both *)
Example C38_example :
  let E := exEnv (exCfg oDm) in
  let l0 := [EOp (A := Regs) (OpApi (AAlarm 8)); EOp (OpApi (AAlarm 1))] in
  let os := [OpProcess (Some (exReq 9 [5; 129])); OpTick 100; OpProcess None] in
  let w := exNode oDm l0 in let w1 := exNode oDm (l0 ++ map EOp os) in let w2 := snd (step (OpProcess (Some (exReq 9 [5; 128]))) w1) in
  valid_env E /\ reachable w /\ reachable w1 /\ w1 = run (map EOp os) w /\ Forall op_wf os /\
  pending 3 (N.testbit (w_alarm w) 3) (effects w w1) = true /\ w_alarm w1 = 9 /\ w_alarm w2 = 0 /\
  existsb (fun o => match o with OTx m _ => reports 0 m && reports 3 m && negb (reports 1 m) | _ => false end) (effects w1 w2) = true.
Proof.
  cbv zeta. split; [exvalid|]. split; [exreach|]. split; [exreach|]. split; [unfold exNode, run; rewrite !app_comm_cons, fold_left_app; reflexivity|]. split; [exwf|]. vmc.
Qed.
