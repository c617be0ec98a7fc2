(* Prop_Bound.v - property C60: a call sends a bounded number of frames *)
From Verif Require Import Proof_Bound FixtureReq.

(* C60: a process call ends (it is a total function) and sends at most 39 frames, whatever was received and whatever the state, apart from
   those the application asks for in callouts *)
Theorem C60_process_bounded :
  forall A (E : Env A), valid_env E -> forall w rd, reachable w -> op_wf (OpProcess rd) ->
    let l := effects w (snd (step (OpProcess rd) w)) in sent l <= 39 + allowances l.
Proof.
  intros A E VE w rd HR WF l. assert (B : bytes (m_data (w_rx (snd (prologue rd w))))).
  { destruct (received rd w) as [m|] eqn:RCV.
    - destruct (prologue_rx rd w m RCV) as [-> _]. apply (received_wf VE rd w m HR WF RCV).
    - destruct (prologue_norx rd w RCV) as [-> _]. destruct (reach_inv VE w HR) as (ps0 & J). apply (i_rx _ _ J). }
  destruct (c_process rd w B) as (k & O & K). unfold l. change (snd (step (OpProcess rd) w)) with (snd (process rd w)). rewrite (effects_app w _ k O).
  assert (R : forall k, sent (rev k) = sent k /\ allowances (rev k) = allowances k).
  { clear. induction k as [|o k IH]; [split; reflexivity|]. cbn [rev]. rewrite sent_app, allow_app. destruct IH as [-> ->]. split; [change (o :: k) with ([o] ++ k); rewrite sent_app; lia|]. destruct o; cbn [allowances]; lia. }
  destruct (R k) as [-> ->]. exact K.
Qed.
Print Assumptions C60_process_bounded.

(* C60: the other operations send only what the application asks for *)
Theorem C60_other_operations :
  forall A (E : Env A), valid_env E -> forall w o, reachable w -> op_wf o -> (forall rd, o <> OpProcess rd) ->
    let l := effects w (snd (step o w)) in sent l <= allowances l.
Proof.
  intros A E VE w o HR WF NP l. assert (R : forall k, sent (rev k) = sent k /\ allowances (rev k) = allowances k).
  { clear. induction k as [|o k IH]; [split; reflexivity|]. cbn [rev]. rewrite sent_app, allow_app. destruct IH as [-> ->]. split; [change (o :: k) with ([o] ++ k); rewrite sent_app; lia|]. destruct o; cbn [allowances]; lia. }
  unfold l. clear l. destruct o as [rd|p|c|].
  - exfalso. apply (NP rd). reflexivity.
  - assert (O : w_out (snd (step (OpTick p) w)) = [OTick p] ++ w_out w) by reflexivity. rewrite (effects_app w _ _ O). cbn. lia.
  - destruct (c_api c w) as (k & O & K). change (snd (step (OpApi c) w)) with (snd (doApi c w)). rewrite (effects_app w _ k O). destruct (R k) as [-> ->]. exact K.
  - rewrite step_init. destruct (init_quiet w) as (k & O & K). rewrite (effects_app w _ k O). unfold sent. rewrite K. cbn. lia.
Qed.
Print Assumptions C60_other_operations.

(* the bound is sharp: reading a whole page while an extended page read is going on and a heartbeat is due *)
Theorem C60_sharp :
  let E := exEnv (exCfg oFull) in
  let w := exNode oFull [EOp (OpProcess (Some (exReq 37 [5; 0; 0; 0; 0]))); EOp (OpTick 30000)] in let rd := Some (exReq 24 [5; 0; 255]) in
  valid_env E /\ reachable w /\ op_wf (OpProcess rd) /\ sent (effects w (snd (step (OpProcess rd) w))) = 39 /\ allowances (effects w (snd (step (OpProcess rd) w))) = 0.
Proof. cbv zeta. split; [exvalid|]. split; [exreach|]. split; [exwf|]. vmc. Qed.
