(* Prop_HbRun.v - property C55: the node heartbeats over whole histories *)
From Verif Require Import Spec_HbRun Proof_HbRun Proof_Heartbeat FixtureReq.
From Coq Require Import Lia.

(* C55: heartbeats come no more often than once per period: n of them, in any history without a restart, take n - 1 periods, and more if the
   current period has not yet run down *)
Theorem C55_rate :
  forall A (E : Env A), valid_env E -> timersNeeded cfg <= c_timers cfg -> c_hb_node cfg = true -> forall w os,
    reachable w -> Forall op_wf os -> let w' := run (map EOp os) w in ~ In OInit (effects w w') -> ~ In OPower (effects w w') ->
    (heartbeats w' - heartbeats w) * hbPeriod + hb_left (hbState (history w)) <= Spec_States.elapsed (effects w w') + hbPeriod.
Proof.
  intros A E VE HT HN w os HR HF w' N1 N2. pose proof (mileage_run VE HT HN os w HR HF N1 N2) as M. fold w' in M. unfold mileage in M. unfold heartbeats.
  destruct (run_ops_history VE os w HR HF) as [_ H]. fold w' in H. pose proof (count_mono (effects w w') (hbState (history w))) as C. rewrite <- hb_app, <- H in C.
  pose proof (left_history (history w)). pose proof (left_history (history w')). nia.
Qed.
Print Assumptions C55_rate.

(* C55: and they do come: in a period in which heartbeats are enabled and the node does not get active anew, the first process call after its end at
   the latest sends one if the node is active then *)
Theorem C55_alive :
  forall A (E : Env A), valid_env E -> timersNeeded cfg <= c_timers cfg -> c_hb_node cfg = true -> forall w os rd,
    reachable w -> Forall op_wf os -> op_wf (OpProcess rd) -> let w1 := run (map EOp os) w in let w' := after w1 rd in
    steady (effects w w') -> hb_en (hbState (history w)) = true -> hbPeriod <= Spec_States.elapsed (effects w w1) -> isActive w1 = true ->
    heartbeats w < heartbeats w'.
Proof. intros A E VE HT HN w os rd. exact (alive_run VE HT HN os w rd). Qed.
Print Assumptions C55_alive.

(* an active node that has just become active, 40 s in steps of 10 s with a process call after each step: one heartbeat, at 30 s *)
Definition exBeat : list Op := flat_map (fun _ => [OpTick 10000; OpProcess None]) [1; 2; 3; 4].
Example C55_run_example :
  let E := exEnv (exCfg oDm) in let w := exNode oDm [] in let at_ n := run (map EOp (firstn n exBeat)) w in
  valid_env E /\ timersNeeded cfg <= c_timers cfg /\ c_hb_node cfg = true /\ reachable w /\ Forall op_wf exBeat /\
  ~ In OInit (effects w (at_ 8%nat)) /\ ~ In OPower (effects w (at_ 8%nat)) /\
  steady (effects w (after (at_ 5%nat) None)) /\ hb_en (hbState (history w)) = true /\ hbPeriod <= Spec_States.elapsed (effects w (at_ 5%nat)) /\
  isActive (at_ 5%nat) = true /\ map (fun n => heartbeats (at_ n)) [0; 4; 6; 8]%nat = [0; 0; 1; 1] /\ hb_left (hbState (history w)) = 30000.
Proof.
  cbv zeta. split; [exvalid|]. split; [vm_compute; discriminate|]. split; [reflexivity|]. split; [exreach|]. split; [exwf|].
  split; [vm_compute; intuition discriminate|]. split; [vm_compute; intuition discriminate|]. split; [vm_compute; repeat constructor|]. vmc.
Qed.
