(* Prop_Transport.v - transport layer: C24, C25 *)
From Verif Require Import Proof_Transport Fixture.

(* C24: the node sees received and looped back events in FIFO order. pendingRun (Spec_Transport.v)
   is the queue of the events that have been received or sent and not yet been handed to the node:
   process takes the oldest one, a received event always joins the queue or is passed on at once,
   a sent event that is neither PROTOCOL nor LOG class joins it unless the queue is full. *)
Theorem C24_loop_back_is_fifo :
  forall A (E : Env A), valid_env E -> c_loop cfg = true ->
  forall ps0 a wr es rd, (forall x, ps0 x < 256) -> Forall event_wf es ->
    let w := run es (powerUp ps0 a wr) in
    let q := pendingRun (N.to_nat (c_loop_num cfg) - 1) es (powerUp ps0 a wr) [] in
    taken (effects w (snd (step (OpProcess rd) w))) = match q with m :: _ => [m] | [] => optList rd end.
Proof.
  intros A E VE HL ps0 a wr es rd H HF w q. pose proof (history_queued VE ps0 a wr es HL H HF) as HQ.
  destruct (process_queued rd _ _ HL HQ) as [T _]. fold w in T. rewrite T. unfold q, loopCap, delivered.
  destruct (pendingRun _ es _ []); reflexivity.
Qed.
Print Assumptions C24_loop_back_is_fifo.

(* without loop-back every received event is passed on at once *)
Theorem C24_without_loop_back :
  forall A (E : Env A), c_loop cfg = false -> forall w rd,
    taken (effects w (snd (step (OpProcess rd) w))) = optList rd.
Proof. intros A E HL w rd. apply process_direct. exact HL. Qed.
Print Assumptions C24_without_loop_back.

(* the queue never holds more than c_loop_num - 1 events *)
Theorem C24_queue_bounded :
  forall A (E : Env A), valid_env E -> c_loop cfg = true ->
  forall ps0 a wr es, (forall x, ps0 x < 256) -> Forall event_wf es ->
    (length (pendingRun (N.to_nat (c_loop_num cfg) - 1) es (powerUp ps0 a wr) []) <= N.to_nat (c_loop_num cfg) - 1)%nat.
Proof.
  intros A E VE HL ps0 a wr es H HF. pose proof (history_queued VE ps0 a wr es HL H HF) as HQ. apply (queued_bound _ _ HQ).
Qed.
Print Assumptions C24_queue_bounded.

(* an application that answers every CLASS1.INFORMATION event by two CONTROL events *)
Definition loopEnv : Env Regs :=
  let e := exEnv (exCfg oNg) in
  {| cfg := exCfg oNg; app_read := app_read; app_write := app_write; app_restore := app_restore; app_pages := app_pages;
     app_boot_alg := app_boot_alg; app_guid := app_guid; app_prot := app_prot;
     app_event := fun a m => (if m_class m =? 20 then [ASend (exMsg 30 5 9 [1]); ASend (exMsg 30 6 9 [2])] else [], fst a);
     app_action := app_action; app_hb := app_hb |}.
Lemma loopEnv_valid : valid_env loopEnv.
Proof.
  destruct (exCfg_valid 2 oNg) as [V]; cbn; try lia; try discriminate; try (intros [? ?]; discriminate). constructor; [exact V|..].
  all: intros; cbn; try constructor. destruct (m_class m =? 20); repeat constructor; cbn; lia.
Qed.
(* two events are received while the answers to the first are still waiting *)
Example C24_example :
  let E := loopEnv in
  let e1 := exMsg 20 9 9 [1] in let e2 := exMsg 10 6 9 [2] in let e3 := exMsg 10 6 9 [3] in
  let w0 := powerUp (exPs (exCfg oNg) 5) regs0 [] in
  let es := [EOp (OpProcess None); EOp (OpProcess (Some e1)); EOp (OpProcess (Some e2)); EOp (OpProcess (Some e3))] in
  let w := run es w0 in
  valid_env E /\ reachable w /\ isActive w = true /\
  pendingRun (N.to_nat (c_loop_num cfg) - 1) es w0 [] = [e2; e3] /\
  map (fun m => (m_class m, payload m)) (taken (effects w0 w)) = [(20, [1]); (30, [1]); (30, [2])].
Proof. cbv zeta. split; [apply loopEnv_valid|]. split; [exreach|]. vmc. Qed.

(* C25: the transmit error counter returns the number of failed transmissions since the previous
   query (or power up), limited to 255. The log w_out has the newest effect first. *)
Theorem C25_transmit_errors :
  forall A (E : Env A) w newer n older, reachable w -> w_out w = newer ++ OTxErrors n :: older ->
    n = N.min 255 (failures older).
Proof. intros A E w newer n older HR H. apply (queries_at _ _ _ _ (proj2 (reach_err w HR)) H). Qed.
Print Assumptions C25_transmit_errors.
(* and every query reports *)
Theorem C25_query_reports :
  forall A (E : Env A) w, exists n, effects w (snd (step (OpApi AGetTxErrors) w)) = [OApi AGetTxErrors; OTxErrors n].
Proof. intros A E w. exists (w_txe w). apply (effects_app w _ [OTxErrors (w_txe w); OApi AGetTxErrors]). reflexivity. Qed.
Print Assumptions C25_query_reports.

Example C25_example :
  let E := exEnv (exCfg oDm) in
  let es := [EOp (OpProcess None); EOp (OpApi (ASend (exMsg 20 9 9 [1]))); EOp (OpApi (ASend (exMsg 20 9 9 [2])));
             EOp (OpApi (ASend (exMsg 20 9 9 [3]))); EOp (OpApi AGetTxErrors); EOp (OpApi AGetTxErrors)] in
  let w := run es (powerUp (exPs (exCfg oDm) 5) regs0 [true; false; true; false]) in
  valid_env E /\ reachable w /\ (exists older, w_out w = [OTxErrors 0; OApi AGetTxErrors] ++ OTxErrors 2 :: older).
Proof.
  cbv zeta. split; [exvalid|]. split; [|eexists; vm_compute; reflexivity].
  exists (exPs (exCfg oDm) 5), regs0, [true; false; true; false]. eexists. split; [|split; [|reflexivity]].
  - intros x. unfold exPs. destruct (x =? _); [lia|]. destruct (x =? _); lia.
  - exwf.
Qed.
