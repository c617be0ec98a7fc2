(* Prop_FactoryReg.v - C51: the factory restore through register 0xA2 *)
From Verif Require Import Spec_FactoryReg Proof_FactoryReg FixtureReq Prop_Guid.

(* C51. Given any history since power-up. A process call in which neither the application nor a DROP_NICKNAME event asks for it
   restores the factory settings iff 0xAA is written to register 0xA2 while the window is open. *)
Theorem C51_exact :
  forall A (E : Env A), valid_env E -> timersNeeded cfg <= c_timers cfg ->
    forall ps a wr es rd, (forall x, ps x < 256) -> Forall event_wf es -> op_wf (OpProcess rd) ->
    let w0 := powerUp ps a wr in let w := run es w0 in let l := effects w (after w rd) in
    ~ otherRestore l ->
    (In OAppRestore l <-> exists v1 v2, writes w rd = v1 ++ 170 :: v2 /\ 0 < window (c_t_multi cfg mod 65536) (regTrace es w0 ++ map WWrite v1)).
Proof.
  intros A E VE HT ps a wr es rd HP HE HO w0 w l HN.
  assert (HJ := JF_power VE es ps a wr HT HP HE). assert (HR : reachable w). { exists ps, a, wr, es. auto. }
  fold w0 in HJ. fold w in HJ. unfold JF in HJ. destruct (process_q VE rd w HT HR HO) as (_ & H1 & H2). fold l in H1, H2. rewrite <- (regEvents_process w rd), HJ in H1, H2.
  assert (T := triggers_iff (c_t_multi cfg mod 65536) (writes w rd) (window (c_t_multi cfg mod 65536) (regTrace es w0))).
  split.
  - intros HI. destruct (H1 HI) as [X|X]; [contradiction|]. apply T in X. destruct X as (v1 & v2 & X1 & X2). exists v1, v2. split; [exact X1|]. rewrite window_app. exact X2.
  - intros (v1 & v2 & X1 & X2). apply H2, T. exists v1, v2. split; [exact X1|]. rewrite window_app in X2. exact X2.
Qed.
Print Assumptions C51_exact.

(* The window is open iff 0x55 was written when it was not, less than the time of the multi message timer ago,
   and since then the framework has not started again and 0xAA was not written. *)
Theorem C51_window :
  forall t l, 0 < window t l <->
    exists l1 l2, l = l1 ++ WWrite 85 :: l2 /\ window t l1 = 0 /\ msPassed l2 < t /\ ~ In WBreak l2 /\ ~ In (WWrite 170) l2.
Proof. exact window_iff. Qed.
Print Assumptions C51_window.

(* Outside of process calls only a request of the application restores the factory settings. *)
Theorem C51_elsewhere :
  forall A (E : Env A), valid_env E -> timersNeeded cfg <= c_timers cfg -> forall w e, reachable w ->
    (match e with EOp (OpTick _) | EOp (OpApi _) => True | _ => False end) ->
    In OAppRestore (effects w (stepE e w)) -> In (OApi ARestore) (effects w (stepE e w)).
Proof. intros A E VE HT w e HR HE. exact (other_events VE e w HT HR HE). Qed.
Print Assumptions C51_elsewhere.

(* A write request for register 0xA2 that is served writes its value. *)
Theorem C51_write :
  forall A (E : Env A), valid_env E -> forall w rd m v, request w rd m 11 [w_nick w; 162; v] -> writes w rd = [v].
Proof.
  intros A E VE w rd m v (HR & HO & ST & TK & MC & MT & PL & U). unfold writes. rewrite TK. assert (AC : w_st w = ACTIVE) by (unfold isActive in ST; destruct (w_st w); try discriminate; reflexivity).
  assert (G : listens w m = true /\ guidOf w m = heard w m).
  { unfold listens, attends, guidOf. rewrite AC. unfold unclaimed in U. destruct (c_prot_ev cfg); [rewrite (U eq_refl)|]; split; reflexivity. }
  destruct G as [-> ->]. unfold written. rewrite PL, MC, MT, heard_nick, !N.eqb_refl. change (11 =? 25) with false. cbn [andb]. reflexivity.
Qed.
Print Assumptions C51_write.

(* C51 as stated is refuted: another value written to the register in between does not stop the sequence. *)
Theorem C51_intervening_refuted :
  exists E : Env Regs, valid_env E /\ exists w0 es rd, let w := run es w0 in reachable w /\ op_wf (OpProcess rd) /\
    ~ otherRestore (effects w (after w rd)) /\ regTrace es w0 = [WWrite 85; WWrite 7] /\ writes w rd = [170] /\ In OAppRestore (effects w (after w rd)).
Proof.
  pose (E := exEnv (exCfg oDm)). exists E. split; [exvalid|].
  exists (powerUp (exPs (exCfg oDm) 5) regs0 []), [EOp (OpProcess None); rx (exReq 11 [5; 162; 85]); rx (exReq 11 [5; 162; 7])], (Some (exReq 11 [5; 162; 170])).
  cbv zeta. split; [exreach|]. split; [exwf|]. split; [intros [H|(m & H1 & H2 & H3)]; [vm_compute in H; intuition discriminate|vm_compute in H1; injection H1 as <-; discriminate H3]|].
  split; [vm_compute; reflexivity|]. split; [vm_compute; reflexivity|]. vm_compute; tauto.
Qed.
Print Assumptions C51_intervening_refuted.
(* Writing 0x55 again while the window is open does not extend it. *)
Theorem C51_extend_refuted :
  exists E : Env Regs, valid_env E /\ exists w0 es rd, let w := run es w0 in reachable w /\ op_wf (OpProcess rd) /\
    regTrace es w0 = [WWrite 85; WTime 600; WWrite 85; WTime 600] /\ 600 < c_t_multi cfg /\ writes w rd = [170] /\ ~ In OAppRestore (effects w (after w rd)).
Proof.
  pose (E := exEnv (exCfg oDm)). exists E. split; [exvalid|].
  exists (powerUp (exPs (exCfg oDm) 5) regs0 []), [EOp (OpProcess None); rx (exReq 11 [5; 162; 85]); EOp (OpTick 600); rx (exReq 11 [5; 162; 85]); EOp (OpTick 600)], (Some (exReq 11 [5; 162; 170])).
  cbv zeta. split; [exreach|]. split; [exwf|]. split; [vm_compute; reflexivity|]. split; [vm_compute; reflexivity|]. split; [vm_compute; reflexivity|]. vm_compute; intuition discriminate.
Qed.
Print Assumptions C51_extend_refuted.

Example C51_example :
  let E := exEnv (exCfg oPage) in let w0 := powerUp (exPs (exCfg oPage) 5) regs0 [] in
  let m := exReq 25 [5; 161; 1; 170] in
  let open := run [EOp (OpProcess None); rx (exReq 11 [5; 162; 85]); EOp (OpTick 999)] w0 in let late := run [EOp (OpProcess None); rx (exReq 11 [5; 162; 85]); EOp (OpTick 1000)] w0 in
  valid_env E /\ timersNeeded (@cfg Regs E) <= c_timers (@cfg Regs E) /\ reachable open /\ reachable late /\ op_wf (OpProcess (Some m)) /\
  writes open (Some m) = [170] /\ In OAppRestore (effects open (after open (Some m))) /\
  writes late (Some m) = [170] /\ ~ In OAppRestore (effects late (after late (Some m))) /\ ~ otherRestore (effects open (after open (Some m))).
Proof.
  cbv zeta. split; [exvalid|]. split; [vm_compute; discriminate|]. split; [exreach|]. split; [exreach|]. split; [exwf|]. split; [vm_compute; reflexivity|]. split; [vm_compute; tauto|].
  split; [vm_compute; reflexivity|]. split; [vm_compute; intuition discriminate|]. intros [H|(m & H1 & H2 & H3)]; [vm_compute in H; intuition discriminate|vm_compute in H1; injection H1 as <-; discriminate H3].
Qed.
Example C51_elsewhere_example :
  let E := exEnv (exCfg oPage) in let w := run [EOp (OpProcess None)] (powerUp (exPs (exCfg oPage) 5) regs0 []) in
  valid_env E /\ reachable w /\ In OAppRestore (effects w (stepE (EOp (OpApi ARestore)) w)).
Proof. cbv zeta. split; [exvalid|]. split; [exreach|]. vm_compute; tauto. Qed.
