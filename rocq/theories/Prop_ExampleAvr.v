(* Prop_ExampleAvr.v - properties C79 (registers) and C80 (actions) of the application of the AVR example *)
From Verif Require Import Proof_ExampleAvr Proof_Lamp Proof_Serve Prop_Request Prop_DM Prop_Lamp FixtureReq.

(* C79: register 0 is the node's zone, register 1 its sub-zone, the others read 0 *)
Theorem C79_read :
  forall w rd m a, request w rd m 9 [w_nick w; a] -> a < 128 ->
    exists f ok, protFrame f 10 3 (w_nick w) [a; if a <? 2 then stored w (zoneField a) 0 else 0] /\
      served w (after w rd) m [OAppRead 0 a; OTx f ok] w.
Proof.
  intros w rd m a HQ Ha. destruct (C35_application_register bool avrEnv avr_valid w rd m a HQ (avr_appreg a Ha)) as (f & ok & H1 & H2).
  exists f, ok. change (heard w m) with w in *. split.
  - destruct HQ as (HR & _). destruct (reach_inv avr_valid w HR) as [ps0 HI]. pose proof (i_ps _ _ HI) as HB.
    replace (if a <? 2 then stored w (zoneField a) 0 else 0) with (fst (app_read (w_app w, w_ps w) 0 a) mod 256); [exact H1|].
    change (app_read (w_app w, w_ps w) 0 a) with (avrRead (w_app w, w_ps w) 0 a). unfold avrRead, zoneField. cbn [fst snd N.eqb].
    destruct (N.ltb_spec a 2) as [L|L].
    + assert (C : a = 0 \/ a = 1) by lia. destruct C as [-> | ->]; cbn [N.eqb Pos.eqb]; rewrite N.mod_small by apply HB; reflexivity.
    + destruct (N.eqb_spec a 0); [lia|]. destruct (N.eqb_spec a 1); [lia|]. reflexivity.
  - replace (set_app (snd (app_read (w_app w, w_ps w) 0 a)) w) with w in H2; [exact H2|]. destruct w. reflexivity.
Qed.
Print Assumptions C79_read.

(* C79: writing register 0 or 1, unless the node is write protected, stores the zone or sub-zone, and nothing else, and is answered with the new value *)
Theorem C79_write :
  forall w rd m a v, request w rd m 11 [w_nick w; a; v] -> a < 2 -> writable w ->
    exists f ok x w1, protFrame f 10 3 (w_nick w) [a; v] /\ stores w (zoneField a) 0 v w1 /\
      served w (after w rd) m [OAppWrite 0 a v; OApi (if a =? 0 then AWriteZone v else AWriteSubZone v); OPs x v; OTx f ok] w1.
Proof. exact avr_write_served. Qed.
Print Assumptions C79_write.

Definition avrNode (rows : list N) : World bool :=
  run [EOp (OpProcess None)] (powerUp (fun x => if (ps_dm avrCfg <=? x) && (x <? ps_dm avrCfg + 16) then nth (N.to_nat (x - ps_dm avrCfg)) rows 0 else exPs avrCfg 5 x) false []).
Lemma avrNode_reach rows : bytes rows -> reachable (avrNode rows).
Proof.
  intros H. eexists _, _, _, _. split; [|split; [|reflexivity]].
  - intros x. cbv beta. destruct ((ps_dm avrCfg <=? x) && (x <? ps_dm avrCfg + 16)).
    + destruct (Nat.lt_ge_cases (N.to_nat (x - ps_dm avrCfg)) (length rows)) as [L|L]; [|rewrite nth_overflow by exact L; reflexivity].
      unfold bytes in H. rewrite Forall_forall in H. apply H, nth_In, L.
    + unfold exPs. destruct (x =? ps_nick avrCfg); [reflexivity|]. destruct (x =? ps_ctrl avrCfg); reflexivity.
  - exwf.
Qed.

Example C79_example :
  let w := avrNode [] in let m := exReq 11 [5; 1; 9] in let m' := exReq 9 [5; 1] in let v := after w (Some m) in
  request w (Some m) m 11 [w_nick w; 1; 9] /\ writable w /\ request v (Some m') m' 9 [w_nick v; 1] /\
  stored w FSub 0 = 0 /\ stored v FSub 0 = 9 /\ stored v FZone 0 = 0 /\
  map (fun f => (m_type (fst f), payload (fst f))) (frames (effects w v)) = [(10, [1; 9])] /\
  map (fun f => (m_type (fst f), payload (fst f))) (frames (effects v (after v (Some m')))) = [(10, [1; 9])].
Proof.
  cbv zeta. assert (R : reachable (avrNode [])) by (apply avrNode_reach; constructor).
  assert (W : op_wf (OpProcess (Some (exReq 11 [5; 1; 9])))) by exwf. assert (R2 := reach_op _ _ R W). fold (after (avrNode []) (Some (exReq 11 [5; 1; 9]))) in R2.
  split; [split; [exact R|split; [exact W|vmc]]|]. split; [vmc|]. split; [split; [exact R2|split; [exwf|vmc]]|]. vmc.
Qed.

(* C80: the LED after any operation is given by the actions that were executed; every action 1 is reported with an ON event, every action 2 with an OFF
   event, sent with the node's nickname at this moment *)
Theorem C80_led :
  forall w o, let w' := snd (step o w) in
    w_app w' = ledAfter (w_app w) (actions (effects w w')) /\
    forall l1 a p m l2, effects w w' = l1 ++ OAction a p m :: l2 -> reported (memAfter (w_ps w) l1 (ps_nick avrCfg) mod 256) a l2.
Proof.
  intros w o w'. destruct (A_step o w) as (l & O & HA & _ & HF). assert (EF : effects w w' = l) by (rewrite (effects_app w w' (rev l) O), rev_involutive; reflexivity).
  rewrite EF. split; [exact HA|exact HF].
Qed.
Print Assumptions C80_led.

(* C80: an event that an active node receives switches the LED as the decision matrix says *)
Theorem C80_rule :
  forall w rd m, reachable w -> op_wf (OpProcess rd) -> isActive w = true -> received rd w = Some m -> m_class m <> 0 ->
    w_app (snd (process rd w)) = ledAfter (w_app w) (matrixActions w m).
Proof.
  intros w rd m HR HO HA HM HC. destruct (A_process rd w) as (l & O & HL & _).
  rewrite HL, <- (C15_event_actions_partial bool avrEnv avr_valid) with (rd := rd); try assumption; try reflexivity.
  - rewrite (effects_app w _ (rev l) O), rev_involutive. reflexivity.
  - intros; constructor.
  - intros s a p e. cbn. unfold avrAction. destruct (a =? 1), (a =? 2); repeat constructor.
  - intros; constructor.
Qed.
Print Assumptions C80_rule.

(* C80: the event is what the function of src/events/vscp_evt_information.c sends *)
Theorem C80_sender :
  forall w, w_nick w = w_ps w (ps_nick avrCfg) mod 256 ->
    callSender evt_information_sendOn [V 0; V 255; V 255] w = tp_writeMessage (infoFrame 3 (u8 (w_ps w (ps_nick avrCfg)))) w /\
    callSender evt_information_sendOff [V 0; V 255; V 255] w = tp_writeMessage (infoFrame 4 (u8 (w_ps w (ps_nick avrCfg)))) w.
Proof.
  intros w H. unfold u8. rewrite <- H. unfold callSender.
  change (outcome (c_le cfg) evt_information_sendOn [V 0; V 255; V 255]) with (Sends 3 [0; 255; 255; 0; 0; 0; 0; 0]).
  change (outcome (c_le cfg) evt_information_sendOff [V 0; V 255; V 255]) with (Sends 3 [0; 255; 255; 0; 0; 0; 0; 0]).
  split; reflexivity.
Qed.
Print Assumptions C80_sender.

(* the first row: action 1 for events of type 3, the second row: action 2 for events of type 4 *)
Definition onOffRows : list N := [0; 128; 0; 0; 255; 3; 1; 0;  0; 128; 0; 0; 255; 4; 2; 0].
Example C80_example :
  let w := avrNode onOffRows in let m := exMsg 20 3 9 [0; 0; 0] in let m' := exMsg 20 4 9 [0; 0; 0] in let v := after w (Some m) in
  reachable w /\ isActive w = true /\ received (Some m) w = Some m /\ w_nick w = w_ps w (ps_nick avrCfg) mod 256 /\
  matrixActions w m = [(1, 0, m)] /\ w_app w = false /\ w_app v = true /\ w_app (after v (Some m')) = false /\
  map (fun f => (m_class (fst f), m_type (fst f), m_oaddr (fst f), payload (fst f))) (frames (effects w v)) = [(20, 3, 5, [0; 255; 255])].
Proof. cbv zeta. split; [apply avrNode_reach; unfold onOffRows; repeat constructor|]. vmc. Qed.

(* C80, what is not true: that the LED stays as the actions leave it. The status lamp drives the same LED, and as only active nodes execute actions
   for events, the next call of main_processStatusLamp (every 250 ms) switches it on again. *)
Theorem C80_lamp_refuted :
  (exists w m, reachable w /\ isActive w = true /\ received (Some m) w = Some m /\ m_class m <> 0 /\
     let w' := after w (Some m) in map (fun x => fst (fst x)) (actions (effects w w')) = [2] /\ w_app w' = false /\
     forall k, exists s, shown (history w') = Some s /\ l_on (lampStep s (mkLed (w_app w') k)) = true) /\
  (forall w, reachable w -> isActive w = true -> forall led, exists s, shown (history w) = Some s /\ l_on (lampStep s led) = true).
Proof.
  assert (G : forall w, reachable w -> isActive w = true -> forall led, exists s, shown (history w) = Some s /\ l_on (lampStep s led) = true).
  { intros w HR HA led. exists LampOn. split; [apply (C78_active bool avrEnv); assumption|reflexivity]. }
  split; [|exact G]. set (w := avrNode onOffRows). set (m := exMsg 20 4 9 [0; 0; 0]).
  assert (R : reachable w) by (apply avrNode_reach; unfold onOffRows; repeat constructor). assert (W : op_wf (OpProcess (Some m))) by exwf.
  exists w, m. split; [exact R|]. split; [reflexivity|]. split; [reflexivity|]. split; [discriminate|]. cbv zeta.
  split; [vm_compute; reflexivity|]. split; [vm_compute; reflexivity|]. intros k. apply G; [exact (reach_op _ _ R W)|vm_compute; reflexivity].
Qed.
Print Assumptions C80_lamp_refuted.
