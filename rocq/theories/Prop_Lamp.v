(* Prop_Lamp.v - property C78: the status lamp *)
From Verif Require Import Proof_Lamp Fixture.

(* C78: whatever happened before, the last order to the status lamp fits the node's state *)
Theorem C78_lamp :
  forall A (E : Env A) w, reachable w -> shown (history w) = Some (lampFor (w_st w)).
Proof. intros A E w H. unfold history. rewrite shown_rev. apply lamp_always, H. Qed.
Print Assumptions C78_lamp.

(* C78: in terms of the API, the lamp is lit if and only if vscp_core_isActive() returns TRUE *)
Theorem C78_active :
  forall A (E : Env A) w, reachable w -> shown (history w) = Some LampOn <-> isActive w = true.
Proof.
  intros A E w H. rewrite (C78_lamp A E w H). unfold isActive. destruct (w_st w); cbn; split; intros X; try reflexivity; discriminate X.
Qed.
Print Assumptions C78_active.

(* a node that starts, looks for a nickname, gets one and is switched to the idle state by losing it *)
Example C78_example :
  let c := exCfg oDm in let E := exEnv c in
  let e r := EOp (A := Regs) (OpProcess r) in let t p := EOp (A := Regs) (OpTick p) in
  let w n := run (firstn n [e None; e None; t 6000; e None; e None; t 3000; e None; e (Some (exMsg 0 8 0 [1; 128]))]) (powerUp (exPs c 255) regs0 []) in
  (forall n, (n <= 8)%nat -> reachable (w n)) /\
  map (fun n => (w_st (w n), shown (history (w n)))) [0; 1; 6; 7; 8]%nat =
    [(STARTUP, Some LampBlinkSlow); (INIT, Some LampBlinkFast); (INIT, Some LampBlinkFast); (ACTIVE, Some LampOn); (IDLE, Some LampOff)].
Proof.
  cbv zeta. split; [|vm_compute; reflexivity]. intros n Hn. apply exReach; [lia|]. apply Forall_forall. intros x Hx.
  assert (Hy : forall l, In x (firstn n l) -> In x l) by (intros l; revert n Hn Hx; intros n _ _; revert l; induction n as [|n IH]; intros [|y l]; cbn; intros []; auto).
  apply Hy in Hx. revert x Hx Hy. match goal with |- forall x, In x ?l -> _ => assert (G : Forall event_wf l) by exwf; rewrite Forall_forall in G; intros; apply G; assumption end.
Qed.
