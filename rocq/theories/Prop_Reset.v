(* Prop_Reset.v - property C49: waiting for the reset *)
From Verif Require Import Spec_Reset Proof_Reset Proof_Drop Prop_Drop FixtureReq.

(* C49: an active node that gets into RESET (a nickname drop with wait time t, see C48, leaves w_sec = t) requests the reset exactly once,
   in the process call in which the wait of t seconds is over, whatever frames arrive and whatever the application calls, as long as
   neither a new discovery is started nor the node initialised again.
   Missing from the full claim: that no earlier reset request since the last initialisation was ignored. *)
Theorem C49_reset_partial :
  forall A (E : Env A), valid_env E -> timersNeeded cfg <= c_timers cfg -> forall w rd es,
    reachable w -> isActive w = true -> op_wf (OpProcess rd) ->
    let w1 := after w rd in let w2 := run es w1 in
    w_st w1 = RESET -> resetPending (history w1) = false -> Forall event_wf es -> Forall inService es ->
    w_st w2 = RESET /\ resetRequests (effects w1 w2) = if waitOver (w_sec w1) (effects w1 w2) then 1%nat else 0%nat.
Proof.
  intros A E VE HT w rd es HR HA WF w1 w2 SR HP HE IS. assert (HR1 : reachable w1) by (apply (reach_op w (OpProcess rd) HR WF)).
  assert (SA : w_st w = ACTIVE) by (unfold isActive in HA; destruct (w_st w); try discriminate HA; reflexivity).
  assert (P : progress (w_sec w1) [] w1).
  { split; [apply (reach_apart w1 VE HR1 HT)|]. split; [exact SR|]. cbn [fold_left]. split; [rewrite (reach_pending w1 HR1); exact HP|]. split; [reflexivity|]. split; [reflexivity|].
    unfold w1. rewrite (entry_timer VE rd w HR HT SA SR). rewrite N.sub_0_r. destruct (N.eqb_spec (w_sec (after w rd)) 0) as [->|NE]; [reflexivity|]. destruct (N.ltb_spec 0 (w_sec (after w rd))); [reflexivity|lia]. }
  destruct (progress_run VE (w_sec w1) es [] w1 HR1 HT HE IS P) as (l & H1 & _ & H2 & H3). fold w2 in H1, H2, H3. split; [exact H2|].
  assert (EF : effects w1 w2 = l).
  { rewrite (effects_app w1 w2 (rev l)), rev_involutive; [reflexivity|]. unfold history in H1. apply (f_equal (@rev Obs)) in H1. rewrite rev_app_distr, !rev_involutive in H1. exact H1. }
  rewrite EF. cbn [app] in H3. unfold waitOver. destruct (fold_left wait1 l (w_sec w1, 0, false)) as [[k ms] ov]. cbn [snd]. destruct ov; apply H3.
Qed.
Print Assumptions C49_reset_partial.

(* C49: the wait time is the one of the drop request *)
Theorem C49_wait_time :
  forall A (E : Env A), valid_env E -> timersNeeded cfg <= c_timers cfg -> forall w rd m data flags t es,
    request w rd m 8 (w_nick w :: data) -> dropArgs (w_nick w :: data) = Some (flags, t) -> dropIdle flags = false -> quiet w (after w rd) ->
    let w1 := after w rd in let w2 := run es w1 in
    resetPending (history w1) = false -> Forall event_wf es -> Forall inService es ->
    resetRequests (effects w1 w2) = if waitOver t (effects w1 w2) then 1%nat else 0%nat.
Proof.
  intros A E VE HT w rd m data flags t es HQ HA HI HQu w1 w2 HP HE IS.
  destruct (C48_nickname_afterwards A E VE w rd m data flags t HQ HA HQu) as (_ & _ & HS & HW). rewrite HI in HS. fold w1 in HS, HW.
  rewrite <- (HW HI). apply (C49_reset_partial A E VE HT w rd es); try assumption; apply HQ.
Qed.
Print Assumptions C49_wait_time.

(* C49: t seconds are not over before t seconds have passed, and they are over when a process call has seen each of them pass *)
Theorem C49_not_before : forall t l, waitOver t l = true -> 1000 * t <= elapsed l.
Proof.
  assert (G : forall l k ms, snd (fold_left wait1 l (k, ms, false)) = true -> 1000 * k <= ms + elapsed l).
  { induction l as [|o l IH]; intros k ms H; [discriminate H|]. cbn [fold_left] in H.
    assert (D : wait1 (k, ms, false) o = (k, ms, false) \/ (exists p, o = OTick p) \/ o = OProcess) by (destruct o; eauto).
    destruct D as [D|[[p ->]| ->]].
    - rewrite D in H. apply IH in H. destruct o; cbn [elapsed]; lia.
    - cbn [wait1] in H. apply IH in H. cbn [elapsed]. lia.
    - cbn [wait1 elapsed] in *. destruct ((k =? 0) || (1000 <=? ms)) eqn:F; [|apply IH, H]. destruct (k <=? 1) eqn:K1; [lia|]. apply IH in H. lia. }
  intros t l H. apply G in H. lia.
Qed.
Print Assumptions C49_not_before.

Theorem C49_when_passed : forall t ls,
  N.of_nat (length ls) = N.max 1 t -> Forall (fun b => ~ In OProcess b /\ (t = 0 \/ 1000 <= elapsed b)) ls ->
  waitOver t (flat_map (fun b => b ++ [OProcess]) ls) = true.
Proof.
  assert (D : forall q s, snd s = true -> snd (fold_left wait1 q s) = true).
  { induction q as [|o q IH]; intros [[k ms] ov] H; [exact H|]. cbn [snd] in H. subst ov. cbn [fold_left]. apply IH. reflexivity. }
  assert (B : forall b k ms, ~ In OProcess b -> fold_left wait1 b (k, ms, false) = (k, ms + elapsed b, false)).
  { induction b as [|o b IH]; intros k ms NI; [cbn; rewrite N.add_0_r; reflexivity|]. cbn [fold_left].
    assert (NB : ~ In OProcess b) by (intros X; apply NI; right; exact X).
    destruct o; try (cbn [wait1 elapsed]; rewrite IH by exact NB; f_equal; f_equal; lia). exfalso. apply NI. left. reflexivity. }
  intros t ls. revert t. induction ls as [|b ls IH]; intros t HL HF; [cbn [length] in HL; lia|].
  inversion HF as [|? ? [NP HB] HF']; subst. unfold waitOver. cbn [flat_map]. rewrite !fold_left_app, B by exact NP. cbn [fold_left]. rewrite N.add_0_l.
  cbn [wait1]. replace ((t =? 0) || (1000 <=? elapsed b)) with true by (symmetry; destruct HB as [->|HB]; [reflexivity|destruct (t =? 0); cbn [orb]; lia]).
  destruct (N.leb_spec t 1) as [T1|T1]; [apply D; reflexivity|].
  apply (IH (t - 1)). { cbn [length] in HL. lia. } revert HF'. apply Forall_impl. intros a [X Y]. split; [exact X|]. right. destruct Y; lia.
Qed.
Print Assumptions C49_when_passed.

(* a reset request is remembered until the next initialisation: a second RESET never ends *)
Theorem C49_reset_refuted :
  exists E : Env Regs, valid_env E /\ timersNeeded cfg <= c_timers cfg /\ exists w rd es,
    reachable w /\ isActive w = true /\ op_wf (OpProcess rd) /\ w_st (after w rd) = RESET /\ Forall event_wf es /\ Forall inService es /\
    waitOver (w_sec (after w rd)) (effects (after w rd) (run es (after w rd))) = true /\
    resetRequests (effects (after w rd) (run es (after w rd))) = 0%nat.
Proof.
  pose (E := exEnv (exCfg oDm)). exists E. split; [exvalid|]. split; [vm_compute; discriminate|].
  pose (p := EOp (A := Regs) (OpProcess None)). pose (d := exReq 8 [5]). pose (k := EOp (A := Regs) (OpProcess (Some (exMsg 0 3 0 [])))).
  exists (run [p; EOp (OpProcess (Some d)); p; EOp (OpApi AStartInit); p; k; EOp (OpProcess (Some (exMsg 0 6 0 [255; 5])))] (powerUp (exPs (exCfg oDm) 5) regs0 [])).
  exists (Some d), [p; p; p]. split; [exreach|]. split; [vm_compute; reflexivity|]. split; [exwf|]. split; [vm_compute; reflexivity|].
  split; [repeat constructor|]. split; [repeat constructor|]. vmc.
Qed.
Print Assumptions C49_reset_refuted.

Example C49_example :
  let E := exEnv (exCfg oDm) in
  let w := run [EOp (OpProcess None)] (powerUp (exPs (exCfg oDm) 5) regs0 []) in
  let rd := Some (exReq 8 [5; 0; 2]) in let s := [EOp (OpTick 999); EOp (OpProcess None); EOp (OpTick 1)] in let p := EOp (OpProcess None) in
  valid_env E /\ timersNeeded cfg <= c_timers cfg /\ reachable w /\ isActive w = true /\ op_wf (OpProcess rd) /\ w_st (after w rd) = RESET /\ w_sec (after w rd) = 2 /\
  resetPending (history (after w rd)) = false /\
  resetRequests (effects (after w rd) (run (s ++ p :: s) (after w rd))) = 0%nat /\
  resetRequests (effects (after w rd) (run (s ++ p :: s ++ [p; p; p]) (after w rd))) = 1%nat.
Proof. cbv zeta. split; [exvalid|]. split; [vm_compute; discriminate|]. split; [exreach|]. split; [vm_compute; reflexivity|]. split; [exwf|]. vmc. Qed.
