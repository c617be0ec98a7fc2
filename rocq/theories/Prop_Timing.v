(* Prop_Timing.v - properties C55 and C56: node heartbeats and the time since epoch *)
From Verif Require Import Spec_Timing Proof_Heartbeat Proof_Epoch FixtureReq.

(* C55: in a process call of a node that was active at its start a heartbeat is sent at one point of it, iff heartbeats are enabled and the
   period is over at that point (hbState says what the history means for that), and otherwise none.
   Missing from the full claim: the node may have left ACTIVE by the message handled before that point (C55_not_active_refuted). *)
Theorem C55_heartbeat_partial :
  forall A (E : Env A), valid_env E -> timersNeeded cfg <= c_timers cfg -> c_hb_node cfg = true -> forall w rd,
    reachable w -> op_wf (OpProcess rd) ->
    exists before hb rest, effects w (after w rd) = before ++ hb ++ rest /\
      let count l := hb_count (hbState (history w ++ l)) in let s := hbState (history w ++ before) in
      count before = count [] /\
      (if isActive w && hb_en s && (hb_left s =? 0) then count (before ++ hb) = count [] + 1 else hb = []) /\
      count (before ++ hb ++ rest) = count (before ++ hb).
Proof.
  intros A E VE HT HN w rd HR WF. assert (HA := reach_apart w VE HR HT). destruct (reach_hb VE HN w HT HR) as (n & K).
  destruct (hb_process HN rd w HA) as (u & v & S1 & S2 & S3 & Z).
  destruct (steps_hist _ _ _ _ S1 K) as [K1 E1]. destruct (steps_hist _ _ _ _ S2 K1) as [K2 E2]. destruct (steps_hist _ _ _ _ S3 K2) as [K3 E3].
  exists (effects w u), (effects u v), (effects v (after w rd)). split.
  { destruct S1 as (_ & l1 & O1 & _), S2 as (_ & l2 & O2 & _), S3 as (_ & l3 & O3 & _). rewrite (effects_app w u l1 O1), (effects_app u v l2 O2), (effects_app v _ l3 O3).
    rewrite (effects_app w (after w rd) (l3 ++ l2 ++ l1)); [rewrite !rev_app_distr, app_assoc; reflexivity|]. rewrite O3, O2, O1, !app_assoc. reflexivity. }
  cbv zeta beta. rewrite app_nil_r, !(app_assoc (history w)), <- E1, (app_assoc (history u)), <- E2, <- E3.
  rewrite K, K1, K2, K3. cbn [hbOf hb_count hb_en hb_left]. split; [lia|]. split; [|lia].
  destruct (isActive w); cbn [andb]; [|rewrite Z by auto; unfold effects; rewrite Nat.sub_diag; reflexivity]. unfold hbTime in *.
  destruct (w_hbEn u && (tv 4 u =? 0)); [lia|]. rewrite Z by auto. unfold effects. rewrite Nat.sub_diag. reflexivity.
Qed.
Print Assumptions C55_heartbeat_partial.

(* C55: the other operations send no heartbeat, and neither does a node configured without them *)
Theorem C55_other_operations :
  forall A (E : Env A), valid_env E -> timersNeeded cfg <= c_timers cfg -> c_hb_node cfg = true -> forall w o,
    reachable w -> op_wf o -> (forall rd, o <> OpProcess rd) ->
    hb_count (hbState (history (snd (step o w)))) = hb_count (hbState (history w)).
Proof.
  intros A E VE HT HN w o HR WF NP. assert (HA := reach_apart w VE HR HT). destruct (reach_hb VE HN w HT HR) as (n & K). destruct o as [rd|p|c|].
  - exfalso. apply (NP rd). reflexivity.
  - change (history (snd (step (OpTick p) w))) with (history w ++ [OTick p]). rewrite hb_app. reflexivity.
  - unfold step. destruct (steps_hist _ _ _ _ (steps_of _ w (RH_api HN c) HA) K) as [K1 _]. rewrite K, K1. cbn [hbOf hb_count]. lia.
  - rewrite step_init. destruct (hb_init VE w HT) as (_ & l & O & F). unfold history in *. rewrite O, rev_app_distr, hb_app, K. unfold hbOf at 1. rewrite F. reflexivity.
Qed.
Print Assumptions C55_other_operations.

Theorem C55_not_configured :
  forall A (E : Env A), valid_env E -> c_hb_node cfg = false -> forall w, reachable w -> hb_count (hbState (history w)) = 0.
Proof. intros A E VE HN w HR. apply (reach_nohb HN w HR). Qed.
Print Assumptions C55_not_configured.

(* C55: the period is not over before its milliseconds have passed *)
Theorem C55_not_early :
  forall A (E : Env A) l1 l2, ~ In OInit l2 -> ~ In OPower l2 ->
    hb_left (hbState (l1 ++ l2)) = 0 -> hb_left (hbState l1) <= elapsed l2.
Proof.
  intros A E l1 l2 N1 N2. rewrite hb_app.
  assert (B : hb_left (hbState l1) <= hbPeriod).
  { assert (X : forall l s, hb_left s <= hbPeriod -> hb_left (fold_left hbStep l s) <= hbPeriod); [|apply X; cbn; lia].
    induction l as [|o l IH]; intros s H; cbn [fold_left]; [exact H|]. apply IH. destruct o; cbn [hbStep hb_left]; try exact H; try lia.
    - destruct c; exact H.
    - destruct (_ && _); cbn [hb_left]; lia.
    - destruct l0; cbn [hb_left]; try destruct (hb_en s); lia. }
  revert N1 N2 B. generalize (hbState l1). intros s N1 N2 B H.
  assert (G : forall l s, ~ In OInit l -> ~ In OPower l -> hb_left s <= hbPeriod -> hb_left s <= hb_left (fold_left hbStep l s) + elapsed l).
  { clear. induction l as [|o l IH]; intros s N1 N2 B; cbn [fold_left elapsed]; [lia|].
    assert (N1' : ~ In OInit l) by (intros X; apply N1; right; exact X). assert (N2' : ~ In OPower l) by (intros X; apply N2; right; exact X).
    assert (ST : hb_left (hbStep s o) <= hbPeriod /\ hb_left s <= hb_left (hbStep s o) + elapsed [o]).
    { destruct o; cbn [hbStep hb_left elapsed]; try lia; try (exfalso; apply N1; left; reflexivity); try (exfalso; apply N2; left; reflexivity).
      - destruct c; cbn [hb_left]; lia.
      - destruct (_ && _); cbn [hb_left]; lia.
      - destruct l0; cbn [hb_left]; try destruct (hb_en s); lia. }
    specialize (IH (hbStep s o) N1' N2' (proj1 ST)). destruct o; cbn [elapsed] in *; lia. }
  specialize (G l2 s N1 N2 B). lia.
Qed.
Print Assumptions C55_not_early.

(* C55: the frame, here of a call without a received message *)
Theorem C55_frame :
  forall A (E : Env A), valid_env E -> timersNeeded cfg <= c_timers cfg -> c_hb_node cfg = true -> c_custom_hb cfg = false -> forall w rd,
    reachable w -> op_wf (OpProcess rd) -> isActive w = true -> taken (effects w (after w rd)) = [] ->
    hb_en (hbState (history w)) = true -> hb_left (hbState (history w)) = 0 ->
    exists ok rest, effects w (after w rd) = OProcess :: OTx (mkMsg 3 20 9 (w_nick w) (c_hard cfg) 3 [0; nodeZone w; nodeSubZone w; 0; 0; 0; 0; 0]) ok :: rest.
Proof.
  intros A E VE HT HN HC w rd HR WF IA TK EN LE. assert (RN : received rd w = None) by (unfold after in TK; rewrite process_taken in TK; destruct (received rd w); [discriminate TK|reflexivity]). assert (HA := reach_apart w VE HR HT). destruct (reach_hb VE HN w HT HR) as (n & K). rewrite K in EN, LE. cbn [hbOf hb_en hb_left] in EN, LE.
  apply (hb_frame HN rd w HA IA RN HC). unfold hbTime. rewrite EN, LE. reflexivity.
Qed.
Print Assumptions C55_frame.

(* C55: heartbeats are enabled as vscp_core_enableHeartbeat was asked to, as long as each call asks for a change *)
Theorem C55_enable_partial : forall A (E : Env A) l, hbChanges true l -> hb_en (hbState l) = hbWanted l.
Proof.
  intros A E l.
  assert (G : forall l s b, hb_en s = b -> hbChanges b l -> hb_en (fold_left hbStep l s) = fold_left (fun b o => match o with OPower => true | OApi (AHeartbeat b') => b' | _ => b end) l b).
  { clear. induction l as [|o l IH]; intros s b H C; cbn [fold_left]; [exact H|]. destruct o; cbn [hbChanges] in C; try (apply IH; [exact H|exact C]); try (apply IH; [reflexivity|exact C]).
    - destruct c; try (apply IH; [exact H|exact C]). destruct C as [-> C]. apply IH; [cbn; rewrite H; reflexivity|exact C].
    - apply IH; [|exact C]. cbn [hbStep]. destruct (_ && _); exact H.
    - apply IH; [|exact C]. cbn [hbStep]. destruct l0; exact H. }
  intros H. apply G; [reflexivity|exact H].
Qed.
Print Assumptions C55_enable_partial.

(* its argument has no effect: asked twice to disable the heartbeats, the node sends them *)
Theorem C55_enable_refuted :
  exists E : Env Regs, valid_env E /\ timersNeeded cfg <= c_timers cfg /\ c_hb_node cfg = true /\ exists w rd,
    reachable w /\ op_wf (OpProcess rd) /\ isActive w = true /\ hbWanted (history w) = false /\
    hb_count (hbState (history (after w rd))) = hb_count (hbState (history w)) + 1.
Proof.
  pose (E := exEnv (exCfg oDm)). exists E. split; [exvalid|]. split; [vm_compute; discriminate|]. split; [reflexivity|].
  exists (run [EOp (OpProcess None); EOp (OpApi (AHeartbeat false)); EOp (OpApi (AHeartbeat false)); EOp (OpTick 30000)] (powerUp (exPs (exCfg oDm) 5) regs0 [])), None.
  split; [exreach|]. split; [exwf|]. vmc.
Qed.
Print Assumptions C55_enable_refuted.

(* a node dropped from the segment sends one more heartbeat *)
Theorem C55_not_active_refuted :
  exists E : Env Regs, valid_env E /\ timersNeeded cfg <= c_timers cfg /\ c_hb_node cfg = true /\ exists w m hb ok,
    reachable w /\ op_wf (OpProcess (Some m)) /\ effects w (after w (Some m)) = [OProcess; ORx m; OLamp LampOff; OTx hb ok; ORet true] /\
    isHeartbeat hb = true /\ m_class m = 0 /\ m_type m = 8 /\ w_st (after w (Some m)) = RESET.
Proof.
  pose (E := exEnv (exCfg oDm)). exists E. split; [exvalid|]. split; [vm_compute; discriminate|]. split; [reflexivity|].
  exists (run [EOp (OpProcess None); EOp (OpTick 30000)] (powerUp (exPs (exCfg oDm) 5) regs0 [])), (exReq 8 [5; 32]), (mkMsg 3 20 9 5 false 3 [0; 0; 0; 0; 0; 0; 0; 0]), true.
  split; [exreach|]. split; [exwf|]. vmc.
Qed.
Print Assumptions C55_not_active_refuted.

(* active with 29999 of 30000 milliseconds gone: no heartbeat; with all of them gone: one; right after it: none *)
Example C55_example :
  let E := exEnv (exCfg oDm) in let p := EOp (OpProcess None) in
  let w := run [p; EOp (OpTick 29999); p] (powerUp (exPs (exCfg oDm) 5) regs0 []) in
  let w1 := run [p; EOp (OpTick 29999); p; EOp (OpTick 1)] (powerUp (exPs (exCfg oDm) 5) regs0 []) in
  valid_env E /\ timersNeeded cfg <= c_timers cfg /\ c_hb_node cfg = true /\ c_custom_hb cfg = false /\ reachable w /\ reachable w1 /\ op_wf (OpProcess None) /\ isActive w1 = true /\
  hbChanges true (history w) /\ hb_en (hbState (history w)) = true /\ hb_left (hbState (history w)) = 1 /\ hb_left (hbState (history w1)) = 0 /\
  hb_count (hbState (history w1)) = 0 /\ hb_count (hbState (history (after w1 None))) = 1 /\ hb_count (hbState (history (after (after w1 None) None))) = 1 /\
  hb_count (hbState (history w)) = 0.
Proof. cbv zeta. split; [exvalid|]. split; [vm_compute; discriminate|]. split; [reflexivity|]. split; [reflexivity|]. split; [exreach|]. split; [exreach|]. split; [exwf|]. split; [reflexivity|]. split; [vm_compute; exact Logic.I|]. vmc. Qed.

(* C56: a process call adds one second (modulo 2^32) if the second of the history is over; then the time changes only by calls of
   vscp_core_setTimeSinceEpoch from within the call (timeSet) and, on an active node, by a segment controller heartbeat that carries a time and
   is not claimed by the application. The application is notified of the latter, if configured. *)
Theorem C56_process :
  forall A (E : Env A), valid_env E -> timersNeeded cfg <= c_timers cfg -> forall w rd,
    reachable w -> op_wf (OpProcess rd) ->
    let e1 := if secLeft (history w) =? 0 then (getTimeSinceEpoch w + 1) mod 2 ^ 32 else getTimeSinceEpoch w in
    let fx := effects w (after w rd) in
    match newTime w (taken fx) with
    | None => getTimeSinceEpoch (after w rd) = timeSet fx e1
    | Some t => exists l1 l2, fx = l1 ++ (if c_time_co cfg then [OTime t] else []) ++ l2 /\ getTimeSinceEpoch (after w rd) = timeSet l2 t /\
        (c_prot_ev cfg = false -> forall c, ~ In (OApi c) l1)
    end.
Proof.
  intros A E VE HT w rd HR WF e1 fx. unfold e1. rewrite (reach_sec VE w HT HR). assert (X : taken fx = match received rd w with Some m => [m] | None => [] end) by apply process_taken.
  rewrite X. apply epoch_process; [apply (reach_apart w VE HR HT)|intros m; apply (received_wf VE rd w m HR WF)].
Qed.
Print Assumptions C56_process.

(* C56: the other operations change it only by vscp_core_setTimeSinceEpoch *)
Theorem C56_other_operations :
  forall A (E : Env A), valid_env E -> forall w o, reachable w -> op_wf o -> (forall rd, o <> OpProcess rd) ->
    getTimeSinceEpoch (snd (step o w)) = timeSet (effects w (snd (step o w))) (getTimeSinceEpoch w).
Proof.
  intros A E VE w o HR WF NP. destruct o as [rd|p|c|].
  - exfalso. apply (NP rd). reflexivity.
  - rewrite (effects_app w _ [OTick p]); reflexivity.
  - unfold step. destruct RE_parts as (_ & P & _). destruct (P c w) as (l & O & HE & _). rewrite (effects_app w _ l O). exact HE.
  - rewrite step_init. destruct (epoch_init w) as (l & O & HE). rewrite (effects_app w _ l O). exact HE.
Qed.
Print Assumptions C56_other_operations.

(* C56: the second is looked at once it is over and not before *)
Theorem C56_second :
  forall l p, secLeft (l ++ [OInit]) = 1000 /\ secLeft (l ++ [OTick p]) = secLeft l - p /\
    (secLeft l = 0 -> secLeft (l ++ [OProcess]) = 1000) /\ (secLeft l <> 0 -> secLeft (l ++ [OProcess]) = secLeft l) /\
    forall o, ~ In o [OInit; OProcess] -> (forall p, o <> OTick p) -> secLeft (l ++ [o]) = secLeft l.
Proof.
  intros l p. rewrite !secLeft_app. cbn [fold_left sec1]. split; [reflexivity|]. split; [reflexivity|]. split; [intros ->; reflexivity|]. split.
  - intros H. destruct (secLeft l =? 0) eqn:X; [lia|reflexivity].
  - intros o H1 H2. rewrite secLeft_app. cbn [fold_left sec1]. destruct o; try reflexivity; exfalso; first [exact (H2 _ eq_refl) | apply H1; left; reflexivity | apply H1; right; left; reflexivity].
Qed.
Print Assumptions C56_second.

(* a node with the largest time: nothing before the second is over, then the time wraps; a segment controller heartbeat sets it; the API sets it *)
Example C56_example :
  let E := exEnv (exCfg oDm) in let p := EOp (OpProcess None) in let pw := powerUp (exPs (exCfg oDm) 5) regs0 [] in
  let es := [p; EOp (OpApi (ASetTime (2 ^ 32 - 1))); EOp (OpTick 999)] in let m := exReq 1 [0; 1; 2; 3; 4] in
  let w := run es pw in let w1 := run (es ++ [EOp (OpTick 1)]) pw in
  valid_env E /\ timersNeeded cfg <= c_timers cfg /\ reachable w /\ reachable w1 /\ op_wf (OpProcess None) /\ op_wf (OpProcess (Some m)) /\
  secLeft (history w) = 1 /\ getTimeSinceEpoch (after w None) = 2 ^ 32 - 1 /\ secLeft (history w1) = 0 /\ getTimeSinceEpoch (after w1 None) = 0 /\
  newTime w (taken (effects w (after w (Some m)))) = Some 16909060 /\ getTimeSinceEpoch (after w (Some m)) = 16909060.
Proof.
  cbv zeta. split; [exvalid|]. split; [vm_compute; discriminate|]. split; [exreach|]. split; [exreach|]. split; [exwf|]. split; [exwf|]. vmc.
Qed.
