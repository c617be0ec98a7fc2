(* Proof_Reset.v - the RESET state *)
From Verif Require Export Proof_Timers Spec_Reset.
From Verif Require Import Proof_Serve.

Section R.
Context {A : Type} {E : Env A}.
Implicit Types w : World A.
Hypothesis VE : valid_env E.

(* ---- entering ---- *)
Definition fresh w : Prop := w_st w = RESET -> tv 0 w = if 0 <? w_sec w then 1000 else 0.
Definition QF w w' : Prop := fresh w -> fresh w'.
Lemma fresh_active : rel (RT QF) (@stateActive A E).
Proof.
  pose (R := RT QF). assert (Rrefl : forall w, R w w) by (apply RT_refl; intros ? H; exact H).
  assert (Rtrans : forall a b c, R a b -> R b c -> R a c) by (apply RT_trans; intros a b c _ _ _ H1 H2 H; auto).
  assert (S : forall w w', w_tSt w' = w_tSt w -> w_tGuid w' = w_tGuid w -> w_t162 w' = w_t162 w -> w_tEp w' = w_tEp w -> w_tHb w' = w_tHb w -> w_tm w' = w_tm w ->
    w_st w' = w_st w -> w_sec w' = w_sec w -> R w w').
  { intros w w' H1 H2 H3 H4 H5 H6 H7 H8. apply RT_same; try assumption. unfold QF, fresh, tv. rewrite H6, H7, H8. auto. }
  assert (S2 : forall w v, v <> RESET -> R w (set_st v w)).
  { intros w v H. apply RT_same; try reflexivity. intros _ X. wsimp_in X. contradiction. }
  assert (H_ts : forall i v, i <> 0 -> rel R (timer_start i v)).
  { intros i v N0 w HA. unfold timer_start, upd. cbn [snd]. split; [apply apart_ts, HA|]. unfold QF, fresh, timerStart. rewrite tv_set. wsimp. destruct (Nat.eqb_spec 0 (N.to_nat i)); [lia|auto]. }
  assert (H_tp : forall i, i <> 0 -> rel R (timer_stop i)).
  { intros i N0 w HA. unfold timer_stop, upd. cbn [snd]. split; [apply apart_tp, HA|]. unfold QF, fresh, timerStop. rewrite tv_set. wsimp. destruct (Nat.eqb_spec 0 (N.to_nat i)); [lia|auto]. }
  assert (s_reset : forall t, rel R (changeToStateReset t)).
  { intros t w HA. unfold changeToStateReset. rewrite bind_get. destruct (state_eqb (w_st w) RESET); cbn [negb]; [split; [exact HA|intros X; exact X]|].
    rewrite bind_emit, !bind_upd, bind_get. match goal with |- context [w_tSt ?v] => set (v1 := v) end. assert (HA1 : apart v1) by (apply (apart_same w); try reflexivity; exact HA).
    assert (TS : w_tSt v1 = 0) by apply HA1. assert (SC : w_sec v1 = t) by reflexivity. rewrite TS.
    assert (N.of_nat 0 < timersNeeded cfg) by (unfold timersNeeded; destruct (c_hb_node cfg); lia).
    destruct (0 <? t) eqn:T0; unfold timer_start, timer_stop, upd; cbn [snd].
    - split; [apply apart_ts, HA1|]. intros _ _. rewrite tv_start by (assumption || lia). wsimp. rewrite SC, T0. reflexivity.
    - split; [apply apart_tp, HA1|]. intros _ _. rewrite tv_stop by assumption. wsimp. rewrite SC, T0. reflexivity. }
  Ltac lr S S2 := intros; try (unfold setUB, setNgUB, emit); first [apply rel_upd; intros; apply S; reflexivity | apply S; reflexivity | apply S2; discriminate].
  assert (s_nick : forall v, rel R (writeNicknameId v)) by (intros; unfold writeNicknameId, psWrite8, emit; rel_tac; lr S S2).
  assert (s_init : forall b, rel R (changeToStateInit b)) by (intros; unfold changeToStateInit; rel_tac; lr S S2).
  assert (s_idle : rel R changeToStateIdle) by (unfold changeToStateIdle; rel_tac; lr S S2).
  assert (s_g : forall T (k : N -> M A T), rel R (k 1) -> rel R (bind (get w_tGuid) k)) by (intros; apply RT_guid; assumption).
  assert (s_1 : forall T (k : N -> M A T), rel R (k 2) -> rel R (bind (get w_t162) k)) by (intros; apply RT_162; assumption).
  assert (s_h : forall T (k : N -> M A T), c_hb_node cfg = true -> rel R (k 4) -> rel R (bind (get w_tHb) k)) by (intros; apply RT_hb; assumption).
  change (rel R (@stateActive A E)). clearbody R.
  assert (H_1 : forall v, rel R (timer_start 1 v)) by (intros; apply H_ts; discriminate). assert (H_1p : rel R (timer_stop 1)) by (apply H_tp; discriminate).
  assert (H_2 : forall v, rel R (timer_start 2 v)) by (intros; apply H_ts; discriminate). assert (H_2p : rel R (timer_stop 2)) by (apply H_tp; discriminate).
  assert (H_4 : forall v, rel R (timer_start 4 v)) by (intros; apply H_ts; discriminate).
  clear H_ts H_tp.
  assert (s_psW : forall a v, rel R (psWrite8 a v)) by (intros; unfold psWrite8; rel_tac; lr S S2).
  assert (s_ub : rel R setUB) by (lr S S2).
  assert (s_ngub : rel R setNgUB) by (lr S S2).
  assert (s_emit : forall o, rel R (emit o)) by (lr S S2).
  assert (s_app : forall v w, R w (set_app v w)) by (lr S S2).
  assert (s_restore : rel R restoreFactory) by (apply tr_restoreFactory; tr_fill ltac:(lr S S2)).
  assert (s_162 : forall v, rel R (writeVscpRegister REG_RESTORE v)).
  { intros v. unfold writeVscpRegister. change (rel R (id <- get w_t162 ;; running <- timer_running id ;;
      (if (v =? 85) && negb running then timer_start id (c_t_multi cfg) else when (v =? 170) && running do (timer_stop id ;; restoreFactory)) ;; ret (0, false))).
    apply s_1. unfold timer_running. rel_tac. }
  assert (s_wv : forall a v, rel R (writeVscpRegister a v)) by (intros a v; apply ts_writeVscpRegister; tr_fill ltac:(lr S S2)).
  assert (s_guid : rel R handleGuidDrop).
  { unfold handleGuidDrop, rxSize, rxd. apply rel_bind; [exact Rtrans|apply rel_get; exact Rrefl|intros sz]. apply rel_bind; [exact Rtrans|apply rel_get; exact Rrefl|intros d0].
    apply rel_if; [|apply rel_ret; exact Rrefl]. apply s_g. assert (GU : forall i, rel R (dd_getGUID i)) by (intros; apply tr_getGUID; tr_fill ltac:(lr S S2)).
    assert (s_si : rel R startNodeSegmentInit) by (unfold startNodeSegmentInit; rel_tac).
    unfold timer_running. rel_tac; lr S S2. }
  tr_parts R ltac:(lr S S2).
  assert (s_cu : rel R customHeartbeat) by (apply ts_customHeartbeat; tr_fill ltac:(lr S S2)).
  assert (s_ah : rel R activeHeartbeat).
  { unfold activeHeartbeat. destruct (c_hb_node cfg) eqn:HN; [|apply rel_ret; exact Rrefl]. apply rel_bind; [exact Rtrans|apply rel_get; exact Rrefl|intros en]. apply s_h; [reflexivity|].
    unfold timer_running. rel_tac. }
  tr_top R ltac:(lr S S2). exact t_active.
Qed.

(* ---- has the reset been requested? ---- *)
Definition pend (b : bool) (o : Obs) : bool := match o with OInit => false | OResetRequest => true | _ => b end.
Definition RP w w' : Prop := exists l, w_out w' = l ++ w_out w /\ w_rreq w' = fold_left pend (rev l) (w_rreq w).
Lemma RP_refl w : RP w w. Proof. exists []. auto. Qed.
Lemma RP_trans (a b c : World A) : RP a b -> RP b c -> RP a c.
Proof. intros (l1 & O1 & H1) (l2 & O2 & H2). exists (l2 ++ l1). rewrite O2, O1, app_assoc. split; [reflexivity|]. rewrite rev_app_distr, fold_left_app, <- H1. exact H2. Qed.
Lemma RP_parts : (forall rd, rel RP (@process A E rd)) /\ (forall c, rel RP (@doApi A E c)) /\ rel RP (@initTimers A E) /\ (forall b, rel RP (@initTail A E b)).
Proof.
  pose (R := RP). assert (Rrefl : forall w, R w w) by apply RP_refl. assert (Rtrans : forall a b c, R a b -> R b c -> R a c) by apply RP_trans.
  assert (S : forall w w', w_out w' = w_out w -> w_rreq w' = w_rreq w -> R w w') by (intros w w' H1 H2; exists []; auto).
  assert (X_e : forall o, o <> OInit -> o <> OResetRequest -> rel R (@emit A o)).
  { intros o N1 N2 w. exists [o]. split; [reflexivity|]. cbn. destruct o; try reflexivity; contradiction. }
  assert (s_sreset : rel R (@stateReset A)).
  { intros w. unfold stateReset, timer_running. rewrite !bind_get. match goal with |- context [if ?c then _ else _] => destruct c end; [|apply Rrefl].
    rewrite bind_upd, bind_get. match goal with |- context [if ?c then _ else _] => destruct c end; [|apply S; reflexivity].
    rewrite bind_emit. exists [OResetRequest]. split; reflexivity. }
  change ((forall rd, rel R (@process A E rd)) /\ (forall c, rel R (@doApi A E c)) /\ rel R (@initTimers A E) /\ (forall b, rel R (@initTail A E b))). clearbody R.
  Ltac lp S X_e := intros; try (unfold setUB, setNgUB, timer_start, timer_stop); first [apply X_e; [discriminate|discriminate] | apply X_e; [intros ->; discriminate|intros ->; discriminate] | apply rel_upd; intros; apply S; reflexivity | apply S; reflexivity].
  tr_all R ltac:(lp S X_e). split; [exact t_process|]. split; [exact t_api|]. split.
  - unfold initTimers, createTimer. rel_tac; try (lp S X_e); try exact t_ts.
  - intros b. unfold initTail. assert (HS : rel R getStartUpControl) by (apply tr_startUp; tr_fill ltac:(lp S X_e)). rel_tac.
Qed.
Lemma pend_app l1 l2 b : fold_left pend (l1 ++ l2) b = fold_left pend l2 (fold_left pend l1 b). Proof. apply fold_left_app. Qed.
Lemma reach_pending w : reachable w -> w_rreq w = resetPending (history w).
Proof.
  destruct RP_parts as (P1 & P2 & P3 & P4).
  assert (ST : forall w w', RP w w' -> w_rreq w = resetPending (history w) -> w_rreq w' = resetPending (history w')).
  { intros w0 w' (l & O & H) K. unfold resetPending, history in *. rewrite O, rev_app_distr. rewrite H, K. fold pend. rewrite pend_app. reflexivity. }
  assert (I : forall w0, w_rreq (snd (core_init w0)) = resetPending (history (snd (core_init w0)))).
  { intros w0. rewrite core_init_eq. apply (ST (snd (initTimers (snd (initHead w0))))); [apply P4|]. apply (ST (snd (initHead w0))); [apply P3|].
    assert (O : w_out (snd (initHead w0)) = OLamp LampBlinkSlow :: OInit :: w_out w0).
    { unfold initHead, tp_init, dm_init, ps_readNicknameId, psRead8, emit, bind, upd, get. cbn [fst snd]. wsimp. destruct (c_loop cfg), (c_dm cfg), (c_dm_paged cfg); reflexivity. }
    assert (Q : w_rreq (snd (initHead w0)) = false).
    { unfold initHead, tp_init, dm_init, ps_readNicknameId, psRead8, emit, bind, upd, get. cbn [fst snd]. wsimp. destruct (c_loop cfg), (c_dm cfg), (c_dm_paged cfg); reflexivity. }
    unfold history, resetPending. rewrite O, Q. cbn [rev]. rewrite !fold_left_app. reflexivity. }
  revert w. apply reach_stable; [intros; apply I|]. intros o w _ _ K. destruct o as [rd|p|c|].
  - apply (ST w); [|exact K]. unfold step. rewrite snd_then. apply P1.
  - apply (ST w); [|exact K]. exists [OTick p]. split; reflexivity.
  - apply (ST w); [|exact K]. apply P2.
  - rewrite step_init. apply I.
Qed.
(* ---- API calls while waiting ---- *)
Definition calm (o : Obs) : Prop := match o with OTick _ | OProcess | OResetRequest | OInit => False | _ => True end.
Definition RA w w' : Prop := exists l, w_out w' = l ++ w_out w /\ Forall calm l /\ w_sec w' = w_sec w /\ w_rreq w' = w_rreq w /\ w_tm w' = w_tm w.
Lemma RA_refl w : RA w w. Proof. exists []. auto 6. Qed.
Lemma RA_trans (a b c : World A) : RA a b -> RA b c -> RA a c.
Proof. intros (l1 & O1 & H1 & H2 & H3 & H4) (l2 & O2 & K1 & K2 & K3 & K4). exists (l2 ++ l1). rewrite O2, O1, app_assoc, Forall_app. repeat split; try assumption; congruence. Qed.
Lemma RA_api c : c <> AStartInit -> rel RA (@doApi A E c).
Proof.
  intros NS. pose (R := RA). assert (Rrefl : forall w, R w w) by apply RA_refl. assert (Rtrans : forall a b c, R a b -> R b c -> R a c) by apply RA_trans.
  assert (S : forall w w', w_out w' = w_out w -> w_sec w' = w_sec w -> w_rreq w' = w_rreq w -> w_tm w' = w_tm w -> R w w') by (intros w w' H1 H2 H3 H4; exists []; auto 6).
  assert (X_e : forall o, calm o -> rel R (@emit A o)).
  { intros o C w. exists [o]. repeat split; auto. }
  change (rel R (@doApi A E c)). clearbody R.
  Ltac la S X_e := intros; try (unfold setUB, setNgUB); first [apply X_e; exact Logic.I | apply rel_upd; intros; apply S; reflexivity | apply S; reflexivity].
  assert (s_ub : rel R setUB) by (la S X_e). assert (s_ngub : rel R setNgUB) by (la S X_e). assert (s_app : forall v w, R w (set_app v w)) by (la S X_e).
  assert (s_psW : forall a v, rel R (psWrite8 a v)) by (intros; unfold psWrite8; rel_tac; la S X_e).
  assert (s_tx : forall m, rel R (tp_writeMessage m)) by (intros; unfold tp_writeMessage, adapterWrite, loopWrite; rel_tac; try (la S X_e); destruct (w_txe _ <? 255); la S X_e).
  assert (s_nick : forall v, rel R (writeNicknameId v)) by (intros; apply tr_writeNicknameId; tr_fill ltac:(la S X_e)).
  assert (s_r : rel R restoreFactory).
  { assert (Hem : forall o, plainObs o = true -> o <> OProcess -> rel R (emit o)) by (intros o Ho Hp; apply X_e; destruct o; try exact Logic.I; try discriminate Ho; congruence).
    assert (H1 : rel R dd_restore) by (apply tr_dd_restore; tr_fill ltac:(la S X_e)). assert (H2 : rel R dm_restore) by (apply tr_dm_restore; tr_fill ltac:(la S X_e)).
    assert (H3 : rel R ng_restore) by (apply tr_ng_restore; tr_fill ltac:(la S X_e)). unfold restoreFactory, ps_writeCRC, ps_writeCtrl, ps_writeUserId, psWriteIdx. rel_tac; la S X_e. }
  assert (s_log : forall i l d, rel R (log_log i l d)) by (intros; apply tr_log_log; tr_fill ltac:(la S X_e)).
  unfold doApi. destruct c; try congruence; unfold setAlarm, setTimeSinceEpoch, enableHeartbeat, log_enable, log_setLevel, ps_writeLogId, ps_writeZone, ps_writeSub, tp_getTransmitErrors; rel_tac; la S X_e.
Qed.

(* ---- one operation ---- *)
Lemma apart_prologue rd w : apart w -> apart (snd (prologue rd w)).
Proof.
  intros H. apply (apart_same w); try (apply pres_prologue; reflexivity); [|exact H].
  destruct (prologue_tm rd w) as [->|(_ & _ & ->)]; [reflexivity|]. apply setAt_ids.
Qed.
Lemma tv_prologue i rd w : apart w -> i <> 3%nat -> tv i (snd (prologue rd w)) = tv i w.
Proof.
  intros H NE. unfold tv. destruct (prologue_tm rd w) as [->|(_ & _ & ->)]; [reflexivity|]. unfold timerStart. rewrite timerSetAt_other; [reflexivity|].
  assert (X : w_tEp w = 3) by apply H. rewrite X. change (N.to_nat 3) with 3%nat. congruence.
Qed.
Lemma zero_in : N.of_nat 0 < timersNeeded (@cfg A E). Proof. unfold timersNeeded. destruct (c_hb_node cfg); lia. Qed.
Lemma entry_timer rd w : reachable w -> timersNeeded cfg <= c_timers cfg -> w_st w = ACTIVE -> w_st (after w rd) = RESET ->
  tv 0 (after w rd) = if 0 <? w_sec (after w rd) then 1000 else 0.
Proof.
  intros HR HT SA SR. assert (HA := reach_apart w VE HR HT). destruct (epilogue_history rd w) as (b & EQ). cbv zeta in EQ. rewrite EQ in SR |- *. wsimp_in SR. wsimp.
  assert (HA1 := apart_prologue rd w HA). set (w1 := snd (prologue rd w)) in *. assert (S1 : w_st w1 = ACTIVE) by (unfold w1; rewrite pres_prologue by reflexivity; exact SA). clearbody w1.
  unfold dispatch in *. rewrite bind_get, S1 in *. destruct (fresh_active w1 HA1) as [_ F].
  apply F; [intros X; congruence|exact SR].
Qed.
Lemma reset_process rd w : reachable w -> timersNeeded cfg <= c_timers cfg -> w_st w = RESET ->
  let fire := negb (w_rreq w) && (tv 0 w =? 0) in let last := w_sec w - 1 =? 0 in exists b x,
  history (after w rd) = history w ++ OProcess :: (match x with Some m => [ORx m] | None => [] end) ++ (if fire && last then [OResetRequest] else []) ++ [ORet b] /\
  w_st (after w rd) = RESET /\ w_rreq (after w rd) = w_rreq w || (fire && last) /\ w_sec (after w rd) = (if fire then w_sec w - 1 else w_sec w) /\
  tv 0 (after w rd) = if fire && negb last then 1000 else tv 0 w.
Proof.
  intros HR HT SR. cbv zeta. assert (HA := reach_apart w VE HR HT). destruct (epilogue_history rd w) as (b & EQ). cbv zeta in EQ.
  exists b, (received rd w). assert (HH := history_prologue rd w). assert (HA1 := apart_prologue rd w HA). assert (T1 := tv_prologue 0 rd w HA ltac:(discriminate)).
  assert (S1 : w_st (snd (prologue rd w)) = RESET) by (rewrite pres_prologue by reflexivity; exact SR).
  assert (S2 : w_rreq (snd (prologue rd w)) = w_rreq w) by (apply pres_prologue; reflexivity).
  assert (S3 : w_sec (snd (prologue rd w)) = w_sec w) by (apply pres_prologue; reflexivity).
  assert (S4 : w_tSt (snd (prologue rd w)) = 0) by apply HA1.
  set (w1 := snd (prologue rd w)) in *. clearbody w1. rewrite EQ. clear EQ. rewrite <- S2, <- S3, <- T1. clear S2 S3 T1.
  assert (D : snd (dispatch w1) = snd (stateReset w1)) by (unfold dispatch; rewrite bind_get, S1; reflexivity). rewrite D. clear D.
  assert (G : exists l, w_out (snd (stateReset w1)) = l ++ w_out w1 /\ l = (if (negb (w_rreq w1) && (tv 0 w1 =? 0)) && (w_sec w1 - 1 =? 0) then [OResetRequest] else []) /\
    w_st (snd (stateReset w1)) = RESET /\ w_rreq (snd (stateReset w1)) = w_rreq w1 || ((negb (w_rreq w1) && (tv 0 w1 =? 0)) && (w_sec w1 - 1 =? 0)) /\
    w_sec (snd (stateReset w1)) = (if negb (w_rreq w1) && (tv 0 w1 =? 0) then w_sec w1 - 1 else w_sec w1) /\
    tv 0 (snd (stateReset w1)) = if (negb (w_rreq w1) && (tv 0 w1 =? 0)) && negb (w_sec w1 - 1 =? 0) then 1000 else tv 0 w1).
  { unfold stateReset, timer_running. rewrite !bind_get, S4. rewrite (timer_running_tv 0).
    replace (negb (0 <? tv 0 w1)) with (tv 0 w1 =? 0) by lia. destruct (w_rreq w1) eqn:RQ; cbn [negb andb orb].
    { exists []. repeat split; assumption. }
    destruct (tv 0 w1 =? 0) eqn:T0; cbn [andb orb].
    2:{ exists []. repeat split; assumption. }
    rewrite bind_upd, bind_get. wsimp. destruct (w_sec w1 - 1 =? 0) eqn:L; cbn [andb orb negb].
    - rewrite bind_emit. exists [OResetRequest]. repeat split; assumption.
    - exists []. repeat split; try assumption. unfold timer_start, upd. cbn [snd]. match goal with |- tv 0 (set_tm (timerStart _ _ _) ?v) = _ => assert (HV : apart v) by (apply (apart_same w1); try reflexivity; exact HA1); exact (tv_start 0 0 1000 v HV zero_in eq_refl) end. }
  destruct G as (l & G1 & G2 & G3 & G4 & G5 & G6). split.
  - unfold history in *. wsimp. rewrite G1. cbn [rev]. rewrite rev_app_distr, HH, <- !app_assoc. cbn [app]. rewrite G2. destruct ((negb _ && _) && _); reflexivity.
  - unfold tv in *. wsimp. repeat split; assumption.
Qed.
Definition progress t l w : Prop := apart w /\ w_st w = RESET /\
  let '(k, ms, over) := fold_left wait1 l (t, 0, false) in
  if over then w_rreq w = true /\ resetRequests l = 1%nat
  else w_rreq w = false /\ resetRequests l = 0%nat /\ w_sec w = k /\ tv 0 w = if k =? 0 then 0 else 1000 - ms.
Lemma requests_app l1 l2 : resetRequests (l1 ++ l2) = (resetRequests l1 + resetRequests l2)%nat.
Proof. unfold resetRequests. rewrite filter_app, app_length. reflexivity. Qed.
Lemma wait_calm l : Forall calm l -> (forall s, fold_left wait1 l s = s) /\ resetRequests l = 0%nat.
Proof.
  induction 1 as [|o l C _ [IH1 IH2]]; [split; reflexivity|]. split.
  - intros [[k ms] ov]. cbn [fold_left]. assert (X : wait1 (k, ms, ov) o = (k, ms, ov)) by (destruct ov, o; try reflexivity; destruct C). rewrite X. apply IH1.
  - destruct o; try exact IH2; destruct C.
Qed.
Lemma progress_step t l w e : reachable w -> timersNeeded cfg <= c_timers cfg -> event_wf e -> inService e -> progress t l w ->
  exists l', history (stepE e w) = history w ++ l' /\ progress t (l ++ l') (stepE e w).
Proof.
  intros HR HT HE IS (HA & SR & P). assert (HR' := reach_step w e HR HE). assert (HA' := reach_apart _ VE HR' HT). destruct e as [[rd|p|c|]|]; try (exfalso; exact IS); cbn [stepE] in *.
  - destruct (reset_process rd w HR HT SR) as (b & x & H1 & H2 & H3 & H4 & H5). fold (after w rd) in *. eexists. split; [exact H1|]. split; [exact HA'|]. split; [exact H2|].
    rewrite fold_left_app. set (rx := match x with Some m => [ORx m] | None => [] end) in *. assert (RX : Forall calm rx) by (destruct x; repeat constructor).
    destruct (fold_left wait1 l (t, 0, false)) as [[k ms] ov] eqn:FL. rewrite requests_app. cbn [fold_left]. destruct ov.
    + destruct P as [P1 P2]. rewrite P1 in *. cbn [negb andb orb] in *. cbn [wait1 app].
      destruct (wait_calm (rx ++ [ORet b])) as [W1 W2]; [apply Forall_app; split; [exact RX|repeat constructor]|]. rewrite W1. split; [exact H3|]. change (resetRequests (OProcess :: rx ++ [ORet b])) with (resetRequests (rx ++ [ORet b])). lia.
    + destruct P as (P1 & P2 & P3 & P4). rewrite P1, P3, P4 in *. cbn [negb andb orb] in *. cbn [wait1].
      assert (FC : ((if k =? 0 then 0 else 1000 - ms) =? 0) = ((k =? 0) || (1000 <=? ms))) by (destruct (k =? 0) eqn:K0; cbn [orb]; lia). rewrite FC in *.
      assert (LC : (k - 1 =? 0) = (k <=? 1)) by lia. rewrite LC in *.
      destruct ((k =? 0) || (1000 <=? ms)) eqn:F1; cbn [andb] in *.
      * destruct (k <=? 1) eqn:K1; cbn [negb] in *.
        -- assert (X : forall q s, snd s = true -> fold_left wait1 q s = s). { induction q as [|o q IH]; intros [[a c] ov] E1; [reflexivity|]. cbn [snd] in E1. subst ov. apply (IH (a, c, true)). reflexivity. }
           rewrite X by reflexivity. split; [exact H3|]. change (resetRequests (OProcess :: rx ++ [OResetRequest] ++ [ORet b])) with (resetRequests (rx ++ [OResetRequest] ++ [ORet b])). rewrite requests_app, (proj2 (wait_calm rx RX)). cbn. lia.
        -- destruct (wait_calm (rx ++ [] ++ [ORet b])) as [W1 W2]; [apply Forall_app; split; [exact RX|repeat constructor]|]. rewrite W1. split; [exact H3|]. change (resetRequests (OProcess :: rx ++ [] ++ [ORet b])) with (resetRequests (rx ++ [] ++ [ORet b])).
           split; [lia|]. split; [exact H4|]. rewrite H5. destruct (k - 1 =? 0) eqn:Z; lia.
      * destruct (wait_calm (rx ++ [] ++ [ORet b])) as [W1 W2]; [apply Forall_app; split; [exact RX|repeat constructor]|]. rewrite W1. split; [exact H3|]. change (resetRequests (OProcess :: rx ++ [] ++ [ORet b])) with (resetRequests (rx ++ [] ++ [ORet b])).
        split; [lia|]. split; [exact H4|exact H5].
  - exists [OTick p]. split; [reflexivity|]. split; [exact HA'|]. split; [exact SR|]. rewrite fold_left_app, requests_app. destruct (fold_left wait1 l (t, 0, false)) as [[k ms] ov] eqn:FL. cbn [fold_left]. destruct ov; cbn [wait1].
    + destruct P as [P1 P2]. split; [exact P1|]. cbn. lia.
    + destruct P as (P1 & P2 & P3 & P4). split; [exact P1|]. split; [cbn; lia|]. split; [exact P3|]. change (snd (step (OpTick p) w)) with (set_tm (timerProcess (w_tm w) p) (set_out (OTick p :: w_out w) w)).
      pose proof (tv_tick 0 p w HA zero_in VE) as TT. unfold tv in *. wsimp. wsimp_in TT. rewrite TT, P4. destruct (k =? 0); lia.
  - change (snd (step (OpApi c) w)) with (snd (doApi c w)) in *. destruct (RA_api c IS w) as (d & D1 & D2 & D3 & D4 & D5). exists (rev d). split; [unfold history; rewrite D1, rev_app_distr; reflexivity|].
    split; [exact HA'|]. split; [rewrite api_st; destruct c; try exact SR; contradiction|]. destruct (wait_calm (rev d)) as [W1 W2]; [apply Forall_rev, D2|]. rewrite fold_left_app, W1, requests_app, W2, Nat.add_0_r. unfold tv. rewrite D3, D4, D5. exact P.
Qed.
Lemma progress_run t es : forall l w, reachable w -> timersNeeded cfg <= c_timers cfg -> Forall event_wf es -> Forall inService es -> progress t l w ->
  exists l', history (run es w) = history w ++ l' /\ progress t (l ++ l') (run es w).
Proof.
  induction es as [|e es IH]; intros l w HR HT HE IS P; [exists []; rewrite !app_nil_r; auto|]. inversion HE; inversion IS; subst.
  destruct (progress_step t l w e) as (l1 & HS & P1); try assumption. destruct (IH (l ++ l1) (stepE e w)) as (l2 & HS' & P2); try assumption; [apply reach_step; assumption|].
  exists (l1 ++ l2). change (run (e :: es) w) with (run es (stepE e w)). rewrite HS', HS, <- app_assoc. rewrite <- app_assoc in P2. auto.
Qed.
End R.
