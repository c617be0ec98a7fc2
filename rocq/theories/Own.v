(* Own.v - traversal of a process call for relations that tell the frames of the framework from those of the application.
   Expects in the context: Rrefl, Rtrans, s_std (frames of the framework except node heartbeats), s_api, s_ah (rel R activeHeartbeat) *)
From Verif Require Export Proof_Timers.

Ltac tr_ownG R leaf rt :=
  try (assert (o_psW : forall a v, rel R (psWrite8 a v)) by first [tr_exact | intros; unfold psWrite8; rel_tac; leaf]);
  assert (o_ub : rel R setUB) by leaf; assert (o_ngub : rel R setNgUB) by leaf; assert (o_app : forall v w, R w (set_app v w)) by leaf;
  assert (o_emit : forall o, plainObs o = true -> rel R (emit o)) by leaf;
  try (assert (o_ts : forall i v, rel R (timer_start i v)) by first [tr_exact | leaf]);
  try (assert (o_tp : forall i, rel R (timer_stop i)) by first [tr_exact | leaf]);
  assert (o_nick : forall v, rel R (writeNicknameId v)) by first [tr_exact | intros; apply tr_writeNicknameId; tr_fill leaf];
  assert (o_init : forall b, rel R (changeToStateInit b)) by first [tr_exact | intros; unfold changeToStateInit; rel_tac; leaf];
  assert (o_pre : rel R changeToStatePreActive) by first [tr_exact | unfold changeToStatePreActive; rel_tac; leaf];
  assert (o_idle : rel R changeToStateIdle) by first [tr_exact | unfold changeToStateIdle; rel_tac; leaf];
  assert (o_restore : rel R restoreFactory) by first [tr_exact | apply tr_restoreFactory; tr_fill leaf];
  assert (o_reset : forall t, rel R (changeToStateReset t)) by first [tr_exact | intros; unfold changeToStateReset; rt; leaf];
  assert (o_sp : forall ty prio d, stdFrame CLASS_PROTOCOL ty prio = true -> rel R (sendProt ty prio d)) by first [tr_exact |
    intros; unfold sendProt; apply rel_bind; [assumption|apply rel_get; assumption|intros ?]; match goal with H : forall cls ty prio nick d, stdFrame _ _ _ = true -> _ |- _ => apply H; [assumption|discriminate] end];
  assert (o_act : rel R changeToStateActive) by first [tr_exact | unfold changeToStateActive; rt; leaf];
  assert (o_162 : forall v, rel R (writeVscpRegister REG_RESTORE v)) by first [tr_exact |
    let v := fresh in intros v; unfold writeVscpRegister;
    match goal with |- rel R ?x => change (rel R (id <- get w_t162 ;; running <- timer_running id ;;
      (if (v =? 85) && negb running then timer_start id (c_t_multi cfg) else when (v =? 170) && running do (timer_stop id ;; restoreFactory)) ;; ret (0, false))) end;
    unfold timer_running; rt; leaf];
  assert (o_page : forall v w, R w (set_page v w)) by leaf;
  assert (o_wv : forall a v, rel R (writeVscpRegister a v)) by first [tr_exact | let a := fresh in let v := fresh in intros a v; apply ts_writeVscpRegister; tr_fill leaf];
  assert (o_GU : forall i, rel R (dd_getGUID i)) by (intros; apply tr_getGUID; tr_fill leaf);
  assert (o_guid : rel R handleGuidDrop) by first [tr_exact | unfold handleGuidDrop, rxSize, rxd, timer_running, startNodeSegmentInit; rt; leaf];
  try (assert (o_dmw : forall p a v, rel R (dm_writeRegister p a v)) by first [tr_exact | intros; apply tr_dm_writeRegister; tr_fill leaf]);
  try (assert (o_hb : rel R handleHeartbeat) by first [tr_exact | apply tr_handleHeartbeat; tr_fill leaf]);
  try (assert (o_al : rel R (v <- get w_alarm ;; upd (set_alarm 0) ;; ret v)) by first [tr_exact | rel_tac; leaf]);
  try (assert (o_rr : forall p a, rel R (readRegister p a)) by first [tr_exact | intros; apply tr_readRegister; tr_fill leaf]);
  assert (o_wr : forall p a v, rel R (writeRegister p a v)) by first [tr_exact | intros; apply tr_writeRegister; tr_fill leaf];
  assert (o_pr : rel R handlePageRead) by first [tr_exact | apply ts_handlePageRead; tr_fill leaf];
  assert (o_pw : rel R handlePageWrite) by first [tr_exact | apply ts_handlePageWrite; tr_fill leaf];
  assert (o_epr : rel R extendedPageRead) by first [tr_exact | apply ts_extendedPageRead; tr_fill leaf];
  assert (o_her : rel R handleExtPageRead) by first [tr_exact | unfold handleExtPageRead; rel_tac; leaf];
  assert (o_hew : rel R handleExtPageWrite) by first [tr_exact | apply ts_handleExtPageWrite; tr_fill leaf];
  assert (o_who : rel R handleWhoIsThere) by first [tr_exact | apply ts_handleWhoIsThere; tr_fill leaf];
  assert (o_sn : rel R handleSetNickname) by first [tr_exact | apply ts_handleSetNickname; tr_fill leaf];
  assert (o_dn : rel R handleDropNickname) by first [tr_exact | apply ts_handleDropNickname; tr_fill leaf].
Ltac tr_own R leaf := tr_ownG R leaf ltac:(rel_tac).
Ltac tr_ownTopG R leaf rt :=
  assert (o_am : rel R activeMessage) by first [tr_exact | apply ts_activeMessage; tr_fill leaf];
  assert (o_active : rel R stateActive) by first [tr_exact | unfold stateActive; rel_tac];
  assert (o_sinit : rel R stateInit) by first [tr_exact | unfold stateInit, timer_running, rxIsProt; rt; leaf];
  assert (o_spre : rel R statePreActive) by first [tr_exact | unfold statePreActive, timer_running, rxIsProt, rxd; rt; leaf];
  assert (o_su : rel R stateStartup) by first [tr_exact | (assert (o_cu : rel R getStartUpControl) by (apply tr_startUp; tr_fill leaf)); unfold stateStartup; rel_tac; leaf];
  assert (o_sr : rel R stateReset) by first [tr_exact | unfold stateReset, timer_running; rt; leaf];
  assert (o_disp : rel R dispatch) by first [tr_exact | unfold dispatch; rel_tac].
Ltac tr_ownTop R leaf := tr_ownTopG R leaf ltac:(rel_tac).
(* timers by name: s_st, s_g, s_1, s_h reduce bind (get w_tSt) etc. to a number *)
Ltac tmq s_st s_g s_1 s_h := repeat first [rel_leaf | apply s_st | apply s_g | apply s_1 | apply s_h | rel_step].
Ltac tr_ownProcess R leaf :=
  assert (o_prol : forall rd, rel R (prologue rd)) by first [tr_exact |
    intros; unfold prologue, tp_readMessage, takeMessage, runLogger, runEpoch, log_handleEvent, timer_running, loopWrite, ps_readLogId, psRead8; rel_tac; leaf];
  assert (o_process : forall rd, rel R (process rd)) by
    (let rd := fresh in let w := fresh in intros rd w; rewrite process_eq; revert w; match goal with |- forall w, R w (snd (?m w)) => change (rel R m) end; unfold epilogue; rel_tac; leaf);
  try (assert (o_coreInit : rel R core_init) by first [tr_exact | apply tr_core_init; tr_fill leaf; unfold tp_init, dm_init, ps_readNicknameId, psRead8, changeToStateError; rel_tac; leaf]).
