(* Senders.v - like Traverse.v, for relations that hold only for the kinds of frames the framework
   itself sends, or only for whole functions that send *)
From Verif Require Export Reach.

(* class, type and priority of every frame built by the framework *)
Definition stdFrame (cls ty prio : N) : bool :=
  (cls =? 0) && (((ty =? 2) && ((prio =? 0) || (prio =? 7))) || ((ty =? 3) && (prio =? 0)) || ((ty =? 7) && (prio =? 7)) ||
                 (((ty =? 10) || (ty =? 14) || (ty =? 26) || (ty =? 32) || (ty =? 34)) && (prio =? 3)) ||
                 ((ty =? 39) && ((prio =? 3) || (prio =? 7)))) ||
  (cls =? CLASS_INFORMATION) && (ty =? IT_NODE_HEARTBEAT) && (prio =? 3) ||
  (cls =? CLASS_LOG) && (ty =? LT_MESSAGE) && (prio =? 3).

#[local] Hint Resolve tr_readCtrl tr_readNick tr_readCRC tr_readUser tr_readDM tr_readNG tr_readLog tr_getGUID tr_getZone tr_getSub tr_getMDev
  tr_getMSub tr_getMdf tr_getFam tr_getType tr_rowEnabled tr_readRow tr_readExtRow tr_startUp tr_wp tr_rxd tr_rxdv tr_push tr_running
  tr_rxSize tr_rxForMe tr_rxIsProt tr_dd_restore tr_dm_restore tr_ng_restore tr_writeCtrl tr_writeCRC tr_writeUser tr_writeBoot tr_writeDM tr_writeNG
  tr_writeLog tr_writeZone tr_writeSub tr_psWriteMultiple tr_psWriteIdx tr_psRead8 tr_psReadIdx : core.

Section Send.
Context {A : Type} {E : Env A}.
Variable R : World A -> World A -> Prop.
Hypothesis Rrefl : forall w, R w w.
Hypothesis Rtrans : forall a b c, R a b -> R b c -> R a c.
Notation rel := (rel R).
Hypothesis Hub : rel setUB.
Hypothesis HubN : rel setNgUB.
Hypothesis Hemit : forall o, plainObs o = true -> rel (emit o).
Hypothesis Happ : forall v w, R w (set_app v w).
Hypothesis HpsW : forall a v, a <> ps_nick cfg -> a < ps_dm cfg -> rel (psWrite8 a v).

(* senders, if every standard frame may be sent *)
Section Std.
Hypothesis Hstd : forall cls ty prio nick d, stdFrame cls ty prio = true -> cls <> CLASS_INFORMATION -> rel (tp_writeMessage (mkTx cls ty prio nick d)).
Lemma ts_std0 ty prio nick d : stdFrame 0 ty prio = true -> rel (tp_writeMessage (mkTx 0 ty prio nick d)).
Proof. intros H. apply Hstd; [exact H|discriminate]. Qed.
Lemma ts_stdLog prio nick d : stdFrame CLASS_LOG LT_MESSAGE prio = true -> rel (tp_writeMessage (mkTx CLASS_LOG LT_MESSAGE prio nick d)).
Proof. intros H. apply Hstd; [exact H|discriminate]. Qed.
Hint Resolve ts_std0 ts_stdLog : core.
Lemma ts_sendProt ty prio d : stdFrame 0 ty prio = true -> rel (sendProt ty prio d).
Proof. intros H. unfold sendProt. rel_tac. Qed.
Lemma ts_log_loop f : forall n i l e d, rel (log_loop f n i l e d).
Proof. induction f; intros; cbn [log_loop]; rel_tac. Qed.
Lemma ts_log_log i l d : rel (log_log i l d).
Proof. pose proof ts_log_loop. unfold log_log, log_sendLogEvent. rel_tac. Qed.
Lemma ts_sendNodeHeartbeat : (forall nick d, rel (tp_writeMessage (mkTx CLASS_INFORMATION IT_NODE_HEARTBEAT PRIO_3_NORMAL nick d))) -> rel sendNodeHeartbeat.
Proof. intros H. unfold sendNodeHeartbeat. rel_tac. Qed.
Hypothesis Hread : forall p a, rel (readRegister p a).
Hypothesis Hwrite : forall p a v, rel (writeRegister p a v).
Hypothesis Hxpage : forall v w, R w (set_xpage v w).
Hypothesis Hxaddr : forall v w, R w (set_xaddr v w).
Hypothesis Hxcount : forall v w, R w (set_xcount v w).
Hypothesis Hxseq : forall v w, R w (set_xseq v w).
Lemma ts_pageReadLoop n : forall k a d, rel (pageReadLoop n k a d).
Proof. induction n; intros; cbn [pageReadLoop]; rel_tac. Qed.
Lemma ts_handlePageRead : rel handlePageRead.
Proof. pose proof ts_pageReadLoop. unfold handlePageRead. rel_tac. Qed.
Lemma ts_writeLoop n pg : rel pg -> forall a i d, rel (writeLoop n pg a i d).
Proof. intros H. induction n; intros; cbn [writeLoop]; rel_tac. Qed.
Lemma ts_handlePageWrite : rel handlePageWrite.
Proof. pose proof ts_writeLoop. unfold handlePageWrite. rel_tac. Qed.
Lemma ts_handleExtPageWrite : rel handleExtPageWrite.
Proof. pose proof ts_writeLoop. unfold handleExtPageWrite. rel_tac. Qed.
Lemma ts_extReadLoop n : forall p a c d, rel (extReadLoop n p a c d).
Proof. induction n; intros; cbn [extReadLoop]; rel_tac. Qed.
Lemma ts_extendedPageRead : rel extendedPageRead.
Proof. pose proof ts_extReadLoop. unfold extendedPageRead. rel_tac. Qed.
Lemma ts_whoLoop l : (forall x, In x l -> rel x) -> forall n r d, rel (whoLoop l n r d).
Proof. induction l as [|x l IH]; intros H n r d; cbn [whoLoop]; [rel_tac|]. assert (rel x) by (apply H; left; reflexivity).
  assert (forall n r d, rel (whoLoop l n r d)) by (apply IH; intros y Hy; apply H; right; exact Hy). rel_tac. Qed.
Lemma ts_handleWhoIsThere : rel handleWhoIsThere.
Proof. unfold handleWhoIsThere. rel_tac. apply ts_whoLoop. intros x H. apply in_app_or in H. destruct H as [H|H]; apply in_map_iff in H; destruct H as (y & <- & _); auto. Qed.
End Std.

(* all registers of the framework, given the restore register *)
Lemma ts_writeVscpRegister a v : (forall v w, R w (set_page v w)) -> (forall v, rel (writeVscpRegister REG_RESTORE v)) -> rel (writeVscpRegister a v).
Proof.
  intros H1 H2. destruct (N.eqb_spec a REG_RESTORE) as [->|NE]; [apply H2|]. unfold writeVscpRegister. apply N.eqb_neq in NE. rewrite NE. rel_tac.
Qed.
(* everything above the senders *)
Section Top.
Hypothesis Hsend : forall ty prio d, stdFrame 0 ty prio = true -> rel (sendProt ty prio d).
Hypothesis Hinit : forall b, rel (changeToStateInit b).
Hypothesis Hidle : rel changeToStateIdle.
Hypothesis Hreset : forall t, rel (changeToStateReset t).
Hypothesis Hrestore : rel restoreFactory.
Hypothesis Hapi : forall c, rel (doApi c).
Hypothesis Hact : forall a p m, rel (emit (OAction a p m)).
Hypothesis Halarm : rel (v <- get w_alarm ;; upd (set_alarm 0) ;; ret v).
Hypothesis Hwv : forall a v, rel (writeVscpRegister a v).
Hypothesis Hhb : rel handleHeartbeat.
Hypothesis Hguid : rel handleGuidDrop.
Hypothesis Hwr : forall p a v, rel (writeRegister p a v).
Hypothesis HngCnt : forall v w, R w (set_ngCnt v w).
Hypothesis HngIdx : forall v w, R w (set_ngIdx v w).
Hypothesis HngErr : forall v w, R w (set_ngErr v w).
Hypothesis HngRule : forall v w, R w (set_ngRule v w).
Hypothesis HngPos : forall v w, R w (set_ngPos v w).
Lemma ts_readRegister p a : rel (readRegister p a).
Proof. apply tr_readRegister; assumption. Qed.
Lemma ts_writeRegister p a v : rel (writeRegister p a v).
Proof. apply Hwr. Qed.
Hint Resolve ts_readRegister ts_writeRegister : core.

Hypothesis HpageRead : rel handlePageRead.
Hypothesis HpageWrite : rel handlePageWrite.
Hypothesis HextRead : rel handleExtPageRead.
Hypothesis Hext : rel extendedPageRead.
Hypothesis HextWrite : rel handleExtPageWrite.
Hypothesis Hwho : rel handleWhoIsThere.
Hypothesis Hnode : rel sendNodeHeartbeat.

Lemma ts_sendRWRsp a v : rel (sendRWRsp a v). Proof. unfold sendRWRsp. rel_tac. Qed.
Hint Resolve ts_sendRWRsp : core.
Lemma ts_handleNewNodeOnline : rel handleNewNodeOnline. Proof. unfold handleNewNodeOnline. rel_tac. Qed.
Lemma ts_handleProbeAck : rel handleProbeAck. Proof. unfold handleProbeAck. rel_tac. Qed.
Lemma ts_handleSetNickname : (forall v, rel (writeNicknameId v)) -> rel handleSetNickname. Proof. intros Hnick. unfold handleSetNickname. rel_tac. Qed.
Lemma ts_handleDropNickname : (forall v, rel (writeNicknameId v)) -> rel handleDropNickname. Proof. intros Hnick. unfold handleDropNickname. rel_tac. Qed.
Lemma ts_handleReadRegister : rel handleReadRegister. Proof. unfold handleReadRegister. rel_tac. Qed.
Lemma ts_handleWriteRegister : rel handleWriteRegister. Proof. unfold handleWriteRegister. rel_tac. Qed.
Lemma ts_handleEnterBootLoader : rel handleEnterBootLoader.
Proof. unfold handleEnterBootLoader. destruct (c_boot cfg) eqn:B; rel_tac; apply tr_writeBoot; auto. Qed.
Lemma ts_handleIncDec d : rel (handleIncDec d). Proof. unfold handleIncDec. rel_tac. Qed.
Lemma ts_handleGetMatrixInfo : rel handleGetMatrixInfo. Proof. unfold handleGetMatrixInfo. rel_tac. Qed.
Hint Resolve ts_handleNewNodeOnline ts_handleProbeAck ts_handleReadRegister ts_handleWriteRegister
  ts_handleEnterBootLoader ts_handleIncDec ts_handleGetMatrixInfo : core.
Hypothesis HsetN : rel handleSetNickname.
Hypothesis HdropN : rel handleDropNickname.
Lemma ts_handleProtocolClassType : rel handleProtocolClassType. Proof. unfold handleProtocolClassType. rel_tac. Qed.
Hint Resolve ts_handleProtocolClassType : core.
Lemma ts_dm m : rel (dm_executeActions actionExecute m).
Proof. apply tr_dm_executeActions; assumption. Qed.
Lemma ts_ng m : rel (ng_executeActions actionExecute m).
Proof. apply tr_ng_executeActions; assumption. Qed.
Hint Resolve ts_dm ts_ng : core.
Lemma ts_provideEvent m : rel (provideEvent m). Proof. unfold provideEvent. rel_tac. Qed.
Lemma ts_provideProtocolEvent m : rel (provideProtocolEvent m). Proof. unfold provideProtocolEvent. rel_tac. Qed.
Lemma ts_customHeartbeat : rel (emit OHeartbeatCustom) -> rel customHeartbeat. Proof. intros Hc. unfold customHeartbeat. rel_tac. Qed.
Hint Resolve ts_provideEvent ts_provideProtocolEvent : core.
Lemma ts_activeMessage : rel activeMessage. Proof. unfold activeMessage. rel_tac. Qed.
Lemma ts_activeHeartbeat : rel (emit OHeartbeatCustom) -> (forall id v, rel (timer_start id v)) -> rel activeHeartbeat. Proof. intros Hc Hts. pose proof (ts_customHeartbeat Hc). unfold activeHeartbeat. rel_tac. Qed.
Hypothesis Hah : rel activeHeartbeat.
Hint Resolve ts_activeMessage : core.
Lemma ts_stateActive : rel stateActive. Proof. unfold stateActive. rel_tac. Qed.
Hypothesis Hts : forall id v, rel (timer_start id v).
Hypothesis Htp : forall id, rel (timer_stop id).
Hypothesis Hactive : rel changeToStateActive.
Hypothesis Hpre : rel changeToStatePreActive.
Hypothesis Hist : forall v w, R w (set_ist v w).
Hypothesis Hprobe : forall v w, R w (set_probe v w).
Hypothesis Hnick : forall v, rel (writeNicknameId v).
Lemma ts_statePreActive : rel statePreActive. Proof. unfold statePreActive. rel_tac. Qed.
Lemma ts_stateInit : rel stateInit. Proof. unfold stateInit. rel_tac. Qed.
Lemma ts_stateStartup : rel stateStartup. Proof. unfold stateStartup. rel_tac. Qed.
Hint Resolve ts_stateActive ts_statePreActive ts_stateInit ts_stateStartup : core.
Lemma ts_dispatch : rel stateReset -> rel dispatch.
Proof. intros H. unfold dispatch. rel_tac. Qed.
End Top.
End Send.

(* establish R for an active node from the leaves; no tactic argument is called on functions *)
Ltac tr_active R leaf :=
  assert (t_ub : rel R setUB) by first [tr_exact | leaf];
  assert (t_ngub : rel R setNgUB) by first [tr_exact | leaf];
  assert (t_emit : forall o, plainObs o = true -> rel R (emit o)) by first [tr_exact | leaf];
  assert (t_app : forall v w, R w (set_app v w)) by first [tr_exact | leaf];
  assert (t_psW : forall a v, rel R (psWrite8 a v)) by first [tr_exact | solve [leaf] | unfold psWrite8; rel_tac; leaf];
  assert (t_tx : forall m, rel R (tp_writeMessage m)) by
    first [tr_exact | solve [leaf] | unfold tp_writeMessage, adapterWrite, loopWrite; rel_tac; try leaf; destruct (w_txe _ <? 255); leaf];
  assert (t_ts : forall i v, rel R (timer_start i v)) by first [tr_exact | solve [leaf]];
  assert (t_tp : forall i, rel R (timer_stop i)) by first [tr_exact | solve [leaf]];
  assert (t_nick : forall v, rel R (writeNicknameId v)) by first [tr_exact | intros; apply tr_writeNicknameId; tr_fill leaf];
  assert (t_init : forall b, rel R (changeToStateInit b)) by first [tr_exact | intros; apply tr_toInit; tr_fill leaf];
  assert (t_idle : rel R changeToStateIdle) by first [tr_exact | apply tr_toIdle; tr_fill leaf];
  assert (t_reset : forall t, rel R (changeToStateReset t)) by first [tr_exact | intros; apply tr_toReset; tr_fill leaf];
  assert (t_restore : rel R restoreFactory) by first [tr_exact | apply tr_restoreFactory; tr_fill leaf];
  assert (t_page : forall v w, R w (set_page v w)) by first [tr_exact | leaf];
  assert (t_alarm : rel R (v <- get w_alarm ;; upd (set_alarm 0) ;; ret v)) by first [tr_exact | rel_tac; leaf];
  assert (t_api : forall c, rel R (doApi c)) by
    first [tr_exact | intros; apply tr_doApi; tr_fill leaf;
      unfold setAlarm, setTimeSinceEpoch, enableHeartbeat, log_enable, log_setLevel, tp_getTransmitErrors; rel_tac; leaf];
  assert (t_wv : forall a v, rel R (writeVscpRegister a v)) by first [tr_exact | intros; apply tr_writeVscpRegister; tr_fill leaf];
  assert (t_dmw : forall p a v, rel R (dm_writeRegister p a v)) by first [tr_exact | intros; apply tr_dm_writeRegister; tr_fill leaf];
  assert (t_hb : rel R handleHeartbeat) by first [tr_exact | apply tr_handleHeartbeat; tr_fill leaf];
  assert (t_guid : rel R handleGuidDrop) by first [tr_exact | apply tr_handleGuidDrop; tr_fill leaf];
  assert (t_active : rel R stateActive) by first [tr_exact | apply tr_stateActive; tr_fill leaf].
(* the same, for relations that do not hold for every change of the nickname *)
Ltac tr_parts R leaf :=
  assert (t_ub : rel R setUB) by first [tr_exact | leaf];
  assert (t_ngub : rel R setNgUB) by first [tr_exact | leaf];
  assert (t_emit : forall o, plainObs o = true -> rel R (emit o)) by first [tr_exact | leaf];
  assert (t_app : forall v w, R w (set_app v w)) by first [tr_exact | leaf];
  assert (t_psW : forall a v, rel R (psWrite8 a v)) by first [tr_exact | solve [leaf] | unfold psWrite8; rel_tac; leaf];
  try (assert (t_tx : forall m, rel R (tp_writeMessage m)) by
    first [tr_exact | solve [leaf] | unfold tp_writeMessage, adapterWrite, loopWrite; rel_tac; try leaf; destruct (w_txe _ <? 255); leaf]);
  try (assert (t_ts : forall i v, rel R (timer_start i v)) by first [tr_exact | solve [leaf]]);
  try (assert (t_tp : forall i, rel R (timer_stop i)) by first [tr_exact | solve [leaf]]);
  try (assert (t_nick : forall v, rel R (writeNicknameId v)) by first [tr_exact | intros; apply tr_writeNicknameId; tr_fill leaf]);
  assert (t_init : forall b, rel R (changeToStateInit b)) by first [tr_exact | intros; apply tr_toInit; tr_fill leaf];
  assert (t_idle : rel R changeToStateIdle) by first [tr_exact | apply tr_toIdle; tr_fill leaf];
  assert (t_reset : forall t, rel R (changeToStateReset t)) by first [tr_exact | intros; apply tr_toReset; tr_fill leaf];
  assert (t_restore : rel R restoreFactory) by first [tr_exact | apply tr_restoreFactory; tr_fill leaf];
  assert (t_page : forall v w, R w (set_page v w)) by first [tr_exact | leaf];
  assert (t_alarm : rel R (v <- get w_alarm ;; upd (set_alarm 0) ;; ret v)) by first [tr_exact | rel_tac; leaf];
  assert (t_api : forall c, rel R (doApi c)) by
    first [tr_exact | intros; apply tr_doApi; tr_fill leaf;
      unfold setAlarm, setTimeSinceEpoch, enableHeartbeat, log_enable, log_setLevel, tp_getTransmitErrors; rel_tac; leaf];
  assert (t_wv : forall a v, rel R (writeVscpRegister a v)) by first [tr_exact | intros; apply tr_writeVscpRegister; tr_fill leaf];
  assert (t_dmw : forall p a v, rel R (dm_writeRegister p a v)) by first [tr_exact | intros; apply tr_dm_writeRegister; tr_fill leaf];
  assert (t_hb : rel R handleHeartbeat) by first [tr_exact | apply tr_handleHeartbeat; tr_fill leaf];
  assert (t_guid : rel R handleGuidDrop) by first [tr_exact | apply tr_handleGuidDrop; tr_fill leaf];
  assert (t_rr : forall p a, rel R (readRegister p a)) by first [tr_exact | intros; apply tr_readRegister; tr_fill leaf];
  assert (t_wr : forall p a v, rel R (writeRegister p a v)) by first [tr_exact | intros; apply tr_writeRegister; tr_fill leaf];
  assert (t_pr : rel R handlePageRead) by first [tr_exact | apply tr_handlePageRead; tr_fill leaf];
  assert (t_pw : rel R handlePageWrite) by first [tr_exact | apply tr_handlePageWrite; tr_fill leaf];
  assert (t_epr : rel R extendedPageRead) by first [tr_exact | apply tr_extendedPageRead; tr_fill leaf];
  assert (t_her : rel R handleExtPageRead) by first [tr_exact | apply tr_handleExtPageRead; tr_fill leaf];
  assert (t_hew : rel R handleExtPageWrite) by first [tr_exact | apply tr_handleExtPageWrite; tr_fill leaf];
  assert (t_who : rel R handleWhoIsThere) by first [tr_exact | apply tr_handleWhoIsThere; tr_fill leaf];
  assert (t_nhb : rel R sendNodeHeartbeat) by first [tr_exact | apply tr_sendNodeHeartbeat; tr_fill leaf];
  assert (t_sp : forall ty prio d, rel R (sendProt ty prio d)) by first [tr_exact | intros; apply tr_sendProt; tr_fill leaf].
Ltac tr_top R leaf :=
  assert (t_ah : rel R activeHeartbeat) by first [tr_exact | apply ts_activeHeartbeat; tr_fill leaf];
  assert (t_sn : rel R handleSetNickname) by first [tr_exact | apply ts_handleSetNickname; tr_fill leaf];
  assert (t_dn : rel R handleDropNickname) by first [tr_exact | apply ts_handleDropNickname; tr_fill leaf];
  assert (t_active : rel R stateActive) by first [tr_exact | apply ts_stateActive; tr_fill leaf].
Ltac tr_active2 R leaf := tr_parts R leaf; tr_top R leaf.
