(* Walk.v - a relation that holds for the state changes, the callouts and the primitive effects holds for every operation.
   Unlike Traverse.v, the callouts and the changes of the node's state are taken as a whole. *)
From Verif Require Export Traverse Reach.

(* effects that belong to callouts, API calls, state changes, power-up, initialisation and the passing of time *)
Definition walkObs (o : Obs) : bool :=
  match o with
  | OLamp _ | OAppRead _ _ | OAppWrite _ _ _ | OAction _ _ _ | OEvent _ | OProtEvent _ | OHeartbeatCustom | OAppRestore | OApi _
  | OPower | OInit | OTick _ | OPs _ _ | OTx _ _ | OTxDrop _ => false
  | _ => true
  end.
(* changes of variables other than the node's state, the application's, the persistent memory and the record of effects *)
Definition neutral {A} (f : World A -> World A) : Prop :=
  forall w, w_out (f w) = w_out w /\ w_app (f w) = w_app w /\ w_st (f w) = w_st w /\ w_ps (f w) = w_ps w /\ w_wr (f w) = w_wr w.
Section Walk.
Context {A : Type} {E : Env A}.
Variable R : World A -> World A -> Prop.
Hypothesis Rrefl : forall w, R w w.
Hypothesis Rtrans : forall a b c, R a b -> R b c -> R a c.
Notation rel := (rel R).
Hypothesis Hset : forall f, neutral f -> forall w, R w (f w).
Hypothesis Hemit : forall o, walkObs o = true -> rel (emit o).
Hypothesis Hps : forall a v, rel (psWrite8 a v).
Hypothesis Htx : forall m, rel (tp_writeMessage m).
Ltac neut := apply Hset; intros ?; repeat split; reflexivity.
Ltac wleaf := solve [auto | match goal with |- rel (emit _) => apply Hemit; reflexivity end | match goal with |- R ?w (?f ?w) => apply (Hset f); intros ?; repeat split; reflexivity end | match goal with |- R ?w ?t => let f := eval pattern w in t in match f with ?g _ => apply (Hset g); intros ?; repeat split; reflexivity end end].
Ltac wk := repeat first [wleaf | rel_step].
Lemma wk_ub : rel setUB. Proof. unfold setUB. wk. Qed.
Lemma wk_ngub : rel setNgUB. Proof. unfold setNgUB. wk. Qed.
Lemma wk_ts id v : rel (timer_start id v). Proof. unfold timer_start. wk. Qed.
Lemma wk_tp id : rel (timer_stop id). Proof. unfold timer_stop. wk. Qed.
Lemma wk_alarm : rel (v <- get w_alarm ;; upd (set_alarm 0) ;; ret v). Proof. wk. Qed.
Local Hint Resolve Hps Htx wk_ub wk_ngub wk_ts wk_tp wk_alarm : core.
(* -- reading -- *)
Lemma wk_psRead8 a : rel (psRead8 a). Proof. unfold psRead8. wk. Qed.
Lemma wk_psReadIdx a s i : rel (psReadIdx a s i). Proof. unfold psReadIdx, psRead8. wk. Qed.
Local Hint Resolve wk_psRead8 wk_psReadIdx : core.
Lemma wk_readCtrl : rel ps_readCtrl. Proof. unfold ps_readCtrl. auto. Qed.
Lemma wk_readNick : rel ps_readNicknameId. Proof. unfold ps_readNicknameId. auto. Qed.
Lemma wk_readCRC : rel ps_readCRC. Proof. unfold ps_readCRC. auto. Qed.
Lemma wk_readUser i : rel (ps_readUserId i). Proof. unfold ps_readUserId. auto. Qed.
Lemma wk_readDM i : rel (ps_readDM i). Proof. unfold ps_readDM. auto. Qed.
Lemma wk_readNG i : rel (ps_readNG i). Proof. unfold ps_readNG. auto. Qed.
Lemma wk_readLog : rel ps_readLogId. Proof. unfold ps_readLogId. auto. Qed.
Lemma wk_getGUID i : rel (dd_getGUID i). Proof. unfold dd_getGUID, ps_readGUID. wk. Qed.
Lemma wk_getZone : rel dd_getZone. Proof. unfold dd_getZone, ps_readZone. wk. Qed.
Lemma wk_getSub : rel dd_getSubZone. Proof. unfold dd_getSubZone, ps_readSub. wk. Qed.
Lemma wk_getMDev i : rel (dd_getMDev i). Proof. unfold dd_getMDev, ps_readMDev. wk. Qed.
Lemma wk_getMSub i : rel (dd_getMSub i). Proof. unfold dd_getMSub, ps_readMSub. wk. Qed.
Lemma wk_getMdf i : rel (dd_getMdf i). Proof. unfold dd_getMdf, ps_readMdf. wk. Qed.
Lemma wk_getFam i : rel (dd_getFam i). Proof. unfold dd_getFam, ps_readFam. wk. Qed.
Lemma wk_getType i : rel (dd_getType i). Proof. unfold dd_getType, ps_readType. wk. Qed.
Lemma wk_rowEnabled i : rel (dm_rowEnabled i). Proof. unfold dm_rowEnabled, ps_readDM. wk. Qed.
Lemma wk_readRow i : rel (dm_readRow i). Proof. unfold dm_readRow, ps_readDMRow, psReadMultiple. wk. Qed.
Lemma wk_readExtRow i : rel (dm_readExtRow i). Proof. unfold dm_readExtRow, ps_readDMExtRow, psReadMultiple. wk. Qed.
Lemma wk_startUp : rel getStartUpControl. Proof. unfold getStartUpControl, ps_readCtrl. wk. Qed.
Lemma wk_wp : rel getRegAppWriteProtect. Proof. unfold getRegAppWriteProtect, ps_readCtrl. wk. Qed.
Lemma wk_rxd i : rel (rxd i). Proof. unfold rxd. wk. Qed.
Lemma wk_rxdv i : rel (rxdv i). Proof. unfold rxdv. wk. Qed.
Lemma wk_push d v : rel (push d v). Proof. unfold push. wk. Qed.
Lemma wk_running id : rel (timer_running id). Proof. unfold timer_running. wk. Qed.
Lemma wk_rxSize : rel rxSize. Proof. unfold rxSize. wk. Qed.
Lemma wk_rxForMe : rel rxForMe. Proof. unfold rxForMe. wk. Qed.
Lemma wk_rxIsProt t : rel (rxIsProt t). Proof. unfold rxIsProt. wk. Qed.
Local Hint Resolve wk_readCtrl wk_readNick wk_readCRC wk_readUser wk_readDM wk_readNG wk_readLog wk_getGUID wk_getZone wk_getSub wk_getMDev
  wk_getMSub wk_getMdf wk_getFam wk_getType wk_rowEnabled wk_readRow wk_readExtRow wk_startUp wk_wp wk_rxd wk_rxdv wk_push wk_running
  wk_rxSize wk_rxForMe wk_rxIsProt : core.

Lemma wk_psWriteIdx a s i v : rel (psWriteIdx a s i v). Proof. unfold psWriteIdx. wk. Qed.
Lemma wk_psWriteMultiple l : forall a, rel (psWriteMultiple a l). Proof. induction l; intros; cbn [psWriteMultiple]; wk. Qed.
Local Hint Resolve wk_psWriteIdx wk_psWriteMultiple : core.
Lemma wk_dd_restore : rel dd_restore.
Proof. unfold dd_restore, ps_writeGUID, ps_writeMDev, ps_writeMSub, ps_writeMdf, ps_writeFam, ps_writeType, ps_writeZone, ps_writeSub. wk. Qed.
Lemma wk_dm_restore : rel dm_restore.
Proof. unfold dm_restore, ps_writeDMMultiple, ps_writeDMExtMultiple. wk. Qed.
Lemma wk_ng_restore : rel ng_restore. Proof. unfold ng_restore, ps_writeNG. wk. Qed.
Lemma wk_writeCtrl v : rel (ps_writeCtrl v). Proof. unfold ps_writeCtrl. auto. Qed.
Lemma wk_writeCRC v : rel (ps_writeCRC v). Proof. unfold ps_writeCRC. auto. Qed.
Lemma wk_writeUser i v : rel (ps_writeUserId i v). Proof. unfold ps_writeUserId. auto. Qed.
Lemma wk_writeBoot v : rel (ps_writeBootFlag v). Proof. unfold ps_writeBootFlag. auto. Qed.
Lemma wk_writeDM i v : rel (ps_writeDM i v). Proof. unfold ps_writeDM. auto. Qed.
Lemma wk_writeNG i v : rel (ps_writeNG i v). Proof. unfold ps_writeNG. auto. Qed.
Lemma wk_writeLog v : rel (ps_writeLogId v). Proof. unfold ps_writeLogId. auto. Qed.
Lemma wk_writeZone v : rel (ps_writeZone v). Proof. unfold ps_writeZone. auto. Qed.
Lemma wk_writeSub v : rel (ps_writeSub v). Proof. unfold ps_writeSub. auto. Qed.
Lemma wk_writeNicknameId v : rel (writeNicknameId v). Proof. unfold writeNicknameId, ps_writeNicknameId. wk. Qed.
Local Hint Resolve wk_dd_restore wk_dm_restore wk_ng_restore wk_writeCtrl wk_writeCRC wk_writeUser wk_writeBoot wk_writeDM wk_writeNG
  wk_writeLog wk_writeZone wk_writeSub wk_writeNicknameId : core.
Lemma wk_sendProt t p d : rel (sendProt t p d). Proof. unfold sendProt. wk. Qed.
Local Hint Resolve wk_sendProt : core.
Lemma wk_log_loop f : forall n i l e d, rel (log_loop f n i l e d).
Proof. induction f; intros; cbn [log_loop]; wk. Qed.
Local Hint Resolve wk_log_loop : core.
Lemma wk_log_log i l d : rel (log_log i l d). Proof. unfold log_log, log_sendLogEvent. wk. Qed.
Lemma wk_sendRWRsp a v : rel (sendRWRsp a v). Proof. unfold sendRWRsp. wk. Qed.
Lemma wk_sendNodeHeartbeat : rel sendNodeHeartbeat. Proof. unfold sendNodeHeartbeat. wk. Qed.
Local Hint Resolve wk_log_log wk_sendRWRsp wk_sendNodeHeartbeat : core.
Lemma wk_dm_writeRegister p a v : rel (dm_writeRegister p a v).
Proof. unfold dm_writeRegister, dm_writePaged, dm_writeStd. wk. Qed.
Local Hint Resolve wk_dm_writeRegister : core.

(* the factory restore writes the memory, then lets the application restore its settings *)
Section Restore.
Hypothesis Happrestore : rel (emit OAppRestore ;; upd (fun w => set_app (app_restore (w_app w)) w)).
Local Hint Resolve Happrestore : core.
Lemma wk_restoreFactory : rel restoreFactory. Proof. unfold restoreFactory. wk. Qed.
End Restore.

Hypothesis Hinit : forall b, rel (changeToStateInit b).
Hypothesis Hpre : forall w, w_st w = PREACTIVE -> R w (snd (statePreActive w)).
Hypothesis Hinitst : forall w, w_st w = INIT -> R w (snd (stateInit w)).
Hypothesis Hactive : rel changeToStateActive.
Hypothesis Hidle : rel changeToStateIdle.
Hypothesis Hreset : forall t, rel (changeToStateReset t).
Hypothesis Hrestore : rel restoreFactory.
Local Hint Resolve Hinit Hactive Hidle Hreset Hrestore : core.
Lemma wk_startInit : rel startNodeSegmentInit. Proof. unfold startNodeSegmentInit. wk. Qed.
Local Hint Resolve wk_startInit : core.
(* what an API call does after it is recorded *)
Definition apiBody (c : ApiCall) : M A unit :=
  match c with
  | ASend m => tp_writeMessage m ;; ret tt
  | AAlarm v => setAlarm (u8 v)
  | ASetTime t => setTimeSinceEpoch t
  | AHeartbeat b => when c_hb_node cfg do enableHeartbeat b
  | AStartInit => startNodeSegmentInit
  | ARestore => restoreFactory
  | ALogEnable b => when c_logger cfg do log_enable b
  | ALogLevel l => when c_logger cfg do log_setLevel l
  | ALog id lvl data => when c_logger cfg do log_log (u8 id) (u8 lvl) (map u8 (firstn 255 data))
  | AWriteLogId v => when c_logger cfg do ps_writeLogId v
  | AWriteZone v => when d_zone_ps cfg do ps_writeZone v
  | AWriteSubZone v => when d_sub_ps cfg do ps_writeSub v
  | AGetTxErrors => n <- tp_getTransmitErrors ;; emit (OTxErrors n)
  end.
Lemma doApi_body c : doApi c = (emit (OApi c) ;; apiBody c). Proof. destruct c; reflexivity. Qed.
Lemma wk_apiBody c : rel (apiBody c).
Proof. unfold apiBody, setAlarm, setTimeSinceEpoch, enableHeartbeat, log_enable, log_setLevel, tp_getTransmitErrors. destruct c; wk. Qed.
Lemma wk_writeVscpRegister a v : rel (writeVscpRegister a v). Proof. unfold writeVscpRegister. wk. Qed.
Lemma wk_handleHeartbeat : rel handleHeartbeat. Proof. unfold handleHeartbeat, setTimeSinceEpoch. wk. Qed.
Lemma wk_handleGuidDrop : rel handleGuidDrop. Proof. unfold handleGuidDrop. wk. Qed.
Lemma wk_stateReset : rel stateReset. Proof. unfold stateReset. wk. Qed.
Lemma wk_log_handleEvent m : rel (log_handleEvent m). Proof. unfold log_handleEvent. wk. Qed.
Local Hint Resolve wk_writeVscpRegister wk_handleHeartbeat wk_handleGuidDrop wk_stateReset wk_log_handleEvent : core.

(* the parts of the initialisation *)
Lemma wk_createTimer st : (forall v, neutral (st v)) -> rel (createTimer st).
Proof. intros H. assert (X : forall v w, R w (st v w)) by (intros v; apply Hset, H). unfold createTimer. wk. Qed.
Lemma wk_initTimers : rel initTimers.
Proof. assert (C := wk_createTimer). unfold initTimers. wk; try (apply C; intros v w; repeat split; reflexivity). Qed.
Lemma wk_initTail b : rel changeToStateError -> rel (initTail b).
Proof. intros. unfold initTail. wk. Qed.

Hypothesis HcR : forall p a, rel (appRead p a).
Hypothesis HcW : forall p a v, rel (appWrite p a v).
Hypothesis HcA : forall a p m, rel (actionExecute a p m).
Hypothesis HcE : forall m, rel (provideEvent m).
Hypothesis HcP : forall m, rel (provideProtocolEvent m).
Hypothesis HcH : rel customHeartbeat.
Local Hint Resolve HcR HcW HcA HcE HcP HcH : core.
Lemma wk_readVscpRegister a : rel (readVscpRegister a). Proof. unfold readVscpRegister. wk. Qed.
Lemma wk_dm_readRegister p a : rel (dm_readRegister p a). Proof. unfold dm_readRegister, dm_readPaged, dm_readStd. wk. Qed.
Lemma wk_ng_readRegister p a : rel (ng_readRegister p a). Proof. unfold ng_readRegister. wk. Qed.
Lemma wk_ng_writeRegister p a v : rel (ng_writeRegister p a v). Proof. unfold ng_writeRegister. wk. Qed.
Local Hint Resolve wk_readVscpRegister wk_dm_readRegister wk_ng_readRegister wk_ng_writeRegister : core.
Lemma wk_readRegister p a : rel (readRegister p a). Proof. unfold readRegister. wk. Qed.
Lemma wk_writeRegister p a v : rel (writeRegister p a v). Proof. unfold writeRegister. wk. Qed.
Local Hint Resolve wk_readRegister wk_writeRegister : core.
Lemma wk_pageReadLoop n : forall k a d, rel (pageReadLoop n k a d). Proof. induction n; intros; cbn [pageReadLoop]; wk. Qed.
Lemma wk_writeLoop n pg : rel pg -> forall a i d, rel (writeLoop n pg a i d). Proof. intros H. induction n; intros; cbn [writeLoop]; wk. Qed.
Lemma wk_extReadLoop n : forall p a c d, rel (extReadLoop n p a c d). Proof. induction n; intros; cbn [extReadLoop]; wk. Qed.
Lemma wk_whoLoop l : (forall x, In x l -> rel x) -> forall n r d, rel (whoLoop l n r d).
Proof. induction l as [|x l IH]; intros H n r d; cbn [whoLoop]; [wk|]. assert (rel x) by (apply H; left; reflexivity).
  assert (forall n r d, rel (whoLoop l n r d)) by (apply IH; intros y Hy; apply H; right; exact Hy). wk. Qed.
Local Hint Resolve wk_pageReadLoop wk_writeLoop wk_extReadLoop : core.
Lemma wk_extendedPageRead : rel extendedPageRead. Proof. unfold extendedPageRead. wk. Qed.
Local Hint Resolve wk_extendedPageRead : core.
Lemma wk_handleNewNodeOnline : rel handleNewNodeOnline. Proof. unfold handleNewNodeOnline. wk. Qed.
Lemma wk_handleProbeAck : rel handleProbeAck. Proof. unfold handleProbeAck. wk. Qed.
Lemma wk_handleSetNickname : rel handleSetNickname. Proof. unfold handleSetNickname. wk. Qed.
Lemma wk_handleDropNickname : rel handleDropNickname. Proof. unfold handleDropNickname. wk. Qed.
Lemma wk_handleReadRegister : rel handleReadRegister. Proof. unfold handleReadRegister. wk. Qed.
Lemma wk_handleWriteRegister : rel handleWriteRegister. Proof. unfold handleWriteRegister. wk. Qed.
Lemma wk_handleEnterBootLoader : rel handleEnterBootLoader.
Proof. unfold handleEnterBootLoader. destruct (c_boot cfg) eqn:B; wk. Qed.
Lemma wk_handlePageRead : rel handlePageRead. Proof. unfold handlePageRead. wk. Qed.
Lemma wk_handlePageWrite : rel handlePageWrite.
Proof. unfold handlePageWrite. wk. Qed.
Lemma wk_handleIncDec d : rel (handleIncDec d). Proof. unfold handleIncDec. wk. Qed.
Lemma wk_handleWhoIsThere : rel handleWhoIsThere.
Proof. unfold handleWhoIsThere. wk. apply wk_whoLoop. intros x H. apply in_app_or in H. destruct H as [H|H]; apply in_map_iff in H; destruct H as (y & <- & _); auto. Qed.
Lemma wk_handleGetMatrixInfo : rel handleGetMatrixInfo. Proof. unfold handleGetMatrixInfo. wk. Qed.
Lemma wk_handleExtPageRead : rel handleExtPageRead. Proof. unfold handleExtPageRead. wk. Qed.
Lemma wk_handleExtPageWrite : rel handleExtPageWrite.
Proof. unfold handleExtPageWrite. wk. Qed.
Local Hint Resolve wk_handleNewNodeOnline wk_handleProbeAck wk_handleSetNickname wk_handleDropNickname wk_handleReadRegister wk_handleWriteRegister
  wk_handleEnterBootLoader wk_handlePageRead wk_handlePageWrite wk_handleIncDec wk_handleWhoIsThere wk_handleGetMatrixInfo wk_handleExtPageRead
  wk_handleExtPageWrite : core.
Lemma wk_handleProtocolClassType : rel handleProtocolClassType. Proof. unfold handleProtocolClassType. wk. Qed.
Lemma wk_dm_executeActions m : rel (dm_executeActions actionExecute m). Proof. unfold dm_executeActions, dm_step. wk. Qed.
Lemma wk_ng_copy n : forall i b, rel (ng_copy n i b). Proof. induction n; intros i [|x b]; cbn [ng_copy]; wk. Qed.
Local Hint Resolve wk_ng_copy : core.
Lemma wk_ng_getNextRule b : rel (ng_getNextRule b). Proof. unfold ng_getNextRule. wk. Qed.
Local Hint Resolve wk_ng_getNextRule : core.
Lemma wk_ng_rule m b : rel (ng_rule actionExecute m b).
Proof. unfold ng_rule, ng_decide, dbgIncRule, dbgIncPos, dbgSetError. wk. Qed.
Local Hint Resolve wk_ng_rule : core.
Lemma wk_ng_rules m n : forall b, rel (ng_rules n actionExecute m b). Proof. induction n; intros b; cbn [ng_rules]; wk. Qed.
Local Hint Resolve wk_ng_rules : core.
Lemma wk_ng_executeActions m : rel (ng_executeActions actionExecute m).
Proof. unfold ng_executeActions, ng_getFirstRule, dbgClrError. wk. Qed.
Local Hint Resolve wk_handleProtocolClassType wk_dm_executeActions wk_ng_executeActions : core.
Lemma wk_activeMessage : rel activeMessage. Proof. unfold activeMessage. wk. Qed.
Lemma wk_activeHeartbeat : rel activeHeartbeat. Proof. unfold activeHeartbeat. wk. Qed.
Local Hint Resolve wk_activeMessage wk_activeHeartbeat : core.
Lemma wk_stateActive : rel stateActive. Proof. unfold stateActive. wk. Qed.
Lemma wk_stateStartup : rel stateStartup. Proof. unfold stateStartup. wk. Qed.
Local Hint Resolve wk_stateActive wk_stateStartup : core.
Lemma wk_dispatch : rel dispatch.
Proof.
  intros w. unfold dispatch. rewrite bind_get. destruct (w_st w) eqn:S; try apply Rrefl.
  - apply (wk_stateStartup w).
  - change (R w (snd (stateInit w))). apply Hinitst, S.
  - change (R w (snd (statePreActive w))). apply Hpre, S.
  - apply (wk_stateActive w).
  - apply (wk_stateReset w).
Qed.
Local Hint Resolve wk_dispatch : core.
Lemma wk_loopWrite m : rel (loopWrite m). Proof. unfold loopWrite. wk. Qed.
Local Hint Resolve wk_loopWrite : core.
Lemma walk_process rd : rel (process rd).
Proof. intros w. rewrite process_eq. revert w. match goal with |- forall w, R w (snd (?m w)) => change (rel m) end.
  unfold prologue, tp_readMessage, takeMessage, runLogger, runEpoch, epilogue, timer_running. wk. Qed.
End Walk.
