(* Traverse.v - a relation between the states before and after that holds for the leaf functions
   of the model holds for every function. *)
From Verif Require Export Spec_Node.

Definition rel {A T} (R : World A -> World A -> Prop) (m : M A T) : Prop := forall w, R w (snd (m w)).

(* effects that come from one place only are treated separately *)
Definition plainObs (o : Obs) : bool :=
  match o with OApi _ | OTx _ _ | OTxDrop _ | OPs _ _ | OTxErrors _ | OResetRequest | OPower | OAction _ _ _ | ORx _ | OTick _ | OInit | OLamp LampBlinkFast | OLamp LampOn | OHeartbeatCustom | OProcess | OAppWrite _ _ _ | OAppRestore => false | _ => true end.

Section Rel.
Context {A : Type} (R : World A -> World A -> Prop).
Hypothesis Rrefl : forall w, R w w.
Hypothesis Rtrans : forall a b c, R a b -> R b c -> R a c.
Lemma rel_ret {T} (r : T) : rel R (ret r). Proof. intros w. apply Rrefl. Qed.
Lemma rel_get {T} (g : World A -> T) : rel R (get g). Proof. intros w. apply Rrefl. Qed.
Lemma rel_upd g : (forall w, R w (g w)) -> rel R (upd g). Proof. intros H w. apply H. Qed.
Lemma rel_bind {T U} (m : M A T) (k : T -> M A U) : rel R m -> (forall r, rel R (k r)) -> rel R (bind m k).
Proof. intros H1 H2 w. unfold bind. eapply Rtrans; [apply H1|apply H2]. Qed.
Lemma rel_if {T} (b : bool) (m1 m2 : M A T) : rel R m1 -> rel R m2 -> rel R (if b then m1 else m2).
Proof. destruct b; auto. Qed.
Lemma rel_forM {X} (l : list X) (b : X -> M A unit) : (forall x, rel R (b x)) -> rel R (forM l b).
Proof. intros H. induction l; [apply rel_ret|]. cbn [forM]. apply rel_bind; auto. Qed.
End Rel.

(* the hypotheses Rrefl and Rtrans are found in the context *)
Ltac rel_step :=
  cbv beta zeta;
  lazymatch goal with
  | |- rel _ (bind _ _) => apply rel_bind; [assumption| |intros ?]
  | |- rel _ (ret _) => apply rel_ret; assumption
  | |- rel _ (get _) => apply rel_get; assumption
  | |- rel _ (upd _) => apply rel_upd; intros ?
  | |- rel _ (if _ then _ else _) => apply rel_if
  | |- rel _ (forM _ _) => apply rel_forM; [assumption|assumption|intros ?]
  | |- rel _ (match ?x with _ => _ end) => destruct x
  | |- forall _, _ => intros ?
  end.
Ltac rel_leaf := solve [auto].
Ltac rel_tac := repeat first [rel_leaf | rel_step].

Lemma ps_lowWrites c : (ps_ctrl c <> ps_nick c /\ ps_ctrl c < ps_dm c) /\ (ps_crc c <> ps_nick c /\ ps_crc c < ps_dm c) /\
  (forall i, i < 5 -> ps_user c + i <> ps_nick c /\ ps_user c + i < ps_dm c) /\ (c_boot c = true -> ps_boot <> ps_nick c /\ ps_boot < ps_dm c).
Proof.
  unfold ps_dm, ps_log, ps_type, ps_fam, ps_mdf, ps_msub, ps_mdev, ps_sub, ps_zone, ps_guid, ps_user, ps_ctrl, ps_crc, ps_nick, sz_nick, sz_crc, sz_ctrl, sz_user, sz_boot, b2n.
  repeat split; intros; try lia. destruct (c_boot c); [lia|discriminate].
Qed.
Section Traverse.
Context {A : Type} {E : Env A}.
Variable R : World A -> World A -> Prop.
Hypothesis Rrefl : forall w, R w w.
Hypothesis Rtrans : forall a b c, R a b -> R b c -> R a c.
Notation rel := (rel R).

Hypothesis Hub : rel setUB.
Hypothesis HubN : rel setNgUB.
Hypothesis Hemit : forall o, plainObs o = true -> rel (emit o).
Hypothesis Happ : forall v w, R w (set_app v w).

Local Hint Resolve Hub HubN Hemit Happ : core.

(* -- reading -- *)
Lemma tr_psRead8 a : rel (psRead8 a). Proof. unfold psRead8. rel_tac. Qed.
Lemma tr_psReadIdx a s i : rel (psReadIdx a s i). Proof. unfold psReadIdx, psRead8. rel_tac. Qed.
Local Hint Resolve tr_psRead8 tr_psReadIdx : core.
Lemma tr_readCtrl : rel ps_readCtrl. Proof. unfold ps_readCtrl. auto. Qed.
Lemma tr_readNick : rel ps_readNicknameId. Proof. unfold ps_readNicknameId. auto. Qed.
Lemma tr_readCRC : rel ps_readCRC. Proof. unfold ps_readCRC. auto. Qed.
Lemma tr_readUser i : rel (ps_readUserId i). Proof. unfold ps_readUserId. auto. Qed.
Lemma tr_readDM i : rel (ps_readDM i). Proof. unfold ps_readDM. auto. Qed.
Lemma tr_readNG i : rel (ps_readNG i). Proof. unfold ps_readNG. auto. Qed.
Lemma tr_readLog : rel ps_readLogId. Proof. unfold ps_readLogId. auto. Qed.
Lemma tr_getGUID i : rel (dd_getGUID i). Proof. unfold dd_getGUID, ps_readGUID. rel_tac. Qed.
Lemma tr_getZone : rel dd_getZone. Proof. unfold dd_getZone, ps_readZone. rel_tac. Qed.
Lemma tr_getSub : rel dd_getSubZone. Proof. unfold dd_getSubZone, ps_readSub. rel_tac. Qed.
Lemma tr_getMDev i : rel (dd_getMDev i). Proof. unfold dd_getMDev, ps_readMDev. rel_tac. Qed.
Lemma tr_getMSub i : rel (dd_getMSub i). Proof. unfold dd_getMSub, ps_readMSub. rel_tac. Qed.
Lemma tr_getMdf i : rel (dd_getMdf i). Proof. unfold dd_getMdf, ps_readMdf. rel_tac. Qed.
Lemma tr_getFam i : rel (dd_getFam i). Proof. unfold dd_getFam, ps_readFam. rel_tac. Qed.
Lemma tr_getType i : rel (dd_getType i). Proof. unfold dd_getType, ps_readType. rel_tac. Qed.
Lemma tr_rowEnabled i : rel (dm_rowEnabled i). Proof. unfold dm_rowEnabled, ps_readDM. rel_tac. Qed.
Lemma tr_readRow i : rel (dm_readRow i). Proof. unfold dm_readRow, ps_readDMRow, psReadMultiple. rel_tac. Qed.
Lemma tr_readExtRow i : rel (dm_readExtRow i). Proof. unfold dm_readExtRow, ps_readDMExtRow, psReadMultiple. rel_tac. Qed.
Lemma tr_startUp : rel getStartUpControl. Proof. unfold getStartUpControl, ps_readCtrl. rel_tac. Qed.
Lemma tr_wp : rel getRegAppWriteProtect. Proof. unfold getRegAppWriteProtect, ps_readCtrl. rel_tac. Qed.
Lemma tr_rxd i : rel (rxd i). Proof. unfold rxd. rel_tac. Qed.
Lemma tr_rxdv i : rel (rxdv i). Proof. unfold rxdv. rel_tac. Qed.
Lemma tr_push d v : rel (push d v). Proof. unfold push. rel_tac. Qed.
Lemma tr_running id : rel (timer_running id). Proof. unfold timer_running. rel_tac. Qed.
Lemma tr_rxSize : rel rxSize. Proof. unfold rxSize. rel_tac. Qed.
Lemma tr_rxForMe : rel rxForMe. Proof. unfold rxForMe. rel_tac. Qed.
Lemma tr_rxIsProt t : rel (rxIsProt t). Proof. unfold rxIsProt. rel_tac. Qed.
Local Hint Resolve tr_readCtrl tr_readNick tr_readCRC tr_readUser tr_readDM tr_readNG tr_readLog tr_getGUID tr_getZone tr_getSub tr_getMDev
  tr_getMSub tr_getMdf tr_getFam tr_getType tr_rowEnabled tr_readRow tr_readExtRow tr_startUp tr_wp tr_rxd tr_rxdv tr_push tr_running
  tr_rxSize tr_rxForMe tr_rxIsProt : core.

(* -- persistent memory writes -- *)
Section Ps.
Hypothesis HpsW : forall a v, a <> ps_nick cfg -> a < ps_dm cfg -> rel (psWrite8 a v).
Hypothesis HpsH : forall a v, a <> ps_nick cfg -> rel (psWrite8 a v).
Local Hint Resolve HpsW HpsH : core.
Ltac ps_low := unfold ps_next, ps_ng, ps_dmx, ps_dm, ps_log, ps_type, ps_fam, ps_mdf, ps_msub, ps_mdev,
  ps_sub, ps_zone, ps_guid, ps_user, ps_ctrl, ps_crc, sz_nick, sz_crc, sz_ctrl, sz_user; lia.
Local Hint Extern 1 (ps_nick cfg < _) => ps_low : core.
Local Hint Extern 1 (_ <> ps_nick cfg) => ps_low : core.
Local Hint Extern 1 (_ < ps_dm cfg) => ps_low : core.
Lemma tr_psWriteIdx a s i v : ps_nick cfg < a -> rel (psWriteIdx a s i v).
Proof. intros H. unfold psWriteIdx. apply rel_if; [apply HpsH; lia|apply rel_ret; exact Rrefl]. Qed.
Local Hint Resolve tr_psWriteIdx : core.
Lemma tr_psWriteMultiple l : forall a, ps_nick cfg < a -> rel (psWriteMultiple a l).
Proof.
  induction l as [|v l IH]; intros a H; cbn [psWriteMultiple]; [apply rel_ret; exact Rrefl|].
  apply rel_bind; [exact Rtrans|apply HpsH; lia|intros _; apply IH; lia].
Qed.
Local Hint Resolve tr_psWriteMultiple : core.
Lemma tr_dd_restore : rel dd_restore.
Proof. unfold dd_restore, ps_writeGUID, ps_writeMDev, ps_writeMSub, ps_writeMdf, ps_writeFam, ps_writeType, ps_writeZone, ps_writeSub. rel_tac. Qed.
Lemma tr_dm_restore : rel dm_restore.
Proof. unfold dm_restore, ps_writeDMMultiple, ps_writeDMExtMultiple. rel_tac. Qed.
Lemma tr_ng_restore : rel ng_restore.
Proof. unfold ng_restore, ps_writeNG. rel_tac. Qed.
Lemma tr_writeCtrl v : rel (ps_writeCtrl v). Proof using HpsW. destruct (ps_lowWrites cfg) as ((H1 & H2) & _). exact (HpsW _ v H1 H2). Qed.
Lemma tr_writeCRC v : rel (ps_writeCRC v). Proof using HpsW. destruct (ps_lowWrites cfg) as (_ & (H1 & H2) & _). exact (HpsW _ v H1 H2). Qed.
Lemma tr_writeUser i v : rel (ps_writeUserId i v). Proof using HpsW Rrefl. unfold ps_writeUserId, psWriteIdx, sz_user. destruct (N.ltb_spec i 5) as [L|L]; [|apply rel_ret; exact Rrefl]. destruct (ps_lowWrites cfg) as (_ & _ & H & _). destruct (H i L) as [H1 H2]. exact (HpsW _ v H1 H2). Qed.
Lemma tr_writeBoot v : c_boot cfg = true -> rel (ps_writeBootFlag v).
Proof using HpsW. intros B. destruct (ps_lowWrites cfg) as (_ & _ & _ & H). destruct (H B) as [H1 H2]. exact (HpsW _ v H1 H2). Qed.
Lemma tr_writeDM i v : rel (ps_writeDM i v). Proof. unfold ps_writeDM. auto. Qed.
Lemma tr_writeNG i v : rel (ps_writeNG i v). Proof. unfold ps_writeNG. auto. Qed.
Lemma tr_writeLog v : rel (ps_writeLogId v). Proof. unfold ps_writeLogId. auto. Qed.
Lemma tr_writeZone v : rel (ps_writeZone v). Proof. unfold ps_writeZone. auto. Qed.
Lemma tr_writeSub v : rel (ps_writeSub v). Proof. unfold ps_writeSub. auto. Qed.
Local Hint Resolve tr_dd_restore tr_dm_restore tr_ng_restore tr_writeCtrl tr_writeCRC tr_writeUser tr_writeBoot tr_writeDM tr_writeNG
  tr_writeLog tr_writeZone tr_writeSub : core.
Lemma tr_writeNicknameId v : (forall v, rel (psWrite8 (ps_nick cfg) v)) -> (forall v w, R w (set_nick v w)) -> rel (writeNicknameId v).
Proof. intros H0 H. unfold writeNicknameId, ps_writeNicknameId. rel_tac. Qed.
Lemma tr_restoreFactory :
  (forall v w, R w (set_alarm v w)) -> (forall v w, R w (set_page v w)) -> (forall v w, R w (set_xpage v w)) ->
  (forall v w, R w (set_xaddr v w)) -> (forall v w, R w (set_xcount v w)) -> (forall v w, R w (set_xseq v w)) ->
  (forall v, rel (writeNicknameId v)) -> rel (emit OAppRestore) -> rel restoreFactory.
Proof. intros H1 H2 H3 H4 H5 H6 H7 H8. unfold restoreFactory. rel_tac. Qed.

(* -- transmission, timers, state changes -- *)
Section Tx.
Hypothesis Htx : forall m, rel (tp_writeMessage m).
Local Hint Resolve Htx : core.
Lemma tr_sendProt t p d : rel (sendProt t p d). Proof. unfold sendProt. rel_tac. Qed.
Local Hint Resolve tr_sendProt : core.
Lemma tr_log_loop f : forall n i l e d, rel (log_loop f n i l e d).
Proof. induction f; intros; cbn [log_loop]; rel_tac. Qed.
Local Hint Resolve tr_log_loop : core.
Lemma tr_log_log i l d : rel (log_log i l d). Proof. unfold log_log, log_sendLogEvent. rel_tac. Qed.
Lemma tr_sendRWRsp a v : rel (sendRWRsp a v). Proof. unfold sendRWRsp. rel_tac. Qed.
Lemma tr_sendNodeHeartbeat : rel sendNodeHeartbeat. Proof. unfold sendNodeHeartbeat. rel_tac. Qed.
Local Hint Resolve tr_log_log tr_sendRWRsp tr_sendNodeHeartbeat : core.

Hypothesis Hts : forall id v, rel (timer_start id v).
Hypothesis Htp : forall id, rel (timer_stop id).
Local Hint Resolve Hts Htp : core.
Section StateChange.
Hypothesis Hst : forall v w, R w (set_st v w).
Hypothesis Hnick : forall v, rel (writeNicknameId v).
Local Hint Resolve Hst Hnick : core.
Lemma tr_toInit b : (forall v w, R w (set_ist v w)) -> (forall v w, R w (set_probe v w)) -> rel (emit (OLamp LampBlinkFast)) -> rel (changeToStateInit b).
Proof. intros H1 H2 H3. unfold changeToStateInit. rel_tac. Qed.
Lemma tr_toPreActive : rel changeToStatePreActive. Proof. unfold changeToStatePreActive. rel_tac. Qed.
Lemma tr_toActive : rel (emit (OLamp LampOn)) -> rel changeToStateActive. Proof. intros H. unfold changeToStateActive. rel_tac. Qed.
Lemma tr_toIdle : rel changeToStateIdle. Proof. unfold changeToStateIdle. rel_tac. Qed.
Lemma tr_toReset t : (forall v w, R w (set_sec v w)) -> rel (changeToStateReset t).
Proof. intros H. unfold changeToStateReset. rel_tac. Qed.
Lemma tr_toError : rel changeToStateError. Proof. unfold changeToStateError. rel_tac. Qed.
End StateChange.

Section Mid.
Hypothesis Hnick : forall v, rel (writeNicknameId v).
Hypothesis Hinit : forall b, rel (changeToStateInit b).
Hypothesis Hpre : rel changeToStatePreActive.
Hypothesis Hactive : rel changeToStateActive.
Hypothesis Hidle : rel changeToStateIdle.
Hypothesis Hreset : forall t, rel (changeToStateReset t).
Hypothesis Hrestore : rel restoreFactory.
Hypothesis Hpage : forall v w, R w (set_page v w).
Local Hint Resolve Hnick Hinit Hpre Hactive Hidle Hreset Hrestore Hpage : core.

Lemma tr_startInit : rel startNodeSegmentInit. Proof. unfold startNodeSegmentInit. rel_tac. Qed.
Local Hint Resolve tr_startInit : core.
Lemma tr_doApi c : rel (emit (OApi c)) ->
  (forall v, rel (setAlarm v)) -> (forall t, rel (setTimeSinceEpoch t)) -> (forall b, rel (enableHeartbeat b)) ->
  (forall b, rel (log_enable b)) -> (forall l, rel (log_setLevel l)) -> rel (n <- tp_getTransmitErrors ;; emit (OTxErrors n)) ->
  rel (doApi c).
Proof. intros H0 H1 H2 H3 H4 H5 H6. unfold doApi. destruct c; rel_tac. Qed.

(* registers *)
Lemma tr_dm_writeRegister p a v : (forall v w, R w (set_dmIdx v w)) -> rel (dm_writeRegister p a v).
Proof. intros H. unfold dm_writeRegister, dm_writePaged, dm_writeStd. rel_tac. Qed.
Lemma tr_writeVscpRegister a v : rel (writeVscpRegister a v).
Proof. unfold writeVscpRegister. rel_tac. Qed.
Lemma tr_handleHeartbeat : (forall v w, R w (set_epoch v w)) -> rel handleHeartbeat.
Proof. intros H. unfold handleHeartbeat. rel_tac. Qed.
Lemma tr_handleGuidDrop : (forall v w, R w (set_guidSt v w)) -> rel handleGuidDrop.
Proof. intros H. unfold handleGuidDrop. rel_tac. Qed.
Lemma tr_stateInit : (forall v w, R w (set_ist v w)) -> (forall v w, R w (set_probe v w)) -> rel stateInit.
Proof. intros H1 H2. unfold stateInit. rel_tac. Qed.
Lemma tr_stateReset : (forall v w, R w (set_sec v w)) -> (forall v w, R w (set_rreq v w)) -> rel (emit OResetRequest) -> rel stateReset.
Proof. intros H1 H2 H3. unfold stateReset. rel_tac. Qed.
Lemma tr_log_handleEvent m : (forall v w, R w (set_logEn v w)) -> (forall v w, R w (set_logLvl v w)) -> rel (log_handleEvent m).
Proof. intros H1 H2. unfold log_handleEvent. rel_tac. Qed.

(* -- the callouts and everything above -- *)
Section Top.
Hypothesis Hapi : forall c, rel (doApi c).
Hypothesis Hact : forall a p m, rel (emit (OAction a p m)).
Hypothesis Halarm : rel (v <- get w_alarm ;; upd (set_alarm 0) ;; ret v).
Hypothesis Hwv : forall a v, rel (writeVscpRegister a v).
Hypothesis Hcust : rel (emit OHeartbeatCustom).
Hypothesis Hhb : rel handleHeartbeat.
Hypothesis Hguid : rel handleGuidDrop.
Hypothesis HxpageS : forall v w, R w (set_xpage v w).
Hypothesis HxaddrS : forall v w, R w (set_xaddr v w).
Hypothesis HxcountS : forall v w, R w (set_xcount v w).
Hypothesis HxseqS : forall v w, R w (set_xseq v w).
Hypothesis Hwrt : forall p a v, rel (emit (OAppWrite p a v)).
Hypothesis HdmW : forall p a v, rel (dm_writeRegister p a v).
Hypothesis HngCnt : forall v w, R w (set_ngCnt v w).
Hypothesis HngIdx : forall v w, R w (set_ngIdx v w).
Hypothesis HngErr : forall v w, R w (set_ngErr v w).
Hypothesis HngRule : forall v w, R w (set_ngRule v w).
Hypothesis HngPos : forall v w, R w (set_ngPos v w).
Local Hint Resolve Hwrt Hcust Hapi Hact Halarm Hwv Hhb Hguid HxpageS HxaddrS HxcountS HxseqS HdmW HngCnt HngIdx HngErr HngRule HngPos : core.

Lemma tr_appRead p a : rel (appRead p a). Proof. unfold appRead. rel_tac. Qed.
Lemma tr_appWrite p a v : rel (appWrite p a v). Proof. unfold appWrite. rel_tac. Qed.
Lemma tr_actionExecute a p m : rel (actionExecute a p m). Proof. unfold actionExecute. rel_tac. Qed.
Lemma tr_provideEvent m : rel (provideEvent m). Proof. unfold provideEvent. rel_tac. Qed.
Lemma tr_provideProtocolEvent m : rel (provideProtocolEvent m). Proof. unfold provideProtocolEvent. rel_tac. Qed.
Lemma tr_customHeartbeat : rel customHeartbeat. Proof. unfold customHeartbeat. rel_tac. Qed.
Local Hint Resolve tr_appRead tr_appWrite tr_actionExecute tr_provideEvent tr_provideProtocolEvent tr_customHeartbeat : core.
Lemma tr_readVscpRegister a : rel (readVscpRegister a). Proof. unfold readVscpRegister. rel_tac. Qed.
Lemma tr_readVscpOther a : (a =? REG_ALARM) = false -> rel (readVscpRegister a). Proof. intros H. unfold readVscpRegister. rewrite H. rel_tac. Qed.
Lemma tr_dm_readRegister p a : rel (dm_readRegister p a). Proof. unfold dm_readRegister, dm_readPaged, dm_readStd. rel_tac. Qed.
Lemma tr_ng_readRegister p a : rel (ng_readRegister p a). Proof. unfold ng_readRegister. rel_tac. Qed.
Lemma tr_ng_writeRegister p a v : rel (ng_writeRegister p a v). Proof. unfold ng_writeRegister. rel_tac. Qed.
Local Hint Resolve tr_readVscpRegister tr_dm_readRegister tr_ng_readRegister tr_ng_writeRegister : core.
Lemma tr_readRegister p a : rel (readRegister p a). Proof. unfold readRegister. rel_tac. Qed.
Lemma tr_writeRegister p a v : rel (writeRegister p a v). Proof. unfold writeRegister. rel_tac. Qed.
Local Hint Resolve tr_readRegister tr_writeRegister : core.
Lemma tr_pageReadLoop n : forall k a d, rel (pageReadLoop n k a d). Proof. induction n; intros; cbn [pageReadLoop]; rel_tac. Qed.
Lemma tr_writeLoop n pg : rel pg -> forall a i d, rel (writeLoop n pg a i d). Proof. intros H. induction n; intros; cbn [writeLoop]; rel_tac. Qed.
Lemma tr_extReadLoop n : forall p a c d, rel (extReadLoop n p a c d). Proof. induction n; intros; cbn [extReadLoop]; rel_tac. Qed.
Lemma tr_whoLoop l : (forall x, In x l -> rel x) -> forall n r d, rel (whoLoop l n r d).
Proof. induction l as [|x l IH]; intros H n r d; cbn [whoLoop]; [rel_tac|]. assert (rel x) by (apply H; left; reflexivity).
  assert (forall n r d, rel (whoLoop l n r d)) by (apply IH; intros y Hy; apply H; right; exact Hy). rel_tac. Qed.
Local Hint Resolve tr_pageReadLoop tr_writeLoop tr_extReadLoop : core.
Lemma tr_extendedPageRead : rel extendedPageRead. Proof. unfold extendedPageRead. rel_tac. Qed.
Local Hint Resolve tr_extendedPageRead : core.
Lemma tr_handleNewNodeOnline : rel handleNewNodeOnline. Proof. unfold handleNewNodeOnline. rel_tac. Qed.
Lemma tr_handleProbeAck : rel handleProbeAck. Proof. unfold handleProbeAck. rel_tac. Qed.
Lemma tr_handleSetNickname : rel handleSetNickname. Proof. unfold handleSetNickname. rel_tac. Qed.
Lemma tr_handleDropNickname : rel handleDropNickname. Proof. unfold handleDropNickname. rel_tac. Qed.
Lemma tr_handleReadRegister : rel handleReadRegister. Proof. unfold handleReadRegister. rel_tac. Qed.
Lemma tr_handleWriteRegister : rel handleWriteRegister. Proof. unfold handleWriteRegister. rel_tac. Qed.
Lemma tr_handleEnterBootLoader : rel handleEnterBootLoader.
Proof. unfold handleEnterBootLoader. destruct (c_boot cfg) eqn:B; rel_tac. Qed.
Lemma tr_handlePageRead : rel handlePageRead. Proof. unfold handlePageRead. rel_tac. Qed.
Lemma tr_handlePageWrite : rel handlePageWrite.
Proof. unfold handlePageWrite. rel_tac. Qed.
Lemma tr_handleIncDec d : rel (handleIncDec d). Proof. unfold handleIncDec. rel_tac. Qed.
Lemma tr_handleWhoIsThere : rel handleWhoIsThere.
Proof. unfold handleWhoIsThere. rel_tac. apply tr_whoLoop. intros x H. apply in_app_or in H. destruct H as [H|H]; apply in_map_iff in H; destruct H as (y & <- & _); auto. Qed.
Lemma tr_handleGetMatrixInfo : rel handleGetMatrixInfo. Proof. unfold handleGetMatrixInfo. rel_tac. Qed.
Lemma tr_handleExtPageRead : rel handleExtPageRead. Proof. unfold handleExtPageRead. rel_tac. Qed.
Lemma tr_handleExtPageWrite : rel handleExtPageWrite.
Proof. unfold handleExtPageWrite. rel_tac. Qed.
Local Hint Resolve tr_handleNewNodeOnline tr_handleProbeAck tr_handleSetNickname tr_handleDropNickname tr_handleReadRegister tr_handleWriteRegister
  tr_handleEnterBootLoader tr_handlePageRead tr_handlePageWrite tr_handleIncDec tr_handleWhoIsThere tr_handleGetMatrixInfo tr_handleExtPageRead
  tr_handleExtPageWrite : core.
Lemma tr_handleProtocolClassType : rel handleProtocolClassType. Proof. unfold handleProtocolClassType. rel_tac. Qed.
Lemma tr_dm_executeActions m : rel (dm_executeActions actionExecute m). Proof. unfold dm_executeActions, dm_step. rel_tac. Qed.
Lemma tr_ng_copy n : forall i b, rel (ng_copy n i b). Proof. induction n; intros i [|x b]; cbn [ng_copy]; rel_tac. Qed.
Local Hint Resolve tr_ng_copy : core.
Lemma tr_ng_getNextRule b : rel (ng_getNextRule b). Proof. unfold ng_getNextRule. rel_tac. Qed.
Local Hint Resolve tr_ng_getNextRule : core.
Lemma tr_ng_rule m b : rel (ng_rule actionExecute m b).
Proof. unfold ng_rule, ng_decide, dbgIncRule, dbgIncPos, dbgSetError. rel_tac. Qed.
Local Hint Resolve tr_ng_rule : core.
Lemma tr_ng_rules m n : forall b, rel (ng_rules n actionExecute m b). Proof. induction n; intros b; cbn [ng_rules]; rel_tac. Qed.
Local Hint Resolve tr_ng_rules : core.
Lemma tr_ng_executeActions m : rel (ng_executeActions actionExecute m).
Proof. unfold ng_executeActions, ng_getFirstRule, dbgClrError. rel_tac. Qed.
Local Hint Resolve tr_handleProtocolClassType tr_dm_executeActions tr_ng_executeActions : core.
Lemma tr_activeMessage : rel activeMessage. Proof. unfold activeMessage. rel_tac. Qed.
Lemma tr_activeHeartbeat : rel activeHeartbeat. Proof. unfold activeHeartbeat. rel_tac. Qed.
Local Hint Resolve tr_activeMessage tr_activeHeartbeat : core.
Lemma tr_stateActive : rel stateActive. Proof. unfold stateActive. rel_tac. Qed.
Lemma tr_stateStartup : rel stateStartup. Proof. unfold stateStartup. rel_tac. Qed.
Lemma tr_statePreActive : rel statePreActive. Proof. unfold statePreActive. rel_tac. Qed.
Local Hint Resolve tr_stateActive tr_stateStartup tr_statePreActive : core.
Lemma tr_dispatch : rel stateInit -> rel stateReset ->
  rel (s <- get w_st ;;
  match s with
  | STARTUP => stateStartup ;; ret false
  | INIT => stateInit ;; ret false
  | PREACTIVE => statePreActive ;; ret false
  | ACTIVE => stateActive
  | IDLE => ret false
  | RESET => stateReset ;; ret false
  | ERROR => ret false
  end).
Proof. intros H6 H7. rel_tac. Qed.
Lemma tr_process rd : rel (emit OProcess) ->
  rel (tp_readMessage rd) -> (forall m, rel (upd (set_rx m) ;; upd (set_rxv true) ;; emit (ORx m))) -> (forall v w, R w (set_rxv v w)) ->
  (forall m, rel (log_handleEvent m)) -> (forall v w, R w (set_epoch v w)) -> rel stateInit -> rel stateReset -> rel (process rd).
Proof. intros H0 H1 H2 H3 H4 H5 H6 H7. unfold process. rel_tac. Qed.
End Top.
End Mid.
End Tx.
End Ps.
End Traverse.
