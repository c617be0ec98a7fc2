(* Proof_Guid.v - the GUID drop nickname sequence of a node *)
From Verif Require Export Proof_GuidSeq Proof_Epoch Proof_TimersInit Proof_Drop.

Section B.
Context {A : Type} {E : Env A}.
Implicit Types w : World A.
Hypothesis VE : valid_env E.

(* ---- nothing else touches the state of the sequence ---- *)
Definition QG w w' : Prop := w_rx w' = w_rx w /\ w_guidSt w' = w_guidSt w /\ tv 1 w' = tv 1 w.
Definition RG := RT QG.
Lemma RG_parts : (forall w, m_type (w_rx w) <> 23 -> RG w (snd (handleProtocolClassType w))) /\ (forall c, rel RG (@doApi A E c)) /\
  rel RG (@activeHeartbeat A E) /\ rel RG (@extendedPageRead A E) /\ rel RG (@stateInit A E) /\ rel RG (@statePreActive A E) /\ rel RG (@stateReset A) /\
  rel RG (@getStartUpControl A E) /\ (forall b, rel RG (@changeToStateInit A E b)) /\ rel RG (@changeToStateActive A E) /\
  (forall m, rel RG (@provideEvent A E m)) /\ (forall m, rel RG (@provideProtocolEvent A E m)) /\ (forall m, rel RG (dm_executeActions actionExecute m)) /\ (forall m, rel RG (ng_executeActions actionExecute m)) /\
  rel RG (initTail true) /\ (forall t, rel RG (@changeToStateReset A t)) /\ (forall v, rel RG (@writeNicknameId A E v)).
Proof.
  set (R := RG). assert (Rrefl : forall w, R w w) by (apply RT_refl; repeat split). assert (Rtrans : forall a b c, R a b -> R b c -> R a c) by (apply RT_trans; intros a b c _ _ _ (H1 & H2 & H3) (K1 & K2 & K3); repeat split; congruence).
  assert (S : forall w w', w_tSt w' = w_tSt w -> w_tGuid w' = w_tGuid w -> w_t162 w' = w_t162 w -> w_tEp w' = w_tEp w -> w_tHb w' = w_tHb w -> w_tm w' = w_tm w ->
    w_rx w' = w_rx w -> w_guidSt w' = w_guidSt w -> R w w').
  { intros w w' H1 H2 H3 H4 H5 H6 H7 H8. apply RT_same; try assumption. repeat split; try assumption. unfold tv. rewrite H6. reflexivity. }
  assert (s_tx : forall m, rel R (tp_writeMessage m)).
  { intros m w HA. destruct (tx_any m w) as (o & O & HO & K). split; [apply (keeps_apart w _ K HA)|]. destruct K as (K1 & K2 & K3 & _). split; [exact K3|]. unfold visible in K1. split; [congruence|]. unfold tv. rewrite K2. reflexivity. }
  assert (H_t : forall i v, i <> 1 -> rel R (@timer_start A i v)).
  { intros i v N4 w HA. unfold timer_start, upd. cbn [snd]. split; [apply apart_ts, HA|]. split; [reflexivity|]. split; [reflexivity|]. unfold timerStart. rewrite tv_set. destruct (Nat.eqb_spec 1 (N.to_nat i)); [lia|reflexivity]. }
  assert (H_p : forall i, i <> 1 -> rel R (@timer_stop A i)).
  { intros i N4 w HA. unfold timer_stop, upd. cbn [snd]. split; [apply apart_tp, HA|]. split; [reflexivity|]. split; [reflexivity|]. unfold timerStop. rewrite tv_set. destruct (Nat.eqb_spec 1 (N.to_nat i)); [lia|reflexivity]. }
  assert (s_st : forall T (k : N -> M A T), rel R (k 0) -> rel R (bind (get w_tSt) k)) by (intros; apply RT_st; assumption).
  assert (s_1 : forall T (k : N -> M A T), rel R (k 2) -> rel R (bind (get w_t162) k)) by (intros; apply RT_162; assumption).
  assert (s_h : c_hb_node cfg = true -> forall T (k : N -> M A T), rel R (k 4) -> rel R (bind (get w_tHb) k)) by (intros; apply RT_hb; assumption).
  clearbody R.
  Ltac lg S H_t H_p := intros; try (unfold setUB, setNgUB, emit); first [apply H_t; discriminate | apply H_p; discriminate | apply rel_upd; intros; apply S; reflexivity | apply S; reflexivity].
  assert (X_e : forall o, rel R (@emit A o)) by (lg S H_t H_p).
  assert (s_std : forall cls ty prio nick d, stdFrame cls ty prio = true -> cls <> CLASS_INFORMATION -> rel R (tp_writeMessage (mkTx cls ty prio nick d))) by (intros; apply s_tx).
  assert (s_psW : forall a v, rel R (psWrite8 a v)) by (intros; unfold psWrite8; rel_tac; lg S H_t H_p).
  assert (s_nick : forall v, rel R (writeNicknameId v)) by (intros; apply tr_writeNicknameId; tr_fill ltac:(lg S H_t H_p)).
  assert (s_ub : rel R setUB) by (lg S H_t H_p). assert (s_ngub : rel R setNgUB) by (lg S H_t H_p). assert (s_app : forall v w, R w (set_app v w)) by (lg S H_t H_p).
  assert (s_restore : rel R restoreFactory) by (apply tr_restoreFactory; tr_fill ltac:(lg S H_t H_p)).
  assert (s_api : forall c, rel R (doApi c)).
  { intros c. destruct c; unfold doApi; (apply rel_bind; [exact Rtrans|apply X_e|intros _]).
    all: unfold setAlarm, setTimeSinceEpoch, enableHeartbeat, log_enable, log_setLevel, ps_writeLogId, ps_writeZone, ps_writeSub, tp_getTransmitErrors, startNodeSegmentInit, changeToStateInit.
    all: try (rel_tac; lg S H_t H_p).
    apply rel_if; [|apply rel_ret; exact Rrefl]. apply ts_log_log; tr_fill ltac:(lg S H_t H_p). }
  assert (s_nhb : rel R sendNodeHeartbeat) by (apply tr_sendNodeHeartbeat; tr_fill ltac:(lg S H_t H_p)).
  assert (s_chb : rel R customHeartbeat) by (unfold customHeartbeat; rel_tac; lg S H_t H_p).
  assert (s_ah : rel R activeHeartbeat).
  { unfold activeHeartbeat, timer_running. destruct (c_hb_node cfg); [|apply rel_ret; exact Rrefl]. pose proof (s_h eq_refl) as s_hh. tmq s_st s_1 s_1 s_hh; lg S H_t H_p. }
  assert (s_act : rel R changeToStateActive).
  { unfold changeToStateActive. unfold sendProt. destruct (c_hb_node cfg).
    - pose proof (s_h eq_refl) as s_hh. tmq s_st s_1 s_1 s_hh; lg S H_t H_p.
    - tmq s_st s_1 s_1 s_1; lg S H_t H_p. }
  assert (s_init : forall b, rel R (changeToStateInit b)) by (intros; unfold changeToStateInit; rel_tac; lg S H_t H_p).
  assert (s_idle : rel R changeToStateIdle) by (unfold changeToStateIdle; rel_tac; lg S H_t H_p).
  assert (s_page : forall v w, R w (set_page v w)) by (lg S H_t H_p).
  assert (s_pre : rel R changeToStatePreActive) by (unfold changeToStatePreActive, sendProt; tmq s_st s_1 s_1 s_1; lg S H_t H_p).
  assert (s_reset : forall t, rel R (changeToStateReset t)) by (intros; unfold changeToStateReset; tmq s_st s_1 s_1 s_1; lg S H_t H_p).
  assert (s_sp : forall ty prio d, rel R (sendProt ty prio d)) by (intros; unfold sendProt; rel_tac).
  assert (s_162 : forall v, rel R (writeVscpRegister REG_RESTORE v)).
  { intros v. unfold writeVscpRegister. change (rel R (id <- get w_t162 ;; running <- timer_running id ;;
      (if (v =? 85) && negb running then timer_start id (c_t_multi cfg) else when (v =? 170) && running do (timer_stop id ;; restoreFactory)) ;; ret (0, false))).
    apply s_1. unfold timer_running. rel_tac; lg S H_t H_p. }
  assert (s_wv : forall a v, rel R (writeVscpRegister a v)) by (intros a v; apply ts_writeVscpRegister; tr_fill ltac:(lg S H_t H_p)).
  assert (s_dmw : forall p a v, rel R (dm_writeRegister p a v)) by (intros; apply tr_dm_writeRegister; tr_fill ltac:(lg S H_t H_p)).
  assert (s_hb : rel R handleHeartbeat) by (apply tr_handleHeartbeat; tr_fill ltac:(lg S H_t H_p)).
  assert (s_rr : forall p a, rel R (readRegister p a)) by (intros; apply tr_readRegister; tr_fill ltac:(lg S H_t H_p)).
  assert (s_wr : forall p a v, rel R (writeRegister p a v)) by (intros; apply tr_writeRegister; tr_fill ltac:(lg S H_t H_p)).
  assert (s_pr : rel R handlePageRead) by (apply ts_handlePageRead; tr_fill ltac:(lg S H_t H_p)).
  assert (s_pw : rel R handlePageWrite) by (apply ts_handlePageWrite; tr_fill ltac:(lg S H_t H_p)).
  assert (s_epr : rel R extendedPageRead) by (apply ts_extendedPageRead; tr_fill ltac:(lg S H_t H_p)).
  assert (s_her : rel R handleExtPageRead) by (unfold handleExtPageRead; rel_tac; lg S H_t H_p).
  assert (s_hew : rel R handleExtPageWrite) by (apply ts_handleExtPageWrite; tr_fill ltac:(lg S H_t H_p)).
  assert (s_who : rel R handleWhoIsThere) by (apply ts_handleWhoIsThere; tr_fill ltac:(lg S H_t H_p)).
  assert (s_sn : rel R handleSetNickname) by (apply ts_handleSetNickname; tr_fill ltac:(lg S H_t H_p)).
  assert (s_dn : rel R handleDropNickname) by (apply ts_handleDropNickname; tr_fill ltac:(lg S H_t H_p)).
  assert (s_nno : rel R handleNewNodeOnline) by (apply ts_handleNewNodeOnline; tr_fill ltac:(lg S H_t H_p)).
  assert (s_pa : rel R handleProbeAck) by (apply ts_handleProbeAck; tr_fill ltac:(lg S H_t H_p)).
  assert (s_hrr : rel R handleReadRegister) by (apply ts_handleReadRegister; tr_fill ltac:(lg S H_t H_p)).
  assert (s_hwr : rel R handleWriteRegister) by (apply ts_handleWriteRegister; tr_fill ltac:(lg S H_t H_p)).
  assert (s_ebl : rel R handleEnterBootLoader) by (apply ts_handleEnterBootLoader; tr_fill ltac:(lg S H_t H_p)).
  assert (s_id : forall d, rel R (handleIncDec d)) by (intros; apply ts_handleIncDec; tr_fill ltac:(lg S H_t H_p)).
  assert (s_gmi : rel R handleGetMatrixInfo) by (apply ts_handleGetMatrixInfo; tr_fill ltac:(lg S H_t H_p)).
  assert (s_pe : forall m, rel R (provideEvent m)) by (intros; unfold provideEvent; rel_tac; lg S H_t H_p).
  assert (s_ppe : forall m, rel R (provideProtocolEvent m)) by (intros; unfold provideProtocolEvent; rel_tac; lg S H_t H_p).
  split. { intros w NT. unfold handleProtocolClassType. rewrite bind_get. replace (m_type (w_rx w) =? PT_RESET_DEVICE) with false by (unfold PT_RESET_DEVICE; lia).
    generalize (m_type (w_rx w)). intros t. revert w NT. match goal with |- forall w, _ -> R w (snd (?m w)) => assert (Z : rel R m) by rel_tac; intros; apply Z end. }
  assert (s_cu : rel R getStartUpControl) by (apply tr_startUp; tr_fill ltac:(lg S H_t H_p)).
  split; [exact s_api|]. split; [exact s_ah|]. split; [assumption|].
  split; [unfold stateInit, timer_running, rxIsProt; tmq s_st s_1 s_1 s_1; lg S H_t H_p|]. split; [unfold statePreActive, timer_running, rxIsProt, rxd; tmq s_st s_1 s_1 s_1; lg S H_t H_p|].
  split; [unfold stateReset, timer_running; tmq s_st s_1 s_1 s_1; lg S H_t H_p|].
  split; [exact s_cu|]. split; [exact s_init|]. split; [exact s_act|].
  split; [exact s_pe|]. split; [exact s_ppe|].
  split; [intros; apply ts_dm; tr_fill ltac:(lg S H_t H_p)|]. split; [intros; apply ts_ng; tr_fill ltac:(lg S H_t H_p)|].
  split; [unfold initTail; rel_tac|]. split; [exact s_reset|exact s_nick].
Qed.

(* ---- the handler ---- *)
Notation span := (c_t_multi cfg mod 65536).
Lemma one_in : N.of_nat 1 < timersNeeded (@cfg A E). Proof. unfold timersNeeded. destruct (c_hb_node cfg); lia. Qed.
Definition begun w (q : N) : World A := if q =? 0 then set_tm (timerStart (w_tm w) 1 (c_t_multi cfg)) (set_guidSt 0 w) else w.
Definition noted w (q : N) (ok : bool) : World A := if ok then set_guidSt (u8 (N.lor (w_guidSt w) (N.shiftl 1 q))) w else w.
Definition dropping : M A unit :=
  s <- get w_st ;; if c_silent cfg && state_eqb s STARTUP then startNodeSegmentInit else writeNicknameId NICK_NOT_INIT ;; changeToStateReset 0.
Definition disarmed w : World A := set_guidSt 0 (set_tm (timerStop (w_tm w) 1) w).
Lemma quarter_inv m q : quarterOf m = Some q -> msg_wf m -> m_class m = 0 /\ m_type m = 23 /\ q < 4 /\ m_size m = 5 /\
  exists b0 b1 b2 b3, payload m = [q; b0; b1; b2; b3] /\ at0 (m_data m) 0 = q /\ at0 (m_data m) 1 = b0 /\ at0 (m_data m) 2 = b1 /\ at0 (m_data m) 3 = b2 /\ at0 (m_data m) 4 = b3.
Proof.
  intros HQ WF. unfold quarterOf in HQ. destruct (payload m) as [|x [|b0 [|b1 [|b2 [|b3 [|]]]]]] eqn:HP; try discriminate HQ.
  destruct (_ && _) eqn:C in HQ; [|discriminate HQ]. injection HQ as ->. apply andb_true_iff in C. destruct C as [C C3]. apply andb_true_iff in C. destruct C as [C1 C2].
  destruct (payload_at m _ WF HP) as [SZ AT]. cbn [length] in SZ, AT. split; [lia|]. split; [lia|]. split; [lia|]. split; [lia|].
  exists b0, b1, b2, b3. split; [reflexivity|]. rewrite !AT by lia. repeat split.
Qed.
Lemma guidMatch_same w w' m q : q < 4 -> (forall k, k < 16 -> guidByte w k = guidByte w' k) -> guidMatch w m q = guidMatch w' m q.
Proof. intros HQ H. unfold guidMatch. destruct (payload m) as [|x [|b0 [|b1 [|b2 [|b3 [|]]]]]]; try reflexivity. rewrite !H by lia. reflexivity. Qed.
Lemma guid_handler w m q : apart w -> w_rx w = m -> msg_wf m -> quarterOf m = Some q ->
  let w1 := begun w q in let w2 := noted w1 q (guidMatch w m q) in
  handleGuidDrop w = if 0 <? tv 1 w1 then (if (q =? 3) && (w_guidSt w2 =? 15) then dropping (disarmed w2) else (tt, w2)) else (tt, set_guidSt 0 w1).
Proof.
  intros HA RX WF HQ w1 w2. destruct (quarter_inv m q HQ WF) as (MC & MT & Q4 & SZ & b0 & b1 & b2 & b3 & HP & A0 & A1 & A2 & A3 & A4).
  assert (TG : w_tGuid w = 1) by apply HA.
  unfold handleGuidDrop, rxSize, rxd. rewrite !bind_get, RX, SZ, A0. change (5 =? 5) with true. replace (q <? 4) with true by lia. cbn [andb].
  rewrite bind_get, TG.
  assert (E1 : (when q =? 0 do (upd (set_guidSt 0) ;; timer_start 1 (c_t_multi cfg))) w = (tt, w1)).
  { unfold w1, begun. destruct (q =? 0); reflexivity. }
  rewrite (bind_val _ _ _ _ _ E1). unfold timer_running. rewrite bind_get.
  assert (RU : timerRunning (w_tm w1) 1 = (0 <? tv 1 w1)) by exact (timer_running_tv 1 w1). rewrite RU.
  assert (RX1 : w_rx w1 = m) by (unfold w1, begun; destruct (q =? 0); exact RX).
  destruct (0 <? tv 1 w1); cbn [negb]; [|reflexivity].
  rewrite !bind_get, RX1, A1, A2, A3, A4.
  assert (G : forall k, k < 16 -> dd_getGUID (15 - k) w1 = (guidByte w k, w1)).
  { intros k Hk. rewrite (guid_state VE k w1 Hk). f_equal. unfold guidByte. destruct (d_guid_ps cfg); [apply stored_ps; unfold w1, begun; destruct (q =? 0); reflexivity|].
    destruct (d_guid_ext cfg); [|reflexivity]. unfold w1, begun. destruct (q =? 0); reflexivity. }
  pose proof (G (4 * q) ltac:(lia)) as G0. pose proof (G (4 * q + 1) ltac:(lia)) as G1. pose proof (G (4 * q + 2) ltac:(lia)) as G2. pose proof (G (4 * q + 3) ltac:(lia)) as G3.
  replace (15 - 4 * q - 1) with (15 - (4 * q + 1)) by lia. replace (15 - 4 * q - 2) with (15 - (4 * q + 2)) by lia. replace (15 - 4 * q - 3) with (15 - (4 * q + 3)) by lia.
  rewrite (bind_val _ _ _ _ _ G0), (bind_val _ _ _ _ _ G1), (bind_val _ _ _ _ _ G2), (bind_val _ _ _ _ _ G3).
  assert (EM : (b0 =? guidByte w (4 * q)) && (b1 =? guidByte w (4 * q + 1)) && (b2 =? guidByte w (4 * q + 2)) && (b3 =? guidByte w (4 * q + 3)) = guidMatch w m q) by (unfold guidMatch; rewrite HP; reflexivity).
  rewrite EM.
  assert (E2 : (when guidMatch w m q do upd (fun w => set_guidSt (u8 (N.lor (w_guidSt w) (N.shiftl 1 q))) w)) w1 = (tt, w2)).
  { unfold w2, noted. destruct (guidMatch w m q); reflexivity. }
  rewrite (bind_val _ _ _ _ _ E2), bind_get. destruct ((q =? 3) && (w_guidSt w2 =? 15)); [|reflexivity].
  unfold timer_stop. rewrite !bind_upd. reflexivity.
Qed.
Lemma guid_other w m : w_rx w = m -> msg_wf m -> m_class m = 0 -> m_type m = 23 -> quarterOf m = None -> handleGuidDrop w = (tt, w).
Proof.
  intros RX WF MC MT HQ. unfold handleGuidDrop, rxSize, rxd. rewrite !bind_get, RX. destruct ((m_size m =? 5) && (at0 (m_data m) 0 <? 4)) eqn:C; [|reflexivity]. exfalso.
  apply andb_true_iff in C. destruct C as [C1 C2]. unfold quarterOf in HQ. destruct WF as (_ & _ & _ & _ & _ & WL & _). unfold payload in HQ.
  replace (m_size m) with 5 in HQ by lia. change (N.to_nat 5) with 5%nat in HQ. destruct (m_data m) as [|x [|b0 [|b1 [|b2 [|b3 r]]]]]; try discriminate WL. cbn [firstn] in HQ. rewrite MC, MT in HQ. unfold at0 in C2. cbn [N.to_nat nth] in C2. change (0 =? 0) with true in HQ. change (23 =? 23) with true in HQ. cbn [andb] in HQ. rewrite C2 in HQ. discriminate HQ.
Qed.

(* ---- the current sequence ---- *)
Definition J (l : list GEv) w : Prop :=
  match cur span l with
  | None => tv 1 w = 0
  | Some s => tv 1 w = span - duration s /\ w_guidSt w < 16 /\ forall q, q < 4 -> N.testbit (w_guidSt w) q = hasQ q s
  end.
Lemma J_QG l w w' : QG w w' -> J l w -> J l w'.
Proof. unfold J. intros (_ & H1 & H2). rewrite H1, H2. auto. Qed.
Lemma J_RG l w w' : RG w w' -> apart w -> J l w -> apart w' /\ J l w' /\ w_rx w' = w_rx w.
Proof. intros H HA HJ. destruct (H HA) as [H1 H2]. split; [exact H1|]. split; [apply (J_QG l w w' H2 HJ)|apply H2]. Qed.
Lemma under_len s l : cur span l = Some s -> duration s < span. Proof. intros H. apply cur_spec in H. apply H. Qed.
Lemma bits_full g s : g < 16 -> (forall q, q < 4 -> N.testbit g q = hasQ q s) -> (g =? 15) = full s.
Proof.
  intros HG HB. unfold full. rewrite <- !HB by lia. assert (X : In g (map N.of_nat (seq 0 16))).
  { apply in_map_iff. exists (N.to_nat g). split; [apply N2Nat.id|]. apply in_seq. lia. }
  cbn in X. repeat destruct X as [<-|X]; try reflexivity. destruct X.
Qed.
Lemma noted_bits g q (ok : bool) s : g < 16 -> q < 4 -> (forall p, p < 4 -> N.testbit g p = hasQ p s) ->
  let g' := if ok then u8 (N.lor g (N.shiftl 1 q)) else g in g' < 16 /\ forall p, p < 4 -> N.testbit g' p = hasQ p (s ++ [GQuarter q ok]).
Proof.
  intros HG HQ HB g'. assert (X : In (g, q) (list_prod (map N.of_nat (seq 0 16)) (map N.of_nat (seq 0 4)))).
  { apply in_prod; apply in_map_iff; [exists (N.to_nat g)|exists (N.to_nat q)]; (split; [apply N2Nat.id|apply in_seq; lia]). }
  assert (G : g' < 16 /\ forall p, p < 4 -> N.testbit g' p = N.testbit g p || (ok && (p =? q))).
  { unfold g'. clear HB g'. destruct ok; [|split; [exact HG|intros; rewrite orb_false_r; reflexivity]].
    assert (Y : forallb (fun x => (u8 (N.lor (fst x) (N.shiftl 1 (snd x))) <? 16) && forallb (fun p => Bool.eqb (N.testbit (u8 (N.lor (fst x) (N.shiftl 1 (snd x)))) p) (N.testbit (fst x) p || (p =? snd x))) [0; 1; 2; 3])
      (list_prod (map N.of_nat (seq 0 16)) (map N.of_nat (seq 0 4))) = true) by (vm_compute; reflexivity).
    rewrite forallb_forall in Y. specialize (Y _ X). cbn [fst snd] in Y. apply andb_true_iff in Y. destruct Y as [Y1 Y2]. split; [lia|]. intros p Hp. rewrite forallb_forall in Y2.
    cbn [andb]. apply Bool.eqb_prop, Y2. destruct (N.eq_dec p 0) as [->|]; [cbn; auto|]. destruct (N.eq_dec p 1) as [->|]; [cbn; auto|]. destruct (N.eq_dec p 2) as [->|]; [cbn; auto|]. replace p with 3 by lia. cbn; auto. }
  destruct G as [G1 G2]. split; [exact G1|]. intros p Hp. rewrite G2, hasQ_app, HB by exact Hp. f_equal. unfold hasQ. cbn [existsb]. rewrite orb_false_r. destruct ok; [|reflexivity]. cbn [andb]. apply N.eqb_sym.
Qed.
Lemma tv_guidSt i v w : tv i (set_guidSt v w) = tv i w. Proof. reflexivity. Qed.
Lemma begun_apart w q : apart w -> apart (begun w q).
Proof. intros HA. unfold begun. destruct (q =? 0); [|exact HA]. exact (apart_ts 1 (c_t_multi cfg) (set_guidSt 0 w) (apart_same w _ eq_refl eq_refl eq_refl eq_refl eq_refl eq_refl HA)). Qed.
Lemma begun_tv w q : apart w -> tv 1 (begun w q) = if q =? 0 then span else tv 1 w.
Proof.
  intros HA. unfold begun. destruct (q =? 0); [|reflexivity]. unfold timerStart. change (w_tm w) with (w_tm (set_guidSt 0 w)). rewrite tv_set. change (1 =? N.to_nat 1)%nat with true. cbv iota.
  wsimp. pose proof (tv_in 1 w HA one_in) as X. destruct (nth_error (w_tm w) 1); [reflexivity|congruence].
Qed.
Lemma noted_frame w q ok : tv 1 (noted w q ok) = tv 1 w /\ (apart w -> apart (noted w q ok)).
Proof. unfold noted. destruct ok; (split; [reflexivity|]); [|auto]. intros HA. apply (apart_same w); try reflexivity. exact HA. Qed.
Lemma disarmed_frame w : apart w -> apart (disarmed w) /\ tv 1 (disarmed w) = 0.
Proof.
  intros HA. assert (HP := apart_tp 1 w HA). split; [apply (apart_same _ _ eq_refl eq_refl eq_refl eq_refl eq_refl eq_refl HP)|]. unfold disarmed. rewrite tv_guidSt, tv_stop by exact HA. reflexivity.
Qed.
(* one frame *)
Definition armed w (q : N) := if q =? 0 then timerStart (w_tm w) 1 (c_t_multi cfg) else w_tm w.
Lemma guid_frame l w m q : apart w -> J l w -> w_rx w = m -> msg_wf m -> quarterOf m = Some q ->
  let ok := guidMatch w m q in let l' := l ++ [GQuarter q ok] in
  (guidDrop span l' /\ q = 3 /\ cur span l' = None /\ handleGuidDrop w = dropping (disarmed (noted (begun w q) q ok))) \/
  (~ guidDrop span l' /\ exists v, handleGuidDrop w = (tt, v) /\ J l' v /\ apart v /\ w_rx v = m /\ exists g, v = set_guidSt g (set_tm (armed w q) w)).
Proof.
  intros HA HJ RX WF HQ ok l'. pose proof (guid_handler w m q HA RX WF HQ) as GH. cbv zeta in GH. fold ok in GH. rewrite GH. clear GH.
  destruct (quarter_inv m q HQ WF) as (_ & _ & Q4 & _). rewrite (begun_tv w q HA).
  assert (BA := begun_apart w q HA). destruct (noted_frame (begun w q) q ok) as [NT NA]. specialize (NA BA).
  assert (FR : forall w2, w2 = begun w q \/ w2 = noted (begun w q) q ok \/ w2 = set_guidSt 0 (begun w q) -> w_rx w2 = m /\ exists g, w2 = set_guidSt g (set_tm (armed w q) w)).
  { assert (FB : w_rx (begun w q) = m /\ exists g, begun w q = set_guidSt g (set_tm (armed w q) w)).
    { unfold begun, armed. destruct (q =? 0).
      - split; [exact RX|]. exists 0. destruct w; reflexivity.
      - split; [exact RX|]. exists (w_guidSt w). destruct w; reflexivity. }
    destruct FB as (F1 & g & F2). intros w2 [->|[->| ->]].
    - split; [exact F1|]. exists g. auto.
    - unfold noted. destruct ok; [|split; [exact F1|]; exists g; auto]. split; [exact F1|]. rewrite F2. eexists. reflexivity.
    - split; [exact F1|]. rewrite F2. exists 0. reflexivity. }
  unfold J in HJ. destruct (N.eqb_spec q 0) as [->|NQ].
  - (* first quarter *)
    right. split. { unfold l'; rewrite drop_spec. intros (s & _ & H & _). discriminate H. }
    replace (0 =? 3) with false by reflexivity. cbn [andb]. destruct (N.ltb_spec 0 span) as [SP|SP].
    + exists (noted (begun w 0) 0 ok). split; [reflexivity|]. split; [|split; [exact NA|apply FR; auto]].
      unfold J. unfold l'. rewrite cur_last. cbn [cur1]. change (0 =? 0) with true. cbv iota. replace (0 <? span) with true by lia.
      split; [rewrite NT, begun_tv by exact HA; cbn; lia|]. assert (G0 : w_guidSt (begun w 0) = 0) by reflexivity.
      unfold noted. destruct ok; wsimp; rewrite G0; (split; [vm_compute; reflexivity|]).
      * intros p Hp. destruct (N.eq_dec p 0) as [->|]; [reflexivity|]. destruct (N.eq_dec p 1) as [->|]; [reflexivity|]. destruct (N.eq_dec p 2) as [->|]; [reflexivity|]. replace p with 3 by lia. reflexivity.
      * intros p Hp. rewrite N.bits_0. reflexivity.
    + exists (set_guidSt 0 (begun w 0)). split; [reflexivity|]. split; [|split; [apply (apart_same (begun w 0)); try reflexivity; exact BA|apply FR; auto]].
      unfold J, l'. rewrite cur_last. cbn [cur1]. change (0 =? 0) with true. cbv iota. replace (0 <? span) with false by lia. rewrite tv_guidSt, begun_tv by exact HA. cbn. lia.
  - assert (B0 : begun w q = w) by (unfold begun; replace (q =? 0) with false by lia; reflexivity).
    destruct (cur span l) as [s|] eqn:CU.
    + destruct HJ as (T1 & G16 & GB). assert (LT := under_len s l CU). replace (0 <? tv 1 w) with true by lia.
      destruct (noted_bits (w_guidSt w) q ok s G16 Q4 GB) as (N16 & NB). cbv zeta in N16, NB.
      assert (GN : w_guidSt (noted (begun w q) q ok) = if ok then u8 (N.lor (w_guidSt w) (N.shiftl 1 q)) else w_guidSt w) by (rewrite B0; unfold noted; destruct ok; reflexivity).
      rewrite <- GN in N16, NB. assert (FE : (w_guidSt (noted (begun w q) q ok) =? 15) = full (s ++ [GQuarter q ok])) by (apply bits_full; assumption).
      rewrite FE. destruct ((q =? 3) && full (s ++ [GQuarter q ok])) eqn:FC.
      * left. split; [unfold l'; apply drop_spec; exists s; apply andb_true_iff in FC; cbn [isLast]; tauto|]. split; [apply andb_true_iff in FC; lia|]. split; [|reflexivity].
        unfold l'. rewrite cur_last, CU. cbn [cur1]. replace (q =? 0) with false by lia. rewrite FC. reflexivity.
      * right. split. { unfold l'; rewrite drop_spec, CU. intros (s' & EQ & H1 & H2). injection EQ as <-. cbn [isLast] in H1. rewrite H1, H2 in FC. discriminate FC. }
        exists (noted (begun w q) q ok). split; [reflexivity|]. split; [|split; [exact NA|apply FR; auto]].
        unfold J, l'. rewrite cur_last, CU. cbn [cur1]. replace (q =? 0) with false by lia. rewrite FC. split; [|auto]. rewrite NT, B0, T1, duration_app. cbn. lia.
    + rewrite HJ. change (0 <? 0) with false. cbv iota. right. split. { unfold l'; rewrite drop_spec, CU. intros (s' & EQ & _). discriminate EQ. }
      exists (set_guidSt 0 (begun w q)). split; [reflexivity|]. split; [|split; [apply (apart_same (begun w q)); try reflexivity; exact BA|apply FR; auto]].
      unfold J, l'. rewrite cur_last, CU. cbn [cur1]. replace (q =? 0) with false by lia. rewrite tv_guidSt, B0. exact HJ.
Qed.
(* the end of the sequence keeps quiet about it *)
Lemma RG_dropping : rel RG dropping.
Proof.
  destruct RG_parts as (_ & _ & _ & _ & _ & _ & _ & _ & P9 & _ & _ & _ & _ & _ & _ & P16 & P17).
  assert (Rrefl : forall w, RG w w) by (apply RT_refl; repeat split). assert (Rtrans : forall a b c, RG a b -> RG b c -> RG a c) by (apply RT_trans; intros a b c _ _ _ (H1 & H2 & H3) (K1 & K2 & K3); repeat split; congruence).
  unfold dropping, startNodeSegmentInit. generalize dependent RG. intros R; intros. rel_tac.
Qed.
Lemma guid_keeps l w m q : apart w -> J l w -> w_rx w = m -> msg_wf m -> quarterOf m = Some q ->
  let v := snd (handleGuidDrop w) in apart v /\ J (l ++ [GQuarter q (guidMatch w m q)]) v /\ w_rx v = m.
Proof.
  intros HA HJ RX WF HQ v. unfold v. destruct (guid_frame l w m q HA HJ RX WF HQ) as [(_ & _ & CN & ->)|(_ & u & -> & H1 & H2 & H3 & _)]; [|auto].
  set (u := disarmed _). assert (UA : apart u /\ tv 1 u = 0). { apply disarmed_frame. apply noted_frame, begun_apart, HA. }
  destruct (RG_dropping u (proj1 UA)) as [HA1 (K1 & K2 & K3)]. split; [exact HA1|]. split; [|rewrite K1; unfold u, disarmed, noted, begun; destruct (guidMatch w m q), (q =? 0); exact RX].
  unfold J. rewrite CN, K3. apply UA.
Qed.

(* ---- API calls of nodes that agree ---- *)
Definition bs {T} (m : M A T) : Prop := forall a b, same a b -> fst (m a) = fst (m b) /\ same (snd (m a)) (snd (m b)).
Lemma bs_bind {T U} (m : M A T) (k : T -> M A U) : bs m -> (forall r, bs (k r)) -> bs (bind m k).
Proof. intros H1 H2 a b S. unfold bind. destruct (H1 a b S) as [E1 S1]. rewrite <- E1. apply H2, S1. Qed.
Lemma bs_ret {T} (r : T) : bs (ret r). Proof. intros a b S. auto. Qed.
Lemma bs_if {T} (c : bool) (m m' : M A T) : bs m -> bs m' -> bs (if c then m else m'). Proof. destruct c; auto. Qed.
Lemma bs_upd f : (forall a b, same a b -> same (f a) (f b)) -> bs (upd f). Proof. intros H a b S. split; [reflexivity|apply H, S]. Qed.
Lemma bs_get {T} (f : World A -> T) : (forall a b, same a b -> f a = f b) -> bs (get f). Proof. intros H a b S. split; [apply H, S|exact S]. Qed.
Lemma bs_emit o : bs (emit o). Proof. apply bs_upd. intros a b S. samet S. Qed.
Lemma bs_psWrite8 x v : bs (psWrite8 x v).
Proof. apply bs_bind; [|intros _; apply bs_emit]. apply bs_upd. intros a b S. rewrite (same_ps _ _ S). samet S. Qed.
Lemma bs_psRead8 x : bs (psRead8 x). Proof. apply bs_get. intros a b S. rewrite (same_ps _ _ S). reflexivity. Qed.
Lemma bs_restore : bs restoreFactory.
Proof.
  intros a b S. destruct (bi_restore (w_out a) (w_out b) a b) as [H1 [H2 _]]; [split; [exact S|exists []; auto]|auto].
Qed.
Ltac bs_step := match goal with
  | |- bs (bind _ _) => apply bs_bind; [|intros ?]
  | |- bs (ret _) => apply bs_ret
  | |- bs (if _ then _ else _) => apply bs_if
  | |- bs (psWrite8 _ _) => apply bs_psWrite8
  | |- bs (psRead8 _) => apply bs_psRead8
  | |- bs (emit _) => apply bs_emit
  | |- bs (upd _) => apply bs_upd; let a := fresh in let b := fresh in let S := fresh "S" in intros a b S; samet S
  end.
(* calls that only transmit *)
Lemma log_same i l d w : same (snd (log_log i l d w)) w.
Proof.
  assert (K : rel (fun x y => same y x) (@log_log A E i l d)); [|apply K].
  assert (Rrefl : forall w, same w w) by exact same_refl. assert (Rtrans : forall x y z : World A, same y x -> same z y -> same z x) by (intros x y z H1 H2; exact (same_trans _ _ _ H2 H1)).
  assert (s_tx : forall m, rel (fun x y => same y x) (@tp_writeMessage A E m)) by (intros m w'; apply keeps_same, tx_keeps).
  set (R := fun x y : World A => same y x) in *. assert (RR : forall w, R w w) by exact same_refl. assert (RT : forall x y z, R x y -> R y z -> R x z) by exact Rtrans. clear Rrefl Rtrans.
  assert (S : forall w w', visible w' = visible w -> w_tm w' = w_tm w -> R w w') by (intros w0 w' H1 H2; apply same_quick; assumption). clearbody R.
  assert (s_logl : forall f n i l e d, rel R (@log_loop A E f n i l e d)) by (induction f as [|f IH]; intros; cbn [log_loop]; rel_tac).
  unfold log_log, log_sendLogEvent. rel_tac; apply rel_upd; intros; apply S; reflexivity.
Qed.
Lemma api_same c : bs (doApi c).
Proof.
  unfold doApi. apply bs_bind; [apply bs_emit|intros _]. destruct c.
  - intros a b S. split; [reflexivity|]. rewrite !then_ret. apply (same_trans _ a); [apply keeps_same, tx_keeps|]. apply (same_trans _ b); [exact S|]. apply same_sym, keeps_same, tx_keeps.
  - unfold setAlarm. apply bs_upd. intros a b S. rewrite (same_alarm _ _ S). samet S.
  - unfold setTimeSinceEpoch. repeat bs_step.
  - apply bs_if; [|apply bs_ret]. unfold enableHeartbeat. apply bs_upd. intros x y S. assert (EH : w_hbEn x = w_hbEn y) by (destruct S as [V _]; unfold visible in V; congruence). rewrite EH. samet S.
  - unfold startNodeSegmentInit, changeToStateInit. apply bs_bind; [apply bs_get; intros a b S; apply (same_st _ _ S)|intros s]. apply bs_if; [|apply bs_ret].
    apply bs_bind; [apply bs_get; intros a b S; apply (same_st _ _ S)|intros s1]. unfold writeNicknameId, ps_writeNicknameId, ps_readNicknameId. repeat bs_step.
  - apply bs_restore.
  - apply bs_if; [|apply bs_ret]. unfold log_enable. repeat bs_step.
  - apply bs_if; [|apply bs_ret]. unfold log_setLevel. repeat bs_step.
  - apply bs_if; [|apply bs_ret]. intros a b S. split; [match goal with |- fst ?x = fst ?y => destruct (fst x), (fst y); reflexivity end|].
    apply (same_trans _ a); [apply log_same|]. apply (same_trans _ b); [exact S|]. apply same_sym, log_same.
  - apply bs_if; [|apply bs_ret]. unfold ps_writeLogId. repeat bs_step.
  - apply bs_if; [|apply bs_ret]. unfold ps_writeZone. repeat bs_step.
  - apply bs_if; [|apply bs_ret]. unfold ps_writeSub. repeat bs_step.
  - intros a b S. unfold tp_getTransmitErrors. split; [reflexivity|]. apply (same_trans _ a); [apply same_quick; reflexivity|]. apply (same_trans _ b); [exact S|]. apply same_quick; reflexivity.
Qed.
Lemma calls_same cs : forall a b, same a b -> same (snd (forM cs doApi a)) (fold_left (fun v c => snd (step (OpApi c) v)) cs b).
Proof.
  induction cs as [|c cs IH]; intros a b S; [exact S|]. cbn [forM fold_left]. unfold bind. cbn [step].
  destruct (api_same c a b S) as [_ S1]. apply IH, S1.
Qed.
Lemma fold_same cs : forall a b, same a b -> same (fold_left (fun v c => snd (step (OpApi c) v)) cs a) (fold_left (fun v c => snd (step (OpApi c) v)) cs b).
Proof. induction cs as [|c cs IH]; intros a b S; [exact S|]. cbn [fold_left]. apply IH. cbn [step]. apply api_same, S. Qed.
Lemma same_guid a b k : same a b -> guidByte a k = guidByte b k.
Proof. intros S. unfold guidByte. rewrite (stored_ps a b) by (apply same_ps; exact S). rewrite (same_app _ _ S). reflexivity. Qed.
Lemma heard_same a b m : same a b -> same (heard a m) (heard b m).
Proof. intros S. unfold heard. destruct (c_prot_ev cfg); [|exact S]. rewrite (same_app _ _ S), (same_ps _ _ S). samet S. Qed.
Lemma guidOf_same a b m : same a b -> same (guidOf a m) (guidOf b m).
Proof.
  intros S. unfold guidOf. rewrite (same_st _ _ S), (same_app _ _ S), (same_ps _ _ S). destruct (w_st b); try exact S. apply fold_same, heard_same, S.
Qed.
Lemma attends_same a b m : same a b -> attends a m = attends b m.
Proof. intros S. unfold attends. rewrite (same_st _ _ S), (same_app _ _ S), (same_ps _ _ S), (same_nick _ _ S). reflexivity. Qed.

(* ---- one process call ---- *)
Definition evOf w (m : Msg) : list GEv :=
  if attends w m then match quarterOf m with Some q => [GQuarter q (guidMatch (guidOf w m) m q)] | None => [] end else [].
Lemma provided w m : same (snd (provideProtocolEvent m w)) (fold_left (fun v c => snd (step (OpApi c) v)) (snd (fst (app_prot (w_app w, w_ps w) m))) (set_app (snd (app_prot (w_app w, w_ps w) m)) w)) /\
  fst (provideProtocolEvent m w) = fst (fst (app_prot (w_app w, w_ps w) m)).
Proof.
  unfold provideProtocolEvent. rewrite bind_emit, bind_get, bind_upd. wsimp. split; [|reflexivity]. rewrite snd_bind. cbn [ret snd]. apply calls_same.
  apply same_quick; reflexivity.
Qed.
Lemma quarter_not23 m : m_class m <> 0 \/ m_type m <> 23 -> quarterOf m = None.
Proof. intros H. unfold quarterOf. destruct (payload m) as [|x [|b0 [|b1 [|b2 [|b3 [|]]]]]]; try reflexivity. replace ((m_class m =? 0) && (m_type m =? 23) && (x <? 4)) with false; [reflexivity|]. symmetry. destruct (m_class m =? 0) eqn:C1, (m_type m =? 23) eqn:C2; try reflexivity. lia. Qed.
Lemma hpct_23 w : m_type (w_rx w) = 23 -> handleProtocolClassType w = handleGuidDrop w.
Proof. intros H. unfold handleProtocolClassType. rewrite bind_get, H. reflexivity. Qed.
Lemma protocol_guid l w m : apart w -> J l w -> w_rx w = m -> msg_wf m -> m_class m = 0 ->
  let v := snd (handleProtocolClassType w) in let ev := match quarterOf m with Some q => [GQuarter q (guidMatch w m q)] | None => [] end in
  apart v /\ J (l ++ ev) v.
Proof.
  intros HA HJ RX WF MC v ev. unfold v. destruct (N.eq_dec (m_type m) 23) as [T23|T23].
  - rewrite hpct_23 by (rewrite RX; exact T23). unfold ev. destruct (quarterOf m) as [q|] eqn:HQ.
    + destruct (guid_keeps l w m q HA HJ RX WF HQ) as (H1 & H2 & _). auto.
    + rewrite (guid_other w m RX WF MC T23 HQ), app_nil_r. auto.
  - unfold ev. rewrite quarter_not23, app_nil_r by auto. destruct RG_parts as (P1 & _). destruct (J_RG l w _ (P1 w ltac:(rewrite RX; exact T23)) HA HJ) as (H1 & H2 & _). auto.
Qed.
Lemma dispatch_guid l w : apart w -> J l w -> (w_rxv w = true -> msg_wf (w_rx w)) ->
  let v := snd (dispatch w) in apart v /\ J (l ++ (if w_rxv w then evOf w (w_rx w) else [])) v.
Proof.
  intros HA HJ WF v. destruct RG_parts as (_ & PA & PH & PX & PI & PP & PR & PS & PJ & PC & PE & PV & PD & PN & _).
  assert (Rrefl : forall w, RG w w) by (apply RT_refl; repeat split). assert (Rtrans : forall a b c, RG a b -> RG b c -> RG a c) by (apply RT_trans; intros a b c _ _ _ (H1 & H2 & H3) (K1 & K2 & K3); repeat split; congruence).
  unfold v, dispatch. rewrite bind_get.
  assert (NO : forall u, RG w u -> attends w (w_rx w) = false -> apart u /\ J (l ++ (if w_rxv w then evOf w (w_rx w) else [])) u).
  { intros u HU HN. destruct (J_RG l w u HU HA HJ) as (H1 & H2 & _). split; [exact H1|]. unfold evOf. rewrite HN. destruct (w_rxv w); rewrite app_nil_r; exact H2. }
  destruct (w_st w) eqn:ST.
  - rewrite snd_bind. unfold stateStartup. rewrite bind_get. change NICK_NOT_INIT with 255. destruct (w_nick w =? 255) eqn:NK.
    + destruct (c_silent cfg) eqn:SL.
      * rewrite bind_get. unfold evOf, attends. rewrite ST, SL, NK. cbn [andb].
        destruct (w_rxv w) eqn:RV; cbn [andb]; [|rewrite app_nil_r; auto]. specialize (WF eq_refl).
        destruct (N.eq_dec (m_class (w_rx w)) 0) as [C0|C0].
        -- destruct (N.eq_dec (m_type (w_rx w)) 23) as [T0|T0].
           ++ rewrite C0, T0. change ((0 =? CLASS_PROTOCOL) && (23 =? PT_RESET_DEVICE)) with true. cbv iota. destruct (quarterOf (w_rx w)) as [q|] eqn:HQ.
              ** destruct (guid_keeps l w (w_rx w) q HA HJ eq_refl WF HQ) as (H1 & H2 & _). split; [exact H1|]. unfold guidOf. rewrite ST. exact H2.
              ** rewrite (guid_other w (w_rx w) eq_refl WF C0 T0 HQ), app_nil_r. auto.
           ++ rewrite (quarter_not23 (w_rx w)) by auto. rewrite app_nil_r. replace (_ && _) with false; [auto|]. symmetry. apply andb_false_iff. right. unfold PT_RESET_DEVICE. lia.
        -- rewrite (quarter_not23 (w_rx w)) by auto. rewrite app_nil_r. replace (_ && _) with false; [auto|]. symmetry. apply andb_false_iff. left. unfold CLASS_PROTOCOL. lia.
      * apply NO; [|unfold attends; rewrite ST, SL; reflexivity]. match goal with |- RG w (snd (ret false (snd (?q w)))) => change (RG w (snd (q w))); enough (Z : rel RG q) by apply Z end.
        generalize dependent RG. intros R; intros. rel_tac.
    + apply NO; [|unfold attends; rewrite ST, NK; apply andb_false_r]. apply PC.
  - rewrite snd_bind. apply NO; [apply PI|unfold attends; rewrite ST; reflexivity].
  - rewrite snd_bind. apply NO; [apply PP|unfold attends; rewrite ST; reflexivity].
  - unfold stateActive. rewrite snd_bind.
    match goal with |- context [snd (?q (snd (activeMessage w)))] => assert (Z : rel RG q) by (generalize dependent RG; intros R; intros; rel_tac) end.
    enough (X : apart (snd (activeMessage w)) /\ J (l ++ (if w_rxv w then evOf w (w_rx w) else [])) (snd (activeMessage w))).
    { destruct X as [X1 X2]. destruct (J_RG _ _ _ (Z _) X1 X2) as (H1 & H2 & _). auto. }
    clear Z NO. unfold activeMessage. rewrite bind_get. destruct (w_rxv w) eqn:RV; [|rewrite app_nil_r; auto]. specialize (WF eq_refl).
    rewrite bind_get, snd_bind. set (m := w_rx w) in *.
    match goal with |- context [snd (?q (snd (?p w)))] => assert (Z : rel RG q) by (generalize dependent RG; intros R; intros; rel_tac); enough (X : apart (snd (p w)) /\ J (l ++ evOf w m) (snd (p w))) end.
    { destruct X as [X1 X2]. destruct (J_RG _ _ _ (Z _) X1 X2) as (H1 & H2 & _). auto. }
    clear Z. unfold evOf, attends, guidOf. rewrite ST. destruct (m_class m =? CLASS_PROTOCOL) eqn:CP.
    + assert (MC : m_class m = 0) by (unfold CLASS_PROTOCOL in CP; lia). unfold heard. destruct (c_prot_ev cfg) eqn:PV'.
      * destruct (provided w m) as [SV HF]. rewrite snd_bind, HF. set (u := snd (provideProtocolEvent m w)) in *.
        destruct (J_RG l w u (PV m w) HA HJ) as (UA & UJ & UX). cbn [andb]. destruct (fst (fst (app_prot (w_app w, w_ps w) m))); cbn [negb].
        -- rewrite app_nil_r. auto.
        -- destruct (protocol_guid l u m UA UJ UX WF MC) as (H1 & H2). split; [exact H1|]. destruct (quarterOf m) as [q|] eqn:HQ; [|exact H2].
           rewrite (guidMatch_same _ u) ; [exact H2|apply (quarter_inv m q HQ WF)|]. intros k _. symmetry. apply same_guid, SV.
      * cbn [andb negb fold_left]. apply protocol_guid; try assumption. reflexivity.
    + rewrite (quarter_not23 m) by (left; unfold CLASS_PROTOCOL in CP; lia). replace (if negb _ then [] else []) with (@nil GEv) by (destruct (negb _); reflexivity). rewrite app_nil_r.
      destruct (J_RG l w _ (PE m w) HA HJ) as (H1 & H2 & _). auto.
  - apply NO; [apply Rrefl|unfold attends; rewrite ST; reflexivity].
  - rewrite snd_bind. apply NO; [apply PR|unfold attends; rewrite ST; reflexivity].
  - apply NO; [apply Rrefl|unfold attends; rewrite ST; reflexivity].
Qed.

(* ---- histories ---- *)
Lemma evOf_same a b m : msg_wf m -> same a b -> evOf a m = evOf b m.
Proof.
  intros WF S. unfold evOf. rewrite (attends_same a b m S). destruct (attends b m); [|reflexivity]. destruct (quarterOf m) as [q|] eqn:HQ; [|reflexivity].
  rewrite (guidMatch_same (guidOf a m) (guidOf b m)); [reflexivity|apply (quarter_inv m q HQ WF)|]. intros k _. apply same_guid, guidOf_same, S.
Qed.
Lemma events_process w rd : guidEvents w (EOp (OpProcess rd)) = match received rd w with Some m => evOf w m | None => [] end.
Proof. unfold guidEvents, after. rewrite process_taken. destruct (received rd w); reflexivity. Qed.
Lemma J_prologue l rd w : apart w -> J l w -> J l (snd (prologue rd w)).
Proof.
  intros HA HJ. assert (T : tv 1 (snd (prologue rd w)) = tv 1 w) by (apply tv_prologue; [exact HA|discriminate]).
  assert (G : w_guidSt (snd (prologue rd w)) = w_guidSt w) by (apply (pres_prologue w_guidSt rd); reflexivity). unfold J. rewrite T, G. exact HJ.
Qed.
Lemma J_process l rd w : timersNeeded cfg <= c_timers cfg -> reachable w -> op_wf (OpProcess rd) -> J l w -> J (l ++ guidEvents w (EOp (OpProcess rd))) (snd (step (OpProcess rd) w)).
Proof.
  intros HT HR HO HJ. assert (HA := reach_apart w VE HR HT). rewrite events_process.
  assert (D : J (l ++ (if w_rxv (snd (prologue rd w)) then evOf (snd (prologue rd w)) (w_rx (snd (prologue rd w))) else [])) (snd (dispatch (snd (prologue rd w))))).
  { apply (dispatch_guid l _ (apart_prologue rd w HA) (J_prologue l rd w HA HJ)). intros RV. destruct (received rd w) as [m|] eqn:RM.
    - destruct (prologue_rx rd w m RM) as [-> _]. exact (received_wf VE rd w m HR HO RM).
    - destruct (prologue_norx rd w RM) as [_ X]. congruence. }
  unfold step. rewrite snd_then. rewrite (process_state rd w). cbv zeta. cbn [snd].
  set (u := snd (dispatch (snd (prologue rd w)))) in *. match goal with |- J ?a (set_out ?x (set_rxv ?y u)) => change (J a u) end.
  destruct (received rd w) as [m|] eqn:RM.
  - destruct (prologue_rx rd w m RM) as [R1 R2]. rewrite R1, R2 in D. rewrite (evOf_same _ w m (received_wf VE rd w m HR HO RM) (prologue_same rd w)) in D. exact D.
  - destruct (prologue_norx rd w RM) as [_ R2]. rewrite R2 in D. exact D.
Qed.
Lemma J_tick l p w : apart w -> J l w -> J (l ++ [GTime p]) (snd (step (OpTick p) w)).
Proof.
  intros HA HJ. change (snd (step (OpTick p) w)) with (set_tm (timerProcess (w_tm w) p) (set_out (OTick p :: w_out w) w)).
  assert (T : tv 1 (set_tm (timerProcess (w_tm w) p) (set_out (OTick p :: w_out w) w)) = tv 1 w - p) by (apply (tv_tick 1 p w HA one_in VE)).
  unfold J in *. rewrite cur_last. cbn [cur1]. rewrite T. wsimp. destruct (cur span l) as [s|] eqn:CU; [|lia]. destruct HJ as (H1 & H2 & H3).
  destruct (N.ltb_spec (duration s + p) span) as [LT|LT]; [|lia]. split; [rewrite duration_app; cbn [duration fold_right]; lia|]. split; [exact H2|].
  intros q Hq. rewrite H3 by exact Hq. rewrite hasQ_app. cbn. rewrite orb_false_r. reflexivity.
Qed.
Lemma J_init l w : timersNeeded cfg <= c_timers cfg -> cur span l = None -> J l (snd (core_init w)).
Proof.
  intros HT CU. rewrite core_init_eq. destruct (init_timers VE w HT) as (H1 & H2 & H3 & H4). rewrite H1. set (v := snd (initTimers (snd (initHead w)))) in *. clearbody v.
  destruct RG_parts as (_ & _ & _ & _ & _ & _ & _ & _ & _ & _ & _ & _ & _ & _ & PT & _). destruct (PT v H2) as (_ & _ & _ & T). unfold J. rewrite CU, T, H4. reflexivity.
Qed.
Lemma J_step l e w : timersNeeded cfg <= c_timers cfg -> reachable w -> event_wf e -> J l w -> J (l ++ guidEvents w e) (stepE e w).
Proof.
  intros HT HR HE HJ. assert (HA := reach_apart w VE HR HT). destruct e as [[rd|p|c|]|o k a].
  - exact (J_process l rd w HT HR HE HJ).
  - exact (J_tick l p w HA HJ).
  - cbn [guidEvents]. rewrite app_nil_r. destruct RG_parts as (_ & PA & _). change (stepE (EOp (OpApi c)) w) with (snd (doApi c w)). destruct (J_RG l w _ (PA c w) HA HJ) as (_ & H & _). exact H.
  - change (stepE (EOp OpInit) w) with (snd (step OpInit w)). rewrite step_init. apply J_init; [exact HT|]. cbn [guidEvents]. rewrite cur_last. reflexivity.
  - cbn [guidEvents stepE]. cbv zeta. apply J_init; [exact HT|]. destruct o; rewrite cur_last; reflexivity.
Qed.
Lemma J_run es : timersNeeded cfg <= c_timers cfg -> forall l w, reachable w -> Forall event_wf es -> J l w -> J (l ++ guidTrace es w) (run es w).
Proof.
  intros HT. induction es as [|e es IH]; intros l w HR HE HJ; [cbn [guidTrace]; rewrite app_nil_r; exact HJ|].
  inversion HE; subst. cbn [guidTrace]. rewrite app_assoc. change (run (e :: es) w) with (run es (stepE e w)). apply IH; [apply reach_step; assumption|assumption|]. apply J_step; assumption.
Qed.
Lemma reach_base ps a wr : (forall x, ps x < 256) -> reachable (powerUp ps a wr).
Proof. intros HP. exists ps. exists a, wr, []. split; [exact HP|]. split; [constructor|]. unfold run. cbn [fold_left]. reflexivity. Qed.
Lemma J_power es ps a wr : timersNeeded cfg <= c_timers cfg -> (forall x, ps x < 256) -> Forall event_wf es -> J (guidTrace es (powerUp ps a wr)) (run es (powerUp ps a wr)).
Proof.
  intros HT HP HE. pose proof (reach_base ps a wr HP) as R0.
  assert (J0 : J [] (powerUp ps a wr)) by (unfold powerUp; apply J_init; [exact HT|reflexivity]).
  revert R0 J0. generalize (powerUp ps a wr). intros w R0 J0. exact (J_run es HT [] w R0 HE J0).
Qed.
Lemma trace_app es1 : forall es2 w, guidTrace (es1 ++ es2) w = guidTrace es1 w ++ guidTrace es2 (run es1 w).
Proof. induction es1 as [|e es1 IH]; intros es2 w; [reflexivity|]. cbn [app guidTrace]. rewrite IH, app_assoc. reflexivity. Qed.

(* ---- requests ---- *)
Lemma same_apart a b : same a b -> apart b -> map t_id (w_tm a) = map t_id (w_tm b) -> apart a.
Proof.
  intros [V _] HB HM. unfold visible in V. apply (apart_same b); try congruence. 
Qed.
Lemma same_tv1 a b : same a b -> apart b -> tv 1 a = tv 1 b.
Proof.
  intros [V H] HB. assert (EP : w_tEp a = 3) by (transitivity (w_tEp b); [unfold visible in V; congruence|apply HB]).
  specialize (H 1 ltac:(rewrite EP; discriminate)). change (N.to_nat 1) with 1%nat in H. unfold tv. rewrite H. reflexivity.
Qed.
Lemma set_same (a b : World A) i v g : same a b -> same (set_guidSt g (set_tm (timerSetAt (w_tm a) i v) a)) (set_guidSt g (set_tm (timerSetAt (w_tm b) i v) b)).
Proof.
  intros [V T]. split.
  - unfold visible in *. wsimp. rewrite !timerSetAt_length. congruence.
  - intros id Hid. wsimp. wsimp_in Hid. specialize (T id Hid). destruct (Nat.eq_dec (N.to_nat id) i) as [<-|NE]; [|rewrite !timerSetAt_other by congruence; exact T].
    revert T. generalize (N.to_nat id). generalize (w_tm a) (w_tm b). clear. intros l1. induction l1 as [|x l1 IH]; intros [|y l2] [|n]; cbn [timerSetAt nth_error]; intros H; try discriminate H; try reflexivity; try congruence.
    + destruct (nth_error l2 n) eqn:E2; [discriminate H|]. symmetry. apply nth_error_None. rewrite timerSetAt_length. apply nth_error_None. exact E2.
    + apply nth_error_None. rewrite timerSetAt_length. apply nth_error_None. exact H.
    + apply IH. exact H.
Qed.
Lemma setg_same (a b : World A) g : same a b -> same (set_guidSt g a) (set_guidSt g b). Proof. intros S. samet S. Qed.
Lemma hb_not1 w : reachable w -> N.to_nat (w_tHb w) <> 1%nat.
Proof.
  intros HR. destruct (reach_inv VE w HR) as [ps0 HI]. rewrite (i_tHb _ _ HI). unfold tid, TIMER_ID_INVALID. destruct (c_hb_node cfg); [|lia]. destruct (_ <? _); lia.
Qed.
Lemma guid_request es ps a wr rd m d q : timersNeeded cfg <= c_timers cfg -> (forall x, ps x < 256) -> Forall event_wf es ->
  let w0 := powerUp ps a wr in let w := run es w0 in request w rd m 23 d -> quarterOf m = Some q ->
  let l := guidTrace (es ++ [EOp (OpProcess rd)]) w0 in
  exists lo w1, (guidDrop span l /\ dropped (finished (heard w m)) 0 0 lo w1 \/ ~ guidDrop span l /\ lo = [] /\ exists g, w1 = listened (heard w m) q g) /\ served w (after w rd) m lo w1.
Proof.
  intros HT HP HE w0 w HQ QM l. assert (HJ : J (guidTrace es w0) w) by exact (J_power es ps a wr HT HP HE).
  assert (HR : reachable w) by apply HQ. assert (HA := reach_apart w VE HR HT).
  assert (EL : l = guidTrace es w0 ++ guidEvents w (EOp (OpProcess rd))).
  { unfold l. rewrite trace_app. fold w. cbn [guidTrace]. rewrite app_nil_r. reflexivity. }
  clearbody l w w0. rewrite events_process in EL.
  assert (HM : received rd w = Some m) by (apply received_taken, HQ). rewrite HM in EL.
  assert (AT : isActive w = true) by apply HQ. assert (ST : w_st w = ACTIVE) by (unfold isActive in AT; destruct (w_st w); try discriminate AT; reflexivity).
  assert (UC : unclaimed w m) by (destruct HQ as (_ & _ & _ & _ & _ & _ & _ & H); exact H).
  assert (EV : evOf w m = [GQuarter q (guidMatch (heard w m) m q)]).
  { unfold evOf, attends, guidOf. rewrite ST, QM. unfold unclaimed in UC. destruct (c_prot_ev cfg); [rewrite (UC eq_refl)|]; reflexivity. }
  rewrite EV in EL. set (H := heard w m) in *.
  apply (served_ids VE (fun lo w1 => guidDrop span l /\ dropped (finished H) 0 0 lo w1 \/ ~ guidDrop span l /\ lo = [] /\ exists g, w1 = listened H q g) w rd m 23 d HQ).
  intros v S0 TI RX WF MT PL NK. fold H in S0.
  assert (HH : apart H) by (unfold H, heard; destruct (c_prot_ev cfg); [apply (apart_same w); try reflexivity|]; exact HA).
  assert (JH : J (guidTrace es w0) H) by (unfold H, heard; destruct (c_prot_ev cfg); exact HJ).
  assert (VA : apart v). { apply (same_apart v H S0 HH). rewrite TI. unfold H, heard. destruct (c_prot_ev cfg); reflexivity. }
  assert (VJ : J (guidTrace es w0) v). { unfold J in *. rewrite (same_tv1 v H S0 HH). assert (X : w_guidSt v = w_guidSt H) by (destruct S0 as [V _]; unfold visible in V; congruence). rewrite X. exact JH. }
  assert (GM : guidMatch v m q = guidMatch H m q). { apply guidMatch_same; [apply (quarter_inv m q QM WF)|]. intros k _. apply same_guid, S0. }
  destruct (quarter_inv m q QM WF) as (_ & _ & Q4 & _).
  assert (TG : w_tGuid H = 1) by apply HH. assert (VG : w_tGuid v = 1) by apply VA.
  assert (VH : w_tHb v = w_tHb w) by (transitivity (w_tHb H); [destruct S0 as [V _]; unfold visible in V; congruence|unfold H, heard; destruct (c_prot_ev cfg); reflexivity]).
  assert (N1 := hb_not1 w HR). rewrite <- VH in N1.
  rewrite hpct_23 by (rewrite RX; exact MT). pose proof (guid_frame _ v m q VA VJ RX WF QM) as GF. cbv zeta in GF. rewrite GM, <- EL in GF.
  destruct GF as [(GD & Q3 & _ & ->)|(GD & u & -> & _ & _ & _ & g & ->)].
  - set (u := disarmed _). assert (SU : u = set_guidSt 0 (set_tm (timerStop (w_tm v) 1) v)).
    { unfold u, disarmed, noted, begun. rewrite Q3. change (3 =? 0) with false. cbv iota. destruct (guidMatch H m 3); [destruct v; reflexivity|reflexivity]. }
    rewrite SU. clear u SU. set (u := set_guidSt 0 _). assert (SU : same u (finished H)) by (unfold u, finished; rewrite TG; apply set_same, S0).
    assert (UD : undisturbed v u).
    { unfold u, timerStop. split; [split; [reflexivity|wsimp; apply timerSetAt_length]|]. wsimp. split; [apply timerSetAt_other; lia|auto]. }
    assert (US : w_st u = ACTIVE) by (rewrite (same_st _ _ SU); unfold finished; wsimp; unfold H; rewrite heard_st; exact ST).
    assert (UO : w_out u = w_out v) by reflexivity.
    assert (UN : w_nick u < 256). { rewrite (same_nick _ _ SU). unfold finished. wsimp. unfold H. rewrite heard_nick. destruct (reach_inv VE w HR) as [ps0 HI]. rewrite (i_nick _ _ HI). apply (i_ps _ _ HI). }
    assert (UB : hbApart u).
    { destruct (reach_inv VE w HR) as [ps0 HI]. apply (hbApart_eq w); [exact VH|..|apply (inv_hbApart VE ps0 w HI)].
      - transitivity (w_tSt H); [destruct S0 as [V _]; unfold visible in V; unfold u; wsimp; congruence|unfold H, heard; destruct (c_prot_ev cfg); reflexivity].
      - unfold u. wsimp. unfold timerStop. rewrite timerSetAt_length. transitivity (length (w_tm H)); [destruct S0 as [V _]; unfold visible in V; congruence|unfold H, heard; destruct (c_prot_ev cfg); reflexivity]. }
    clearbody u. destruct (drop_state u (finished H) 0 0 SU US UN UB) as (lo & w1 & G1 & G2 & G3 & G4).
    exists lo, w1. split; [left; auto|]. cbv zeta in *. assert (DE : dropping u = (writeNicknameId NICK_NOT_INIT ;; changeToStateReset 0) u).
    { unfold dropping. rewrite bind_get, US. rewrite andb_false_r. reflexivity. }
    rewrite DE. change (snd (dropBody 0 0 u)) with (snd ((writeNicknameId NICK_NOT_INIT ;; changeToStateReset 0) u)) in G2, G3, G4.
    rewrite <- UO. split; [exact G2|]. split; [exact G3|]. intros _. exact (undisturbed_trans _ _ _ UD G4).
  - exists [], (listened H q g). split; [right; eauto|]. cbv zeta. cbn [snd rev app]. split; [reflexivity|]. unfold listened, armed. rewrite TG. unfold timerStart. destruct (q =? 0) eqn:QZ.
    + split; [apply set_same, S0|]. intros _. split; [split; [reflexivity|wsimp; apply timerSetAt_length]|]. wsimp. split; [apply timerSetAt_other; lia|auto].
    + replace (set_tm (w_tm v) v) with v by (destruct v; reflexivity). split; [apply setg_same, S0|]. intros _. repeat split. auto.
Qed.
Lemma guid_startup es ps a wr rd m q : timersNeeded cfg <= c_timers cfg -> (forall x, ps x < 256) -> Forall event_wf es ->
  let w0 := powerUp ps a wr in let w := run es w0 in let w' := after w rd in op_wf (OpProcess rd) -> c_silent cfg = true -> w_st w = STARTUP -> w_nick w = 255 ->
  taken (effects w w') = [m] -> quarterOf m = Some q ->
  let l := guidTrace (es ++ [EOp (OpProcess rd)]) w0 in
  guidDrop span l /\ effects w w' = [OProcess; ORx m; OLamp LampBlinkFast; OPs (fieldBase cfg FNick) 255; ORet true] /\ same w' (set_ps (fupd (w_ps w) (fieldBase cfg FNick) 255) (discovering (finished w))) \/
  ~ guidDrop span l /\ effects w w' = [OProcess; ORx m; ORet true] /\ exists g, same w' (listened w q g).
Proof.
  intros HT HP HE w0 w w' HO SL ST NK TK QM l. assert (HJ : J (guidTrace es w0) w) by exact (J_power es ps a wr HT HP HE).
  assert (HR : reachable w). { unfold w, w0. exists ps. exists a, wr, es. auto. } assert (HA := reach_apart w VE HR HT).
  assert (EL : l = guidTrace es w0 ++ guidEvents w (EOp (OpProcess rd))).
  { unfold l. rewrite trace_app. fold w. cbn [guidTrace]. rewrite app_nil_r. reflexivity. }
  unfold w' in *. clear w'. clearbody l w w0. rewrite events_process in EL.
  assert (HM : received rd w = Some m) by (apply received_taken, TK). rewrite HM in EL. assert (WF := received_wf VE rd w m HR HO HM).
  assert (EV : evOf w m = [GQuarter q (guidMatch w m q)]) by (unfold evOf, attends, guidOf; rewrite ST, QM, SL, NK; reflexivity).
  rewrite EV in EL. unfold after, step. rewrite snd_then. rewrite (process_state rd w). cbv zeta. cbn [snd]. rewrite HM.
  assert (S0 := prologue_same rd w). assert (PA := apart_prologue rd w HA). assert (PJ := J_prologue _ rd w HA HJ). destruct (prologue_rx rd w m HM) as [RX RV].
  assert (PO := prologue_out rd w). rewrite HM in PO. set (v := snd (prologue rd w)) in *. clearbody v.
  assert (VS : w_st v = STARTUP) by (rewrite (same_st _ _ S0); exact ST). assert (VN : w_nick v = 255) by (rewrite (same_nick _ _ S0); exact NK).
  assert (GM : guidMatch v m q = guidMatch w m q). { apply guidMatch_same; [apply (quarter_inv m q QM WF)|]. intros k _. apply same_guid, S0. }
  destruct (quarter_inv m q QM WF) as (MC & MT & Q4 & _).
  assert (DI : dispatch v = (false, snd (handleGuidDrop v))).
  { unfold dispatch. rewrite bind_get, VS. unfold stateStartup. rewrite bind_assoc, bind_get, VN. change (255 =? NICK_NOT_INIT) with true. cbv iota. rewrite SL, bind_assoc, !bind_get, RV, RX, MC, MT. cbn [andb]. change ((0 =? CLASS_PROTOCOL) && (23 =? PT_RESET_DEVICE)) with true. cbv iota. unfold bind. destruct (handleGuidDrop v) as [[] u]. reflexivity. }
  rewrite DI. cbn [snd]. pose proof (guid_frame _ v m q PA PJ RX WF QM) as GF. cbv zeta in GF. rewrite GM, <- EL in GF.
  assert (TG : w_tGuid w = 1) by apply HA.
  assert (EF : forall u k, w_out u = k ++ w_out v -> effects w (set_out (ORet true :: w_out u) (set_rxv false u)) = [OProcess; ORx m] ++ rev k ++ [ORet true]).
  { intros u k HU. rewrite (effects_app w _ (ORet true :: k ++ [ORx m; OProcess])); [cbn [rev]; rewrite rev_app_distr; cbn [rev app]; reflexivity|]. wsimp. rewrite HU, PO. cbn [app]. rewrite <- app_assoc. reflexivity. }
  assert (SS : forall u u' : World A, same u u' -> same (set_out (ORet true :: w_out u) (set_rxv false u)) u') by (intros u u' H; apply (same_trans _ u); [apply same_quick; reflexivity|exact H]).
  destruct GF as [(GD & Q3 & _ & ->)|(GD & u & -> & _ & _ & _ & g & ->)].
  - left. split; [exact GD|]. set (u := disarmed _). assert (SU : u = set_guidSt 0 (set_tm (timerStop (w_tm v) 1) v)).
    { unfold u, disarmed, noted, begun. rewrite Q3. change (3 =? 0) with false. cbv iota. destruct (guidMatch w m 3); [destruct v; reflexivity|reflexivity]. }
    rewrite SU. clear u SU. set (u := set_guidSt 0 _). assert (SU : same u (finished w)) by (unfold u, finished; rewrite TG; apply set_same, S0).
    assert (US : w_st u = STARTUP) by exact VS. assert (UO : w_out u = w_out v) by reflexivity. clearbody u.
    assert (DE : snd (dropping u) = set_out (OPs (ps_nick cfg) 255 :: OLamp LampBlinkFast :: w_out u) (set_ps (fupd (w_ps u) (ps_nick cfg) 255) (discovering u))).
    { unfold dropping, startNodeSegmentInit, changeToStateInit. rewrite bind_get, US, SL. change (true && state_eqb STARTUP STARTUP) with true. cbv iota. rewrite !bind_get, US. change (negb (state_eqb STARTUP INIT)) with true. cbv iota.
      rewrite bind_get, US. change (negb (state_eqb STARTUP INIT)) with true. cbv iota. rewrite bind_emit, bind_upd. cbn [negb]. rewrite bind_assoc, !bind_upd. rewrite writeNick_state by reflexivity. destruct u; reflexivity. }
    rewrite DE. split.
    + rewrite (EF _ [OPs (ps_nick cfg) 255; OLamp LampBlinkFast]); [reflexivity|]. wsimp. rewrite UO. reflexivity.
    + apply SS. change (fieldBase cfg FNick) with (ps_nick cfg). replace (w_ps w) with (w_ps u) by (transitivity (w_ps (finished w)); [apply (same_ps _ _ SU)|reflexivity]). unfold discovering. samet SU.
  - right. split; [exact GD|]. cbn [snd]. split; [rewrite (EF _ []); reflexivity|]. exists g. apply SS. unfold listened, armed. rewrite TG. unfold timerStart. destruct (q =? 0) eqn:QZ.
    + apply set_same, S0.
    + replace (set_tm (w_tm v) v) with v by (destruct v; reflexivity). apply setg_same, S0.
Qed.
End B.
