(* Proof_Epoch.v - the time since epoch *)
From Verif Require Export Proof_Heartbeat Proof_Proto.

Section B.
Context {A : Type} {E : Env A}.
Implicit Types w : World A.
Hypothesis VE : valid_env E.

Lemma timeSet_app l1 l2 t : timeSet (l1 ++ l2) t = timeSet l2 (timeSet l1 t). Proof. apply fold_left_app. Qed.
Definition RE w w' : Prop := exists l, w_out w' = l ++ w_out w /\ w_epoch w' = timeSet (rev l) (w_epoch w) /\ w_rx w' = w_rx w.
Lemma RE_refl w : RE w w. Proof. exists []. auto. Qed.
Lemma RE_trans (a b c : World A) : RE a b -> RE b c -> RE a c.
Proof. intros (l1 & O1 & H1 & X1) (l2 & O2 & H2 & X2). exists (l2 ++ l1). rewrite O2, O1, app_assoc. split; [reflexivity|]. rewrite rev_app_distr, timeSet_app, <- H1. split; [exact H2|congruence]. Qed.
Definition notSet (o : Obs) : bool := match o with OApi (ASetTime _) => false | _ => true end.
Lemma RE_emit o : notSet o = true -> rel RE (@emit A o).
Proof. intros H w. exists [o]. split; [reflexivity|]. split; [|reflexivity]. destruct o; try reflexivity. destruct c; try reflexivity; discriminate H. Qed.
Lemma RE_tx m : rel RE (tp_writeMessage m).
Proof. intros w. destruct (tx_any m w) as (o & O & HO & (_ & _ & K1 & K2)). exists [o]. split; [exact HO|]. split; [|exact K1]. rewrite K2. destruct O as [->|[ok ->]]; reflexivity. Qed.
Lemma RE_parts : (forall w, m_type (w_rx w) <> 1 -> RE w (snd (handleProtocolClassType w))) /\ (forall c, rel RE (@doApi A E c)) /\
  rel RE (@activeHeartbeat A E) /\ rel RE (@extendedPageRead A E) /\ rel RE (@stateInit A E) /\ rel RE (@statePreActive A E) /\ rel RE (@stateStartup A E) /\ rel RE (@stateReset A) /\
  (forall m, rel RE (@provideEvent A E m)) /\ (forall m, rel RE (@provideProtocolEvent A E m)) /\ (forall m, rel RE (dm_executeActions actionExecute m)) /\ (forall m, rel RE (ng_executeActions actionExecute m)) /\
  (forall d0, rel RE (ps_writeCRC d0 ;; pr <- get w_probe ;; when negb (pr =? NICK_SEGMENT_MASTER) do changeToStateInit true)).
Proof.
  set (R := RE). assert (Rrefl : forall w, R w w) by exact RE_refl. assert (Rtrans : forall a b c, R a b -> R b c -> R a c) by exact RE_trans.
  assert (S : forall w w', w_out w' = w_out w -> w_epoch w' = w_epoch w -> w_rx w' = w_rx w -> R w w') by (intros w w' H1 H2 H3; exists []; auto).
  assert (X_e : forall o, notSet o = true -> rel R (@emit A o)) by exact RE_emit.
  assert (s_tx : forall m, rel R (tp_writeMessage m)) by exact RE_tx.
  assert (s_std : forall cls ty prio nick d, stdFrame cls ty prio = true -> cls <> CLASS_INFORMATION -> rel R (tp_writeMessage (mkTx cls ty prio nick d))) by (intros; apply s_tx).
  assert (s_set : forall t, rel R (doApi (ASetTime t))).
  { intros t w. exists [OApi (ASetTime t)]. split; [reflexivity|]. split; reflexivity. }
  clearbody R.
  Ltac le S X_e := intros; try (unfold setUB, setNgUB, timer_start, timer_stop); first [apply X_e; reflexivity | apply X_e; match goal with H : plainObs ?o = true |- _ => destruct o; try reflexivity; try discriminate H end | apply rel_upd; intros; apply S; reflexivity | apply S; reflexivity].
  assert (s_api : forall c, rel R (doApi c)).
  { intros c. assert (o_psW : forall a v, rel R (psWrite8 a v)) by (intros; unfold psWrite8; rel_tac; le S X_e).
    assert (o_nick : forall v, rel R (writeNicknameId v)) by (intros; apply tr_writeNicknameId; tr_fill ltac:(le S X_e)).
    assert (o_ub : rel R setUB) by (le S X_e). assert (o_ngub : rel R setNgUB) by (le S X_e). assert (o_app : forall v w, R w (set_app v w)) by (le S X_e).
    assert (o_restore : rel R restoreFactory) by (apply tr_restoreFactory; tr_fill ltac:(le S X_e)).
    destruct c; try (apply s_set); unfold doApi; (apply rel_bind; [exact Rtrans|apply X_e; reflexivity|intros _]).
    all: unfold setAlarm, setTimeSinceEpoch, enableHeartbeat, log_enable, log_setLevel, ps_writeLogId, ps_writeZone, ps_writeSub, tp_getTransmitErrors, startNodeSegmentInit, changeToStateInit.
    all: try (rel_tac; le S X_e).
    apply rel_if; [|apply rel_ret; exact Rrefl]. apply ts_log_log; tr_fill ltac:(le S X_e). }
  assert (s_cu : rel R (emit OHeartbeatCustom)) by (apply X_e; reflexivity).
  tr_own R ltac:(le S X_e).
  assert (s_nno : rel R handleNewNodeOnline) by (apply ts_handleNewNodeOnline; tr_fill ltac:(le S X_e)).
  assert (s_pa : rel R handleProbeAck) by (apply ts_handleProbeAck; tr_fill ltac:(le S X_e)).
  assert (s_hrr : rel R handleReadRegister) by (apply ts_handleReadRegister; tr_fill ltac:(le S X_e)).
  assert (s_hwr : rel R handleWriteRegister) by (apply ts_handleWriteRegister; tr_fill ltac:(le S X_e)).
  assert (s_ebl : rel R handleEnterBootLoader) by (apply ts_handleEnterBootLoader; tr_fill ltac:(le S X_e)).
  assert (s_id : forall d, rel R (handleIncDec d)) by (intros; apply ts_handleIncDec; tr_fill ltac:(le S X_e)).
  assert (s_gmi : rel R handleGetMatrixInfo) by (apply ts_handleGetMatrixInfo; tr_fill ltac:(le S X_e)).
  assert (s_pe : forall m, rel R (provideEvent m)) by (intros; unfold provideEvent; rel_tac; le S X_e).
  assert (s_ppe : forall m, rel R (provideProtocolEvent m)) by (intros; unfold provideProtocolEvent; rel_tac; le S X_e).
  assert (s_nhb : rel R sendNodeHeartbeat) by (apply tr_sendNodeHeartbeat; tr_fill ltac:(le S X_e)).
  assert (s_chb : rel R customHeartbeat) by (unfold customHeartbeat; rel_tac; le S X_e).
  assert (s_ah : rel R activeHeartbeat) by (unfold activeHeartbeat, timer_running; rel_tac).
  split. { intros w NT. unfold handleProtocolClassType. rewrite bind_get. replace (m_type (w_rx w) =? PT_SEGCTRL_HEARTBEAT) with false by (unfold PT_SEGCTRL_HEARTBEAT; lia).
    generalize (m_type (w_rx w)). intros t. revert w NT. match goal with |- forall w, _ -> R w (snd (?m w)) => assert (Z : rel R m) by rel_tac; intros; apply Z end. }
  split; [exact s_api|]. split; [exact s_ah|]. split; [assumption|].
  split; [unfold stateInit, timer_running, rxIsProt; rel_tac; le S X_e|]. split; [unfold statePreActive, timer_running, rxIsProt, rxd; rel_tac; le S X_e|].
  split. { assert (o_cu : rel R getStartUpControl) by (apply tr_startUp; tr_fill ltac:(le S X_e)); unfold stateStartup; rel_tac; le S X_e. }
  split; [unfold stateReset, timer_running; rel_tac; le S X_e|].
  split; [exact s_pe|]. split; [exact s_ppe|].
  split; [intros; apply ts_dm; tr_fill ltac:(le S X_e)|]. split; [intros; apply ts_ng; tr_fill ltac:(le S X_e)|].
  intros d0. unfold ps_writeCRC. rel_tac.
Qed.

(* ---- the one second timer ---- *)
Definition sec1 (s : N) (o : Obs) : N := match o with OInit => 1000 | OTick p => s - p | OProcess => if s =? 0 then 1000 else s | _ => s end.
Definition still (o : Obs) : bool := match o with OInit | OTick _ | OProcess => false | _ => true end.
Definition QS w w' : Prop := exists l, w_out w' = l ++ w_out w /\ (forall x, fold_left sec1 (rev l) x = x) /\ tv 3 w' = tv 3 w.
Lemma QS_refl w : QS w w. Proof. exists []. auto. Qed.
Lemma QS_trans (a b c : World A) : QS a b -> QS b c -> QS a c.
Proof. intros (l1 & O1 & H1 & T1) (l2 & O2 & H2 & T2). exists (l2 ++ l1). rewrite O2, O1, app_assoc. split; [reflexivity|]. split; [|congruence]. intros x. rewrite rev_app_distr, fold_left_app, H1. apply H2. Qed.
Definition RS := RT QS.
Lemma RS_parts : rel RS (@dispatch A E) /\ (forall c, rel RS (@doApi A E c)) /\ rel RS (initTail true).
Proof.
  set (R := RS). assert (Rrefl : forall w, R w w) by (apply RT_refl, QS_refl). assert (Rtrans : forall a b c, R a b -> R b c -> R a c) by (apply RT_trans; intros a b c _ _ _; apply QS_trans).
  assert (S : forall w w', w_tSt w' = w_tSt w -> w_tGuid w' = w_tGuid w -> w_t162 w' = w_t162 w -> w_tEp w' = w_tEp w -> w_tHb w' = w_tHb w -> w_tm w' = w_tm w ->
    w_out w' = w_out w -> R w w').
  { intros w w' H1 H2 H3 H4 H5 H6 H7. apply RT_same; try assumption. exists []. unfold tv. rewrite H6. auto. }
  assert (X_e : forall o, still o = true -> rel R (@emit A o)).
  { intros o H w. apply RT_same; try reflexivity. exists [o]. split; [reflexivity|]. split; [|reflexivity]. intros x. destruct o; try reflexivity; discriminate H. }
  assert (s_tx : forall m, rel R (tp_writeMessage m)).
  { intros m w HA. destruct (tx_any m w) as (o & O & HO & K). split; [apply (keeps_apart w _ K HA)|]. exists [o]. split; [exact HO|]. destruct K as (_ & K & _). unfold tv. rewrite K. split; [|reflexivity].
    intros x. destruct O as [->|[ok ->]]; reflexivity. }
  assert (H_t : forall i v, i <> 3 -> rel R (@timer_start A i v)).
  { intros i v N4 w HA. unfold timer_start, upd. cbn [snd]. split; [apply apart_ts, HA|]. exists []. split; [reflexivity|]. split; [reflexivity|]. unfold timerStart. rewrite tv_set. destruct (Nat.eqb_spec 3 (N.to_nat i)); [lia|reflexivity]. }
  assert (H_p : forall i, i <> 3 -> rel R (@timer_stop A i)).
  { intros i N4 w HA. unfold timer_stop, upd. cbn [snd]. split; [apply apart_tp, HA|]. exists []. split; [reflexivity|]. split; [reflexivity|]. unfold timerStop. rewrite tv_set. destruct (Nat.eqb_spec 3 (N.to_nat i)); [lia|reflexivity]. }
  assert (s_st : forall T (k : N -> M A T), rel R (k 0) -> rel R (bind (get w_tSt) k)) by (intros; apply RT_st; assumption).
  assert (s_g : forall T (k : N -> M A T), rel R (k 1) -> rel R (bind (get w_tGuid) k)) by (intros; apply RT_guid; assumption).
  assert (s_1 : forall T (k : N -> M A T), rel R (k 2) -> rel R (bind (get w_t162) k)) by (intros; apply RT_162; assumption).
  assert (s_h : c_hb_node cfg = true -> forall T (k : N -> M A T), rel R (k 4) -> rel R (bind (get w_tHb) k)) by (intros; apply RT_hb; assumption).
  clearbody R.
  Ltac ls S X_e H_t H_p := intros; try (unfold setUB, setNgUB); first [apply H_t; discriminate | apply H_p; discriminate | apply X_e; reflexivity | apply X_e; match goal with H : plainObs ?o = true |- _ => destruct o; try reflexivity; try discriminate H end | apply rel_upd; intros; apply S; reflexivity | apply S; reflexivity].
  assert (s_std : forall cls ty prio nick d, stdFrame cls ty prio = true -> cls <> CLASS_INFORMATION -> rel R (tp_writeMessage (mkTx cls ty prio nick d))) by (intros; apply s_tx).
  assert (s_psW : forall a v, rel R (psWrite8 a v)) by (intros; unfold psWrite8; rel_tac; ls S X_e H_t H_p).
  assert (s_nick : forall v, rel R (writeNicknameId v)) by (intros; apply tr_writeNicknameId; tr_fill ltac:(ls S X_e H_t H_p)).
  assert (s_ub : rel R setUB) by (ls S X_e H_t H_p). assert (s_ngub : rel R setNgUB) by (ls S X_e H_t H_p). assert (s_app : forall v w, R w (set_app v w)) by (ls S X_e H_t H_p).
  assert (s_restore : rel R restoreFactory) by (apply tr_restoreFactory; tr_fill ltac:(ls S X_e H_t H_p)).
  assert (s_api : forall c, rel R (doApi c)).
  { intros c. destruct c; unfold doApi; (apply rel_bind; [exact Rtrans|apply X_e; reflexivity|intros _]).
    all: unfold setAlarm, setTimeSinceEpoch, enableHeartbeat, log_enable, log_setLevel, ps_writeLogId, ps_writeZone, ps_writeSub, tp_getTransmitErrors, startNodeSegmentInit, changeToStateInit.
    all: try (rel_tac; ls S X_e H_t H_p).
    apply rel_if; [|apply rel_ret; exact Rrefl]. apply ts_log_log; tr_fill ltac:(ls S X_e H_t H_p). }
  assert (s_nhb : rel R sendNodeHeartbeat) by (apply tr_sendNodeHeartbeat; tr_fill ltac:(ls S X_e H_t H_p)).
  assert (s_chb : rel R customHeartbeat) by (unfold customHeartbeat; rel_tac; ls S X_e H_t H_p).
  assert (s_ah : rel R activeHeartbeat).
  { unfold activeHeartbeat, timer_running. destruct (c_hb_node cfg); [|apply rel_ret; exact Rrefl]. pose proof (s_h eq_refl) as s_hh. tmq s_st s_g s_1 s_hh; ls S X_e H_t H_p. }
  assert (s_act : rel R changeToStateActive).
  { unfold changeToStateActive. unfold sendProt. destruct (c_hb_node cfg).
    - pose proof (s_h eq_refl) as s_hh. tmq s_st s_g s_1 s_hh; ls S X_e H_t H_p.
    - tmq s_st s_g s_1 s_1; ls S X_e H_t H_p. }
  tr_ownG R ltac:(ls S X_e H_t H_p) ltac:(tmq s_st s_g s_1 s_1). tr_ownTopG R ltac:(ls S X_e H_t H_p) ltac:(tmq s_st s_g s_1 s_1).
  split; [assumption|]. split; [assumption|]. unfold initTail. assert (o_cu : rel R getStartUpControl) by (apply tr_startUp; tr_fill ltac:(ls S X_e H_t H_p)). rel_tac.
Qed.

(* ---- the second ---- *)
Definition tick1 w : N := if tv 3 w =? 0 then (w_epoch w + 1) mod 2 ^ 32 else w_epoch w.
Lemma prologue_epoch rd w : apart w -> w_epoch (snd (prologue rd w)) = tick1 w /\ tv 3 (snd (prologue rd w)) = if tv 3 w =? 0 then 1000 else tv 3 w.
Proof.
  intros HA. set (w1 := set_out (OProcess :: w_out w) w).
  set (w3 := snd (runLogger (snd (takeMessage (fst (tp_readMessage rd w1)) (snd (tp_readMessage rd w1)))))).
  assert (HP : snd (prologue rd w) = snd (runEpoch w3)) by reflexivity. rewrite HP.
  assert (G : forall (T : Type) (f : World A -> T), (forall v w, f (set_out v w) = f w) -> (forall v w, f (set_rx v w) = f w) -> (forall v w, f (set_rxv v w) = f w) ->
    (forall v w, f (set_loop v w) = f w) -> (forall v w, f (set_ub v w) = f w) -> (forall v w, f (set_logEn v w) = f w) -> (forall v w, f (set_logLvl v w) = f w) -> f w3 = f w).
  { intros T f H1 H2 H3 H4 H5 H6 H7. unfold w3. rewrite (logger_pres f), takeMessage_state by assumption. destruct (fst (tp_readMessage rd w1)); rewrite ?H1, ?H3, ?H2, (read_pres f) by assumption; apply H1. }
  assert (H1 : w_tm w3 = w_tm w) by (apply G; reflexivity). assert (H2 : w_tEp w3 = w_tEp w) by (apply G; reflexivity). assert (H3 : w_epoch w3 = w_epoch w) by (apply G; reflexivity).
  assert (HA3 : apart w3) by (apply (apart_same w); try (apply G; reflexivity); [rewrite H1; reflexivity|exact HA]).
  assert (T3 : tv 3 w3 = tv 3 w) by (unfold tv; rewrite H1; reflexivity). clear HP. clearbody w3. clear w1 G.
  assert (X : w_tEp w = 3) by apply HA. unfold runEpoch, timer_running, timer_start. rewrite bind_get, bind_get, H2, X. change (3 =? TIMER_ID_INVALID) with false. cbn [negb andb].
  assert (RU : timerRunning (w_tm w3) 3 = (0 <? tv 3 w)) by (rewrite <- T3; exact (timer_running_tv 3 w3)). rewrite !RU. unfold tick1. replace (negb (0 <? tv 3 w)) with (tv 3 w =? 0) by lia. destruct (tv 3 w =? 0); [|split; [exact H3|exact T3]].
  rewrite bind_upd. unfold upd. cbn [snd]. wsimp. split; [unfold u32; rewrite H3; reflexivity|].
  set (w4 := set_epoch _ w3). assert (HA4 : apart w4) by (apply (apart_same w3); try reflexivity; exact HA3).
  change (tv 3 (set_tm (timerStart (w_tm w4) 3 1000) w4) = 1000). rewrite (tv_start 3 3 1000 w4 HA4); [reflexivity| |lia]. unfold timersNeeded. destruct (c_hb_node cfg); lia.
Qed.

(* ---- the time of a segment controller ---- *)
Definition RC w w' : Prop := exists l, w_out w' = l ++ w_out w /\ forall c, ~ In (OApi c) l.
Lemma crc_quiet d0 : rel RC (ps_writeCRC d0 ;; pr <- get (@w_probe A) ;; when negb (pr =? NICK_SEGMENT_MASTER) do changeToStateInit true).
Proof.
  assert (Rrefl : forall w, RC w w) by (intros w; exists []; auto).
  assert (Rtrans : forall a b c : World A, RC a b -> RC b c -> RC a c).
  { intros a b c (l1 & O1 & H1) (l2 & O2 & H2). exists (l2 ++ l1). rewrite O2, O1, app_assoc. split; [reflexivity|]. intros x H. apply in_app_or in H. destruct H as [H|H]; [exact (H2 _ H)|exact (H1 _ H)]. }
  assert (S : forall w w', w_out w' = w_out w -> RC w w') by (intros w w' H; exists []; auto).
  assert (X_e : forall o, (forall c, o <> OApi c) -> rel RC (@emit A o)).
  { intros o H w. exists [o]. split; [reflexivity|]. intros c [X|[]]. exact (H c X). }
  unfold ps_writeCRC, psWrite8, changeToStateInit. rel_tac; first [apply X_e; discriminate | apply rel_upd; intros; apply S; reflexivity | apply S; reflexivity].
Qed.
Definition told w (t : N) w' : Prop := exists u v, RE w u /\ RC w u /\ w_out v = (if c_time_co cfg then [OTime t] else []) ++ w_out u /\ w_epoch v = t /\ w_rx v = w_rx u /\ RE v w'.
Lemma hpct_epoch w m : w_rx w = m -> msg_wf m ->
  match (if c_hb_seg cfg && (m_type m =? 1) then heartbeatTime (payload m) else None) with
  | None => RE w (snd (handleProtocolClassType w))
  | Some t => told w t (snd (handleProtocolClassType w))
  end.
Proof.
  intros RX WF. destruct RE_parts as (P1 & _ & _ & _ & _ & _ & _ & _ & _ & _ & _ & _ & P13).
  destruct (m_type m =? 1) eqn:T1; [|rewrite andb_false_r; apply P1; rewrite RX; lia]. assert (T1' : m_type m = 1) by lia. clear T1. rewrite andb_true_r.
  destruct (c_hb_seg cfg) eqn:HS; [|rewrite hpct_1 by (rewrite RX; exact T1'); rewrite HS; apply RE_refl].
  destruct (payload_at m _ WF eq_refl) as [SZ AT]. destruct (payload m) as [|crc rest] eqn:HP.
  { cbn [heartbeatTime]. rewrite hpct_1 by (rewrite RX; exact T1'). rewrite HS. unfold handleHeartbeat, rxSize. rewrite bind_get, RX, SZ. cbn [length]. apply RE_refl. }
  assert (A0 : at0 (m_data m) 0 = crc) by (rewrite AT by (cbn [length]; lia); reflexivity).
  rewrite (hb_split w m crc rest RX T1' HS SZ A0).
  set (u := snd ((when negb (stored w FCrc 0 =? crc) do _) w)).
  assert (U : RE w u /\ RC w u).
  { unfold u. destruct (negb (stored w FCrc 0 =? crc)); [split; [apply P13|apply crc_quiet]|]. split; [apply RE_refl|]. exists []. auto. }
  destruct U as [U1 U2]. clearbody u. assert (RU : w_rx u = m) by (destruct U1 as (_ & _ & _ & X); congruence).
  destruct (heartbeatTime (crc :: rest)) as [t|] eqn:HT.
  2:{ unfold timePart. replace (5 <=? N.of_nat (length (crc :: rest))) with false; [exact U1|]. unfold heartbeatTime in HT. destruct rest as [|a [|b [|c [|d rest]]]]; try discriminate HT; reflexivity. }
  exists u. unfold heartbeatTime in HT. destruct rest as [|a [|b [|c [|d rest]]]]; try discriminate HT.
  assert (AT' : forall i x, nth_error (crc :: a :: b :: c :: d :: rest) i = Some x -> at0 (m_data m) (N.of_nat i) = x).
  { intros i x HX. rewrite AT, Nat2N.id; [apply nth_error_nth; exact HX|]. assert (i < length (crc :: a :: b :: c :: d :: rest))%nat by (apply nth_error_Some; rewrite HX; discriminate). lia. }
  assert (HB : forall i x, nth_error (crc :: a :: b :: c :: d :: rest) i = Some x -> x < 256) by (intros i x HX; apply (payload_byte m); [exact WF|rewrite HP; apply (nth_error_In _ i); exact HX]).
  unfold timePart. cbn [length]. replace (5 <=? _) with true by lia. unfold rxd. rewrite !bind_get, RU.
  change 1 with (N.of_nat 1) at 1. change 2 with (N.of_nat 2) at 1. change 3 with (N.of_nat 3) at 1. change 4 with (N.of_nat 4) at 1.
  rewrite (AT' 1%nat a eq_refl), (AT' 2%nat b eq_refl), (AT' 3%nat c eq_refl), (AT' 4%nat d eq_refl).
  rewrite be4 by first [exact (HB 1%nat _ eq_refl)|exact (HB 2%nat _ eq_refl)|exact (HB 3%nat _ eq_refl)|exact (HB 4%nat _ eq_refl)].
  rewrite bind_upd. match type of HT with Some ?x = _ => assert (X : x = t) by congruence end. rewrite X. clear X HT.
  exists (snd ((when c_time_co cfg do (t <- get w_epoch ;; emit (OTime t))) (set_epoch t u))). split; [exact U1|]. split; [exact U2|].
  destruct (c_time_co cfg); (split; [reflexivity|]; split; [reflexivity|]; split; [first [exact RU | reflexivity]|apply RE_refl]).
Qed.
Lemma RE_then w t w1 w2 : told w t w1 -> RE w1 w2 -> told w t w2.
Proof. intros (u & v & H1 & H2 & H3 & H4 & H5 & H6) R. exists u, v. repeat split; try assumption. apply (RE_trans _ w1); assumption. Qed.
(* like told, but the application may have had a say before *)
Definition told' w (t : N) w' : Prop := exists u0, RE w u0 /\ (c_prot_ev cfg = false -> u0 = w) /\ told u0 t w'.
Lemma RE_then' w t w1 w2 : told' w t w1 -> RE w1 w2 -> told' w t w2.
Proof. intros (u0 & H1 & H2 & H3) R. exists u0. repeat split; try assumption. apply (RE_then _ _ w1); assumption. Qed.
Definition toldTime w m : option N := if c_hb_seg cfg && (m_class m =? 0) && (m_type m =? 1) && negb (claimed w m) then heartbeatTime (payload m) else None.
Lemma am_epoch w m : w_rxv w = true -> w_rx w = m -> msg_wf m ->
  match toldTime w m with None => RE w (snd (activeMessage w)) | Some t => told' w t (snd (activeMessage w)) end.
Proof.
  intros RV RX WF. destruct RE_parts as (_ & _ & _ & _ & _ & _ & _ & _ & P9 & P10 & P11 & P12 & _). unfold activeMessage. rewrite bind_get, RV, bind_get, RX.
  match goal with |- context [bind ?q (fun _ => bind (when c_dm cfg do _) _)] => set (q0 := q) end. rewrite snd_bind.
  assert (R2 : forall v, RE v (snd ((bind (when c_dm cfg do dm_executeActions actionExecute m) (fun _ => bind (when c_dm_ng cfg do ng_executeActions actionExecute m) (fun _ => ret true))) v))).
  { intros v. revert v. match goal with |- forall v, RE v (snd (?m v)) => change (rel RE m) end. apply rel_bind; [exact RE_trans|destruct (c_dm cfg); [apply P11|apply rel_ret, RE_refl]|intros _]. apply rel_bind; [exact RE_trans|destruct (c_dm_ng cfg); [apply P12|apply rel_ret, RE_refl]|intros _; apply rel_ret, RE_refl]. }
  assert (Q : match toldTime w m with None => RE w (snd (q0 w)) | Some t => told' w t (snd (q0 w)) end).
  2:{ destruct (toldTime w m); [apply (RE_then' _ _ _ _ Q), R2|apply (RE_trans _ _ _ Q), R2]. }
  unfold q0, toldTime. clear q0 R2. change (m_class m =? CLASS_PROTOCOL) with (m_class m =? 0). destruct (m_class m =? 0); [|rewrite andb_false_r; apply P9]. rewrite andb_true_r.
  unfold claimed. destruct (c_prot_ev cfg) eqn:PE; cbn [andb negb].
  - rewrite snd_bind. assert (F : fst (provideProtocolEvent m w) = fst (fst (app_prot (w_app w, w_ps w) m))) by reflexivity. rewrite F.
    assert (U : RE w (snd (provideProtocolEvent m w))) by apply P10. set (u := snd (provideProtocolEvent m w)) in *. clearbody u.
    destruct (fst (fst (app_prot (w_app w, w_ps w) m))); cbn [negb]; [rewrite andb_false_r; exact U|]. rewrite andb_true_r.
    assert (RU : w_rx u = m) by (destruct U as (_ & _ & _ & X); congruence). pose proof (hpct_epoch u m RU WF) as H.
    destruct (if c_hb_seg cfg && (m_type m =? 1) then heartbeatTime (payload m) else None) as [t|]; [|apply (RE_trans _ u); assumption].
    exists u. split; [exact U|]. split; [intros X; congruence|exact H].
  - rewrite andb_true_r. pose proof (hpct_epoch w m RX WF) as H. destruct (if c_hb_seg cfg && (m_type m =? 1) then heartbeatTime (payload m) else None) as [t|]; [|exact H].
    exists w. split; [apply RE_refl|]. split; [reflexivity|exact H].
Qed.
Lemma epoch_process rd w : apart w -> (forall m, received rd w = Some m -> msg_wf m) ->
  match newTime w (match received rd w with Some m => [m] | None => [] end) with
  | None => w_epoch (after w rd) = timeSet (effects w (after w rd)) (tick1 w)
  | Some t => exists l1 l2, effects w (after w rd) = l1 ++ (if c_time_co cfg then [OTime t] else []) ++ l2 /\ w_epoch (after w rd) = timeSet l2 t /\
      (c_prot_ev cfg = false -> forall c, ~ In (OApi c) l1)
  end.
Proof.
  intros HA WF. destruct (epilogue_history rd w) as (b & EQ). cbv zeta in EQ. rewrite EQ. clear EQ.
  destruct (prologue_epoch rd w HA) as [E1 _]. assert (O1 := prologue_out rd w). assert (S1 : w_st (snd (prologue rd w)) = w_st w) by (apply pres_prologue; reflexivity).
  assert (A1 : w_app (snd (prologue rd w)) = w_app w) by (apply pres_prologue; reflexivity).
  assert (Q1 : w_ps (snd (prologue rd w)) = w_ps w) by (apply pres_prologue; reflexivity).
  assert (X1 : forall m, received rd w = Some m -> w_rx (snd (prologue rd w)) = m /\ w_rxv (snd (prologue rd w)) = true) by (intros m; apply prologue_rx).
  assert (X2 : received rd w = None -> w_rxv (snd (prologue rd w)) = false) by (intros H; apply (prologue_norx rd w H)).
  set (w1 := snd (prologue rd w)) in *. clearbody w1.
  set (t0 := newTime w (match received rd w with Some m => [m] | None => [] end)).
  assert (D : match t0 with None => RE w1 (snd (dispatch w1)) | Some t => told' w1 t (snd (dispatch w1)) end).
  { destruct RE_parts as (_ & _ & P3 & P4 & P5 & P6 & P7 & P8 & _). unfold dispatch. rewrite bind_get, S1. unfold t0, newTime, isActive.
    assert (TH : forall m : M A unit, rel RE m -> RE w1 (snd ((m ;; ret false) w1))) by (intros m HM; apply HM).
    destruct (w_st w) eqn:SA; cbn [andb state_eqb].
    all: try (replace (match (match received rd w with Some m => [m] | None => [] end) with [m] => None | _ => @None N end) with (@None N) by (destruct (received rd w); reflexivity)).
    all: try (apply TH; assumption). all: try apply RE_refl.
    unfold stateActive. rewrite snd_bind, snd_bind.
    assert (R2 : forall (h : bool) v, RE v (snd ((count <- get w_xcount ;; (if 0 <? count then extendedPageRead ;; ret true else ret h)) v))).
    { intros h v. rewrite bind_get. destruct (0 <? w_xcount v); [apply P4|apply RE_refl]. }
    assert (R3 : forall (h : bool) v, RE v (snd ((count <- get w_xcount ;; (if 0 <? count then extendedPageRead ;; ret true else ret h)) (snd (activeHeartbeat v))))).
    { intros h v. apply (RE_trans _ (snd (activeHeartbeat v))); [apply P3|apply R2]. }
    destruct (received rd w) as [m|].
    - destruct (X1 m eq_refl) as [RX RV]. pose proof (am_epoch w1 m RV RX (WF m eq_refl)) as H. unfold toldTime, claimed in H. rewrite A1, Q1 in H. fold (claimed w m) in H.
      match type of H with match ?x with _ => _ end => destruct x as [t|] end; [apply (RE_then' _ _ _ _ H), R3|apply (RE_trans _ _ _ H), R3].
    - assert (AM : activeMessage w1 = (false, w1)) by (unfold activeMessage; rewrite bind_get, X2 by reflexivity; reflexivity). rewrite AM. cbn [snd]. apply R3. }
  clearbody t0. set (w2 := snd (dispatch w1)) in *. clearbody w2.
  set (p := match received rd w with Some m => [ORx m] | None => [] end) in *.
  assert (P : forall x, timeSet (rev (p ++ [OProcess])) x = x) by (intros x; unfold p; destruct (received rd w); reflexivity).
  assert (P2 : forall c, ~ In (OApi c) (p ++ [OProcess])) by (intros c; unfold p; destruct (received rd w); cbn; intuition discriminate).
  destruct t0 as [t|].
  - destruct D as (u0 & (l0 & O0 & _) & U0 & u & v & (l1 & O2 & _) & (l1' & O2' & N2) & O3 & E3 & _ & (l2 & O4 & E4 & _)).
    assert (L : l1' = l1) by (apply (app_inv_tail (w_out u0)); congruence). subst l1'.
    exists (rev (l1 ++ l0 ++ p ++ [OProcess])), (rev (ORet b :: l2)). split.
    { rewrite (effects_app w _ (ORet b :: l2 ++ (if c_time_co cfg then [OTime t] else []) ++ l1 ++ l0 ++ p ++ [OProcess])).
      - cbn [rev]. rewrite !rev_app_distr, !app_assoc. repeat f_equal. destruct (c_time_co cfg); reflexivity.
      - wsimp. rewrite O4, O3, O2, O0, O1. rewrite <- !app_comm_cons, <- !app_assoc. reflexivity. }
    split. { wsimp. rewrite E4, E3. cbn [rev]. rewrite timeSet_app. reflexivity. }
    intros NP c. rewrite <- in_rev. intros H. apply in_app_or in H. destruct H as [H|H]; [exact (N2 _ H)|]. apply in_app_or in H. destruct H as [H|H]; [|exact (P2 _ H)].
    specialize (U0 NP). subst u0. assert (l0 = []) by (apply (app_inv_tail (w_out w1)); rewrite <- O0; reflexivity). subst l0. destruct H.
  - destruct D as (l & O2 & E2 & _). rewrite (effects_app w _ (ORet b :: l ++ p ++ [OProcess])).
    + wsimp. cbn [rev]. rewrite rev_app_distr, !timeSet_app, P, <- E1. exact E2.
    + wsimp. rewrite O2, O1. rewrite <- !app_comm_cons, <- !app_assoc. reflexivity.
Qed.
Lemma secLeft_app l1 l2 : secLeft (l1 ++ l2) = fold_left sec1 l2 (secLeft l1). Proof. apply fold_left_app. Qed.
Lemma sec_init w : timersNeeded cfg <= c_timers cfg -> exists l, w_out (snd (core_init w)) = l ++ w_out w /\ forall x, fold_left sec1 (rev l) x = tv 3 (snd (core_init w)).
Proof.
  intros HT. rewrite core_init_eq. destruct (init_timers VE w HT) as (H1 & H2 & H3 & H4). rewrite H1. set (v := snd (initTimers (snd (initHead w)))) in *. clearbody v.
  destruct RS_parts as (_ & _ & P3). destruct (P3 v H2) as (_ & l & O & F & T). exists (l ++ [OLamp LampBlinkSlow; OInit]). split; [rewrite O, H3, <- app_assoc; reflexivity|].
  intros x. rewrite rev_app_distr, fold_left_app. cbn [rev app fold_left sec1]. rewrite F, T, H4. reflexivity.
Qed.
Lemma reach_sec w : timersNeeded cfg <= c_timers cfg -> reachable w -> secLeft (history w) = tv 3 w.
Proof.
  intros HT. revert w. apply reach_power.
  { intros ps a wr out ub ngub _. destruct (sec_init (boot ps a wr out ub ngub) HT) as (l & O & F). unfold history. rewrite O, rev_app_distr, secLeft_app. apply F. }
  intros o w WF HR K. assert (HA := reach_apart w VE HR HT). destruct RS_parts as (P1 & P2 & _). destruct o as [rd|p|c|].
  - destruct (epilogue_history rd w) as (b & EQ). cbv zeta in EQ. change (snd (step (OpProcess rd) w)) with (after w rd). rewrite EQ. clear EQ.
    destruct (prologue_epoch rd w HA) as [_ T1]. assert (O1 := prologue_out rd w). assert (HA1 := apart_prologue rd w HA). set (w1 := snd (prologue rd w)) in *. clearbody w1.
    destruct (P1 w1 HA1) as (_ & l & O & F & T). unfold history in *. wsimp. rewrite O, O1. change (rev (ORet b :: ?x)) with (rev x ++ [ORet b]). rewrite !secLeft_app. cbn [fold_left sec1].
    rewrite rev_app_distr, secLeft_app, F, rev_app_distr, secLeft_app. cbn [rev]. rewrite secLeft_app, K. cbn [fold_left sec1]. rewrite <- T1. change (tv 3 (set_out ?x (set_rxv ?y ?z))) with (tv 3 z). rewrite T. destruct (received rd w); reflexivity.
  - change (snd (step (OpTick p) w)) with (set_tm (timerProcess (w_tm w) p) (set_out (OTick p :: w_out w) w)).
    change (history (set_tm (timerProcess (w_tm w) p) (set_out (OTick p :: w_out w) w))) with (history w ++ [OTick p]). rewrite secLeft_app, K. cbn [fold_left sec1].
    symmetry. apply (tv_tick 3 p w HA); [unfold timersNeeded; destruct (c_hb_node cfg); lia|exact VE].
  - unfold step. destruct (P2 c w HA) as (_ & l & O & F & T). unfold history in *. rewrite O, rev_app_distr, secLeft_app, F, K. symmetry. exact T.
  - rewrite step_init. destruct (sec_init w HT) as (l & O & F). unfold history. rewrite O, rev_app_distr, secLeft_app. apply F.
Qed.
Definition RE0 w w' : Prop := exists l, w_out w' = l ++ w_out w /\ w_epoch w' = timeSet (rev l) (w_epoch w).
Lemma epoch_init : rel RE0 core_init.
Proof.
  set (R := RE0). assert (Rrefl : forall w, R w w) by (intros w; exists []; auto).
  assert (Rtrans : forall a b c, R a b -> R b c -> R a c).
  { intros a b c (l1 & O1 & H1) (l2 & O2 & H2). exists (l2 ++ l1). rewrite O2, O1, app_assoc. split; [reflexivity|]. rewrite rev_app_distr, timeSet_app, <- H1. exact H2. }
  assert (S : forall w w', w_out w' = w_out w -> w_epoch w' = w_epoch w -> R w w') by (intros w w' H1 H2; exists []; auto).
  assert (X_e : forall o, notSet o = true -> rel R (@emit A o)) by (intros o H w; destruct (RE_emit o H w) as (l & H1 & H2 & _); exists l; auto). clearbody R.
  assert (s_psW : forall a v, rel R (psWrite8 a v)) by (intros; unfold psWrite8; rel_tac; le S X_e).
  assert (s_ub : rel R setUB) by (le S X_e). assert (s_ngub : rel R setNgUB) by (le S X_e). assert (s_app : forall v w, R w (set_app v w)) by (le S X_e).
  assert (s_nick : forall v, rel R (writeNicknameId v)) by (intros; apply tr_writeNicknameId; tr_fill ltac:(le S X_e)).
  assert (s_res : rel R restoreFactory) by (apply tr_restoreFactory; tr_fill ltac:(le S X_e)).
  apply tr_core_init; tr_fill ltac:(le S X_e); unfold tp_init, dm_init, ps_readNicknameId, psRead8, changeToStateError; rel_tac; le S X_e.
Qed.
End B.
