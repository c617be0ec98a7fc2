(* Proof_Heartbeat.v - node heartbeats *)
From Verif Require Export Own Proof_TimersInit Spec_Timing.

Section B.
Context {A : Type} {E : Env A}.
Implicit Types w : World A.
Hypothesis VE : valid_env E.

Definition hbOf w n : HbState := mkHb (w_hbEn w) (tv 4 w) false n.
Definition QH w w' : Prop := exists l, w_out w' = l ++ w_out w /\ forall n, fold_left hbStep (rev l) (hbOf w n) = hbOf w' n.
Lemma QH_refl w : QH w w. Proof. exists []. auto. Qed.
Lemma QH_trans (a b c : World A) : QH a b -> QH b c -> QH a c.
Proof. intros (l1 & O1 & H1) (l2 & O2 & H2). exists (l2 ++ l1). rewrite O2, O1, app_assoc. split; [reflexivity|]. intros n. rewrite rev_app_distr, fold_left_app, H1. apply H2. Qed.
Lemma QH_same w w' : w_out w' = w_out w -> w_hbEn w' = w_hbEn w -> tv 4 w' = tv 4 w -> QH w w'.
Proof. intros H1 H2 H3. exists []. split; [exact H1|]. intros n. unfold hbOf. rewrite H2, H3. reflexivity. Qed.
(* observations without a meaning for the heartbeats *)
Definition hbIdle (o : Obs) : bool :=
  match o with OPower | OInit | OLamp LampOn | OTick _ | OApi (AHeartbeat _) | OApi (ASend _) | OHeartbeatCustom => false | OTx m _ => negb (isHeartbeat m) | _ => true end.
Lemma hbStep_idle o s : hbIdle o = true -> hb_byApp s = false -> hbStep s o = s.
Proof.
  destruct s as [en left by_ n]. cbn [hb_byApp]. intros H ->. destruct o; try reflexivity; try discriminate H; cbn [hbIdle hbStep] in *.
  - destruct c; try reflexivity; discriminate H.
  - destruct (isHeartbeat m); [discriminate H|reflexivity].
  - destruct l; try reflexivity; discriminate H.
Qed.
Definition RH := RT QH.
Ltac ids := first [reflexivity].
Section Leaves.
Lemma RH_refl w : RH w w. Proof. apply RT_refl, QH_refl. Qed.
Lemma RH_trans (a b c : World A) : RH a b -> RH b c -> RH a c. Proof. apply RT_trans. intros x y z _ _ _. apply QH_trans. Qed.
Lemma RH_same w w' : w_tSt w' = w_tSt w -> w_tGuid w' = w_tGuid w -> w_t162 w' = w_t162 w -> w_tEp w' = w_tEp w -> w_tHb w' = w_tHb w -> w_tm w' = w_tm w ->
  w_out w' = w_out w -> w_hbEn w' = w_hbEn w -> RH w w'.
Proof. intros H1 H2 H3 H4 H5 H6 H7 H8. apply RT_same; try assumption. apply QH_same; try assumption. unfold tv. rewrite H6. reflexivity. Qed.
Lemma RH_emit o : hbIdle o = true -> rel RH (@emit A o).
Proof.
  intros H w. apply RT_same; try reflexivity. exists [o]. split; [reflexivity|]. intros n. cbn [rev app fold_left]. rewrite hbStep_idle; try assumption; reflexivity.
Qed.
Lemma RH_ts i v : i <> 4 -> rel RH (@timer_start A i v).
Proof.
  intros N4 w HA. unfold timer_start, upd. cbn [snd]. split; [apply apart_ts, HA|]. apply QH_same; try reflexivity. unfold timerStart. rewrite tv_set. destruct (Nat.eqb_spec 4 (N.to_nat i)); [lia|reflexivity].
Qed.
Lemma RH_tp i : i <> 4 -> rel RH (@timer_stop A i).
Proof.
  intros N4 w HA. unfold timer_stop, upd. cbn [snd]. split; [apply apart_tp, HA|]. apply QH_same; try reflexivity. unfold timerStop. rewrite tv_set. destruct (Nat.eqb_spec 4 (N.to_nat i)); [lia|reflexivity].
Qed.
End Leaves.
(* sending: the frame is the only observation *)
Lemma tx_any m w : exists o, (o = OTxDrop m \/ exists ok, o = OTx m ok) /\ w_out (snd (tp_writeMessage m w)) = o :: w_out w /\ keeps w (snd (tp_writeMessage m w)).
Proof.
  assert (K := tx_keeps m w). destruct (N.leb_spec (m_size m) 8) as [L|L].
  - destruct (tx_out m w L) as (ok & _ & H). exists (OTx m ok). eauto.
  - unfold tp_writeMessage in *. replace (m_size m <=? L1_DATA_SIZE) with false in * by (unfold L1_DATA_SIZE; lia). destruct (c_loop cfg).
    + exists (OTxDrop m). split; [auto|]. split; [|exact K]. rewrite snd_bind, bind_emit. unfold ret, upd, bind. cbn [fst snd negb]. destruct (_ <? 255); reflexivity.
    + exists (OTx m (hd true (w_wr w))). split; [eauto|]. split; [|exact K]. unfold adapterWrite, get, upd, emit, bind, ret. cbn [fst snd]. destruct (hd true (w_wr w)); cbn [negb fst snd]; [reflexivity|]. unfold upd. cbn [fst snd]. destruct (_ <? 255); reflexivity.
Qed.
Lemma keeps_apart w v : keeps w v -> apart w -> apart v.
Proof. intros (V & T & _). unfold visible in V. injection V; intros. apply (apart_same w); congruence. Qed.
Lemma keeps_hb w v : keeps w v -> w_hbEn v = w_hbEn w /\ tv 4 v = tv 4 w.
Proof. intros (V & T & _). unfold visible in V. injection V; intros. split; [assumption|]. unfold tv. rewrite T. reflexivity. Qed.
Lemma RH_tx m : isHeartbeat m = false -> rel RH (tp_writeMessage m).
Proof.
  intros H w HA. destruct (tx_any m w) as (o & O & HO & K). split; [apply (keeps_apart w _ K HA)|]. exists [o]. split; [exact HO|]. intros n. cbn [rev app fold_left].
  destruct (keeps_hb _ _ K) as [K1 K2]. rewrite hbStep_idle; [unfold hbOf; rewrite K1, K2; reflexivity| |reflexivity]. destruct O as [->|[ok ->]]; cbn [hbIdle]; [reflexivity|]. rewrite H. reflexivity.
Qed.
Lemma plain_hb o : plainObs o = true -> hbIdle o = true. Proof. destruct o; try reflexivity; try discriminate. destruct l; try reflexivity; discriminate. Qed.
Lemma std_hb cls ty prio nick d : cls <> CLASS_INFORMATION -> isHeartbeat (mkTx cls ty prio nick d) = false.
Proof. intros NC. unfold isHeartbeat, mkTx. cbn [m_class m_type]. unfold CLASS_INFORMATION in NC. lia. Qed.
Ltac lh S X_e := intros; try (unfold setUB, setNgUB); first [apply X_e; reflexivity | apply X_e; apply plain_hb; assumption | apply rel_upd; intros; apply S; reflexivity | apply S; reflexivity].
Hypothesis HN : c_hb_node cfg = true.
(* API calls: whatever time is left, it stays *)
Definition QX w w' : Prop := w_tm w' = w_tm w /\ exists l, w_out w' = l ++ w_out w /\ forall x n, fold_left hbStep (rev l) (mkHb (w_hbEn w) x false n) = mkHb (w_hbEn w') x false n.
Lemma QX_refl w : QX w w. Proof. split; [reflexivity|]. exists []. auto. Qed.
Lemma QX_trans (a b c : World A) : QX a b -> QX b c -> QX a c.
Proof. intros (T1 & l1 & O1 & H1) (T2 & l2 & O2 & H2). split; [congruence|]. exists (l2 ++ l1). rewrite O2, O1, app_assoc. split; [reflexivity|]. intros x n. rewrite rev_app_distr, fold_left_app, H1. apply H2. Qed.
Definition RX := RT QX.
Lemma RX_refl w : RX w w. Proof. apply RT_refl, QX_refl. Qed.
Lemma RX_trans (a b c : World A) : RX a b -> RX b c -> RX a c. Proof. apply RT_trans. intros x y z _ _ _. apply QX_trans. Qed.
Lemma RX_same w w' : w_tSt w' = w_tSt w -> w_tGuid w' = w_tGuid w -> w_t162 w' = w_t162 w -> w_tEp w' = w_tEp w -> w_tHb w' = w_tHb w -> w_tm w' = w_tm w ->
  w_out w' = w_out w -> w_hbEn w' = w_hbEn w -> RX w w'.
Proof. intros H1 H2 H3 H4 H5 H6 H7 H8. apply RT_same; try assumption. split; [assumption|]. exists []. rewrite H8. auto. Qed.
Lemma RX_emit o : hbIdle o = true -> rel RX (@emit A o).
Proof.
  intros H w. apply RT_same; try reflexivity. split; [reflexivity|]. exists [o]. split; [reflexivity|]. intros x n. cbn [rev app fold_left]. rewrite hbStep_idle; try assumption; reflexivity.
Qed.
Lemma RX_tx m : isHeartbeat m = false -> rel RX (tp_writeMessage m).
Proof.
  intros H w HA. destruct (tx_any m w) as (o & O & HO & K). split; [apply (keeps_apart w _ K HA)|]. split; [exact (proj1 (proj2 K))|]. exists [o]. split; [exact HO|]. intros x n. cbn [rev app fold_left].
  destruct (keeps_hb _ _ K) as [K1 K2]. rewrite hbStep_idle; [rewrite K1; reflexivity| |reflexivity]. destruct O as [->|[ok ->]]; cbn [hbIdle]; [reflexivity|]. rewrite H. reflexivity.
Qed.
Lemma RX_api c : rel RX (@doApi A E c).
Proof.
  destruct c eqn:EC.
  1:{ (* sendEvent *) intros w HA. unfold doApi. rewrite bind_emit, snd_bind. cbn [snd ret]. set (w1 := set_out _ w).
      destruct (tx_any m w1) as (o & O & HO & K). assert (HA1 : apart w1) by (apply (apart_same w); try reflexivity; exact HA). split; [apply (keeps_apart w1 _ K HA1)|].
      split; [exact (proj1 (proj2 K))|]. exists [o; OApi (ASend m)]. split; [exact HO|]. intros x n. cbn [rev app fold_left]. destruct (keeps_hb _ _ K) as [K1 K2]. rewrite K1.
      destruct O as [->|[ok ->]]; cbn [hbStep]; [reflexivity|]. cbn [hb_byApp negb]. rewrite andb_false_r. reflexivity. }
  1:{ apply rel_bind; [exact RX_trans|apply RX_emit; reflexivity|intros _]. unfold setAlarm. apply rel_upd. intros w. apply RX_same; reflexivity. }
  1:{ apply rel_bind; [exact RX_trans|apply RX_emit; reflexivity|intros _]. unfold setTimeSinceEpoch. apply rel_upd. intros w. apply RX_same; reflexivity. }
  1:{ intros w HA. unfold doApi. rewrite bind_emit, HN. unfold enableHeartbeat, upd. cbn [snd]. split; [apply (apart_same w); try reflexivity; exact HA|].
      split; [reflexivity|]. exists [OApi (AHeartbeat b)]. split; reflexivity. }
  all: pose (R := RX); assert (Rrefl : forall w, R w w) by exact RX_refl; assert (Rtrans : forall a b c, R a b -> R b c -> R a c) by exact RX_trans.
  all: assert (S : forall w w', w_tSt w' = w_tSt w -> w_tGuid w' = w_tGuid w -> w_t162 w' = w_t162 w -> w_tEp w' = w_tEp w -> w_tHb w' = w_tHb w -> w_tm w' = w_tm w ->
    w_out w' = w_out w -> w_hbEn w' = w_hbEn w -> R w w') by exact RX_same.
  all: assert (X_e : forall o, hbIdle o = true -> rel R (@emit A o)) by exact RX_emit.
  all: assert (X_tx : forall m, isHeartbeat m = false -> rel R (tp_writeMessage m)) by exact RX_tx.
  all: match goal with |- rel RX ?m => change (rel R m) end; clearbody R.
  all: assert (s_psW : forall a v, rel R (psWrite8 a v)) by (intros; unfold psWrite8; rel_tac; lh S X_e).
  all: assert (s_ub : rel R setUB) by (lh S X_e); assert (s_ngub : rel R setNgUB) by (lh S X_e); assert (s_app : forall v w, R w (set_app v w)) by (lh S X_e).
  all: assert (s_nick : forall v, rel R (writeNicknameId v)) by (intros; apply tr_writeNicknameId; tr_fill ltac:(lh S X_e)).
  all: assert (s_std : forall cls ty prio nick d, stdFrame cls ty prio = true -> cls <> CLASS_INFORMATION -> rel R (tp_writeMessage (mkTx cls ty prio nick d))) by
    (intros; apply X_tx; apply (std_hb cls ty prio nick d); assumption).
  all: unfold doApi; apply rel_bind; [exact Rtrans|apply X_e; reflexivity|intros _].
  - unfold startNodeSegmentInit, changeToStateInit. rel_tac; lh S X_e.
  - apply tr_restoreFactory; tr_fill ltac:(lh S X_e).
  - unfold log_enable. rel_tac; lh S X_e.
  - unfold log_setLevel. rel_tac; lh S X_e.
  - apply rel_if; [|apply rel_ret; exact Rrefl]. apply ts_log_log; tr_fill ltac:(lh S X_e).
  - unfold ps_writeLogId. rel_tac.
  - unfold ps_writeZone. rel_tac.
  - unfold ps_writeSub. rel_tac.
  - unfold tp_getTransmitErrors. rel_tac; lh S X_e.
Qed.
Lemma RH_api c : rel RH (@doApi A E c).
Proof.
  intros w HA. destruct (RX_api c w HA) as (HA' & T & l & O & F). split; [exact HA'|]. exists l. split; [exact O|]. intros n. unfold hbOf. rewrite F. unfold tv. rewrite T. reflexivity.
Qed.
(* a node that does not send a heartbeat *)
Lemma RH_parts : rel RH (@activeMessage A E) /\ rel RH (@extendedPageRead A E) /\ rel RH (@stateInit A E) /\ rel RH (@statePreActive A E) /\ rel RH (@stateStartup A E) /\
  rel RH (@stateReset A).
Proof.
  pose (R := RH). assert (Rrefl : forall w, R w w) by exact RH_refl. assert (Rtrans : forall a b c, R a b -> R b c -> R a c) by exact RH_trans.
  assert (S : forall w w', w_tSt w' = w_tSt w -> w_tGuid w' = w_tGuid w -> w_t162 w' = w_t162 w -> w_tEp w' = w_tEp w -> w_tHb w' = w_tHb w -> w_tm w' = w_tm w ->
    w_out w' = w_out w -> w_hbEn w' = w_hbEn w -> R w w') by exact RH_same.
  assert (X_e : forall o, hbIdle o = true -> rel R (@emit A o)) by exact RH_emit.
  assert (X_tx : forall m, isHeartbeat m = false -> rel R (tp_writeMessage m)) by exact RH_tx.
  assert (s_api : forall c, rel R (doApi c)) by exact RH_api.
  assert (H_0 : forall v, rel R (timer_start 0 v)) by (intros; apply RH_ts; discriminate). assert (H_0p : rel R (timer_stop 0)) by (apply RH_tp; discriminate).
  assert (H_1 : forall v, rel R (timer_start 1 v)) by (intros; apply RH_ts; discriminate). assert (H_1p : rel R (timer_stop 1)) by (apply RH_tp; discriminate).
  assert (H_2 : forall v, rel R (timer_start 2 v)) by (intros; apply RH_ts; discriminate). assert (H_2p : rel R (timer_stop 2)) by (apply RH_tp; discriminate).
  assert (s_st : forall T (k : N -> M A T), rel R (k 0) -> rel R (bind (get w_tSt) k)) by (intros; apply RT_st; assumption).
  assert (s_g : forall T (k : N -> M A T), rel R (k 1) -> rel R (bind (get w_tGuid) k)) by (intros; apply RT_guid; assumption).
  assert (s_1 : forall T (k : N -> M A T), rel R (k 2) -> rel R (bind (get w_t162) k)) by (intros; apply RT_162; assumption).
  assert (s_act : rel R changeToStateActive).
  { intros w HA. unfold changeToStateActive. rewrite bind_get. destruct (negb (state_eqb (w_st w) ACTIVE)); [|apply RH_refl, HA].
    rewrite bind_emit, bind_upd, bind_get. match goal with |- context [sendProt _ _ [w_nick ?v]] => set (w1 := v) end.
    assert (HA1 : apart w1) by (apply (apart_same w); try reflexivity; exact HA).
    destruct (send_prot PT_NEW_NODE_ONLINE PRIO_0_HIGH [w_nick w1] w1) as (ok & v & EQ & HO & K); [apply Nat.leb_le; reflexivity|]. rewrite (bind_run _ _ _ _ _ EQ), HN.
    assert (HV := keeps_apart _ _ K HA1). destruct (keeps_hb _ _ K) as [K1 K2]. rewrite bind_get.
    assert (EN : w_hbEn v = w_hbEn w) by (rewrite K1; reflexivity). assert (T4 : tv 4 v = tv 4 w) by (rewrite K2; reflexivity).
    assert (HBT : w_tHb v = 4) by (apply HV; exact HN).
    destruct (w_hbEn v) eqn:HE.
    - rewrite bind_get, HBT. unfold timer_start, upd. cbn [snd]. split; [apply apart_ts, HV|]. exists [OTx (mkTx CLASS_PROTOCOL PT_NEW_NODE_ONLINE PRIO_0_HIGH (w_nick w1) [w_nick w1]) ok; OLamp LampOn].
      split; [wsimp; exact HO|]. intros n. cbn [rev app fold_left hbStep hbOf hb_en hb_left hb_byApp hb_count isHeartbeat]. unfold hbOf. rewrite <- EN. change (isHeartbeat (mkTx CLASS_PROTOCOL PT_NEW_NODE_ONLINE PRIO_0_HIGH (w_nick w1) [w_nick w1])) with false.
      cbn [andb hb_en hb_left hb_byApp hb_count hbStep]. wsimp. rewrite HE. unfold timerStart. rewrite tv_set. change (4 =? N.to_nat 4)%nat with true.
      assert (X := tv_in 4 v HV). destruct (nth_error (w_tm v) 4); [reflexivity|]. exfalso. apply X; [unfold timersNeeded; rewrite HN; lia|reflexivity].
    - cbn [ret snd]. split; [exact HV|]. exists [OTx (mkTx CLASS_PROTOCOL PT_NEW_NODE_ONLINE PRIO_0_HIGH (w_nick w1) [w_nick w1]) ok; OLamp LampOn].
      split; [exact HO|]. intros n. cbn [rev app fold_left]. unfold hbOf. rewrite <- EN, HE, T4. reflexivity. }
  change (rel R (@activeMessage A E) /\ rel R (@extendedPageRead A E) /\ rel R (@stateInit A E) /\ rel R (@statePreActive A E) /\ rel R (@stateStartup A E) /\ rel R (@stateReset A)). clearbody R.
  assert (s_std : forall cls ty prio nick d, stdFrame cls ty prio = true -> cls <> CLASS_INFORMATION -> rel R (tp_writeMessage (mkTx cls ty prio nick d))) by
    (intros; apply X_tx; apply std_hb; assumption).
  assert (s_psW : forall a v, rel R (psWrite8 a v)) by (intros; unfold psWrite8; rel_tac; lh S X_e).
  assert (s_ub : rel R setUB) by (lh S X_e). assert (s_ngub : rel R setNgUB) by (lh S X_e). assert (s_app : forall v w, R w (set_app v w)) by (lh S X_e).
  assert (s_emit : forall o, plainObs o = true -> rel R (emit o)) by (lh S X_e).
  assert (s_nick : forall v, rel R (writeNicknameId v)) by (intros; apply tr_writeNicknameId; tr_fill ltac:(lh S X_e)).
  assert (s_init : forall b, rel R (changeToStateInit b)) by (intros; unfold changeToStateInit; rel_tac; lh S X_e).
  assert (s_pre : rel R changeToStatePreActive) by (unfold changeToStatePreActive; rel_tac; lh S X_e).
  assert (s_idle : rel R changeToStateIdle) by (unfold changeToStateIdle; rel_tac; lh S X_e).
  assert (s_restore : rel R restoreFactory) by (apply tr_restoreFactory; tr_fill ltac:(lh S X_e)).
  Ltac tmrs S X_e s_st s_g s_1 := repeat first [rel_leaf | apply s_st | apply s_g | apply s_1 | rel_step]; try (lh S X_e).
  assert (s_reset : forall t, rel R (changeToStateReset t)) by (intros; unfold changeToStateReset; tmrs S X_e s_st s_g s_1).
  assert (s_162 : forall v, rel R (writeVscpRegister REG_RESTORE v)).
  { intros v. unfold writeVscpRegister. change (rel R (id <- get w_t162 ;; running <- timer_running id ;;
      (if (v =? 85) && negb running then timer_start id (c_t_multi cfg) else when (v =? 170) && running do (timer_stop id ;; restoreFactory)) ;; ret (0, false))).
    unfold timer_running. tmrs S X_e s_st s_g s_1. }
  assert (s_wv : forall a v, rel R (writeVscpRegister a v)) by (intros a v; apply ts_writeVscpRegister; tr_fill ltac:(lh S X_e)).
  assert (s_GU : forall i, rel R (dd_getGUID i)) by (intros; apply tr_getGUID; tr_fill ltac:(lh S X_e)).
  assert (s_guid : rel R handleGuidDrop).
  { unfold handleGuidDrop, rxSize, rxd, timer_running, startNodeSegmentInit. tmrs S X_e s_st s_g s_1. }
  assert (s_sp : forall ty prio d, rel R (sendProt ty prio d)) by (intros; unfold sendProt; rel_tac; apply X_tx; reflexivity).
  assert (s_dmw : forall p a v, rel R (dm_writeRegister p a v)) by (intros; apply tr_dm_writeRegister; tr_fill ltac:(lh S X_e)).
  assert (s_hb : rel R handleHeartbeat) by (apply tr_handleHeartbeat; tr_fill ltac:(lh S X_e)).
  assert (s_al : rel R (v <- get w_alarm ;; upd (set_alarm 0) ;; ret v)) by (rel_tac; lh S X_e).
  assert (s_rr : forall p a, rel R (readRegister p a)) by (intros; apply tr_readRegister; tr_fill ltac:(lh S X_e)).
  assert (s_wr : forall p a v, rel R (writeRegister p a v)) by (intros; apply tr_writeRegister; tr_fill ltac:(lh S X_e)).
  assert (s_pr : rel R handlePageRead) by (apply ts_handlePageRead; tr_fill ltac:(lh S X_e)).
  assert (s_pw : rel R handlePageWrite) by (apply ts_handlePageWrite; tr_fill ltac:(lh S X_e)).
  assert (s_epr : rel R extendedPageRead) by (apply ts_extendedPageRead; tr_fill ltac:(lh S X_e)).
  assert (s_her : rel R handleExtPageRead) by (unfold handleExtPageRead; rel_tac; lh S X_e).
  assert (s_hew : rel R handleExtPageWrite) by (apply ts_handleExtPageWrite; tr_fill ltac:(lh S X_e)).
  assert (s_who : rel R handleWhoIsThere) by (apply ts_handleWhoIsThere; tr_fill ltac:(lh S X_e)).
  assert (s_sn : rel R handleSetNickname) by (apply ts_handleSetNickname; tr_fill ltac:(lh S X_e)).
  assert (s_dn : rel R handleDropNickname) by (apply ts_handleDropNickname; tr_fill ltac:(lh S X_e)).
  split. { apply ts_activeMessage; tr_fill ltac:(lh S X_e). }
  split; [exact s_epr|]. split; [|split; [|split]].
  - unfold stateInit, timer_running, rxIsProt. tmrs S X_e s_st s_g s_1.
  - unfold statePreActive, timer_running, rxIsProt, rxd. tmrs S X_e s_st s_g s_1.
  - assert (HS : rel R getStartUpControl) by (apply tr_startUp; tr_fill ltac:(lh S X_e)). unfold stateStartup. rel_tac.
  - unfold stateReset, timer_running. tmrs S X_e s_st s_g s_1.
Qed.
Lemma hb_apart_in w : apart w -> exists t, nth_error (w_tm w) 4 = Some t.
Proof. intros HA. assert (X := tv_in 4 w HA). destruct (nth_error (w_tm w) 4) as [t|]; [eauto|]. exfalso. apply X; [unfold timersNeeded; rewrite HN; lia|reflexivity]. Qed.
(* the heartbeat itself *)
Lemma RH_heartbeat w : apart w -> let w' := snd (activeHeartbeat w) in
  apart w' /\ exists l, w_out w' = l ++ w_out w /\ forall n, fold_left hbStep (rev l) (hbOf w n) = hbOf w' (if w_hbEn w && (tv 4 w =? 0) then n + 1 else n).
Proof.
  intros HA. cbv zeta. unfold activeHeartbeat, timer_running. rewrite HN, !bind_get. assert (T4 : w_tHb w = 4) by (apply HA; exact HN). rewrite T4. rewrite (timer_running_tv 4).
  replace (negb (0 <? tv 4 w)) with (tv 4 w =? 0) by lia. destruct (w_hbEn w && (tv 4 w =? 0)) eqn:D; [|split; [exact HA|exists []; auto]].
  apply andb_true_iff in D. destruct D as [EN Z]. rewrite snd_bind.
  assert (G : let v := snd ((if c_custom_hb cfg then customHeartbeat else sendNodeHeartbeat) w) in apart v /\ w_tm v = w_tm w /\ exists l, w_out v = l ++ w_out w /\
    forall n, fold_left hbStep (rev l) (hbOf w n) = mkHb (w_hbEn v) hbPeriod false (n + 1)).
  { cbv zeta. destruct (c_custom_hb cfg).
    - unfold customHeartbeat. rewrite bind_emit, bind_get, bind_upd. match goal with |- context [forM ?l doApi ?v] => set (w1 := v); set (cs := l) end.
      assert (HA1 : apart w1) by (apply (apart_same w); try reflexivity; exact HA).
      assert (FM : forall cs, rel RX (forM cs (@doApi A E))).
      { intros c0. apply rel_forM; [exact RX_refl|exact RX_trans|exact RX_api]. }
      destruct (FM cs w1 HA1) as (H1 & H2 & l & H3 & H4). split; [exact H1|]. split; [exact H2|]. exists (l ++ [OHeartbeatCustom]). rewrite H3, <- app_assoc. split; [reflexivity|].
      intros n. rewrite rev_app_distr. cbn [rev app fold_left hbStep hbOf hb_en hb_count]. apply (H4 hbPeriod (n + 1)).
    - unfold sendNodeHeartbeat. rewrite !snd_bind. cbn [snd ret].
      assert (PZ : pres (fun w : World A => w) dd_getZone) by (unfold dd_getZone, ps_readZone, psRead8; pres_tac).
      assert (PS : pres (fun w : World A => w) dd_getSubZone) by (unfold dd_getSubZone, ps_readSub, psRead8; pres_tac).
      rewrite !(PS : forall w, _), !(PZ : forall w, _). cbn [get fst snd]. match goal with |- context [tp_writeMessage ?m w] => set (f := m) end.
      destruct (tx_send f w) as (ok & v & EQ & HO & K); [unfold f, mkTx; cbn; lia|]. rewrite EQ. cbn [snd]. split; [apply (keeps_apart _ _ K HA)|]. split; [apply K|]. exists [OTx f ok]. split; [exact HO|].
      intros n. destruct (keeps_hb _ _ K) as [K1 _]. cbn [rev app fold_left hbStep hbOf hb_en hb_byApp hb_count]. rewrite K1. reflexivity. }
  cbv zeta in G. destruct G as (H1 & H2 & l & H3 & H4). set (v := snd _) in *. clearbody v. unfold timer_start, upd. cbn [snd]. split; [apply apart_ts, H1|]. exists l. split; [exact H3|].
  intros n. rewrite H4. unfold hbOf. wsimp. f_equal. unfold timerStart. rewrite tv_set. change (4 =? N.to_nat 4)%nat with true. destruct (hb_apart_in v H1) as (t & ->). reflexivity.
Qed.

(* ---- a whole process call ---- *)
Definition steps w w' k : Prop := apart w' /\ exists l, w_out w' = l ++ w_out w /\ forall n, fold_left hbStep (rev l) (hbOf w n) = hbOf w' (n + k).
Lemma steps_of {T} (m : M A T) w : rel RH m -> apart w -> steps w (snd (m w)) 0.
Proof. intros H HA. destruct (H w HA) as (H1 & l & H2 & H3). split; [exact H1|]. exists l. split; [exact H2|]. intros n. rewrite N.add_0_r. apply H3. Qed.
Lemma hb_prologue rd w : apart w -> steps w (snd (prologue rd w)) 0.
Proof.
  intros HA. split; [apply apart_prologue, HA|]. exists ((match received rd w with Some m => [ORx m] | None => [] end) ++ [OProcess]). split; [rewrite prologue_out, <- app_assoc; reflexivity|].
  intros n. rewrite N.add_0_r. unfold hbOf. rewrite (tv_prologue 4 rd w HA) by discriminate. rewrite (pres_prologue w_hbEn) by reflexivity. destruct (received rd w); reflexivity.
Qed.
Lemma steps_trans (a b c : World A) j k : steps a b j -> steps b c k -> steps a c (j + k).
Proof.
  intros (_ & l1 & O1 & H1) (X & l2 & O2 & H2). split; [exact X|]. exists (l2 ++ l1). rewrite O2, O1, app_assoc. split; [reflexivity|]. intros n. rewrite rev_app_distr, fold_left_app, H1, H2, N.add_assoc. reflexivity.
Qed.
Definition hbTime w : N := if w_hbEn w && (tv 4 w =? 0) then 1 else 0.
Lemma steps_refl w : apart w -> steps w w 0.
Proof. intros H. split; [exact H|]. exists []. split; [reflexivity|]. intros n. rewrite N.add_0_r. reflexivity. Qed.
Lemma steps_final b w : apart w -> steps w (set_out (ORet b :: w_out w) (set_rxv false w)) 0.
Proof. intros H2. split; [apply (apart_same w); try reflexivity; exact H2|]. exists [ORet b]. split; [reflexivity|]. intros n. rewrite N.add_0_r. reflexivity. Qed.
Lemma hb_process rd w : apart w ->
  exists u v, steps w u 0 /\ steps u v (if isActive w then hbTime u else 0) /\ steps v (after w rd) 0 /\ (isActive w = false \/ hbTime u = 0 -> v = u).
Proof.
  intros HA. destruct (epilogue_history rd w) as (b & EQ). cbv zeta in EQ. rewrite EQ. clear EQ.
  assert (P := hb_prologue rd w HA). assert (S1 : w_st (snd (prologue rd w)) = w_st w) by (apply pres_prologue; reflexivity).
  set (w1 := snd (prologue rd w)) in *. clearbody w1. assert (HA1 : apart w1) by apply P.
  destruct RH_parts as (P1 & P2 & P3 & P4 & P5 & P6).
  assert (OTH : forall m : M A unit, rel RH m -> isActive w = false -> snd (dispatch w1) = snd (m w1) -> exists u v, steps w u 0 /\ steps u v (if isActive w then hbTime u else 0) /\
    steps v (set_out (ORet b :: w_out (snd (dispatch w1))) (set_rxv false (snd (dispatch w1)))) 0 /\ (isActive w = false \/ hbTime u = 0 -> v = u)).
  { intros m HM NA ->. assert (Q := steps_of m w1 HM HA1). exists (snd (m w1)), (snd (m w1)). rewrite NA. split; [apply (steps_trans _ _ _ 0 0 P Q)|]. split; [apply steps_refl, Q|]. split; [apply steps_final, Q|reflexivity]. }
  assert (ACT : isActive w = false \/ w_st w = ACTIVE) by (unfold isActive; destruct (w_st w); auto). destruct ACT as [NA|SA].
  - assert (TH : forall m : M A unit, rel RH m -> exists m' : M A unit, rel RH m' /\ snd ((m ;; ret false) w1) = snd (m' w1)) by (intros m HM; exists m; split; [exact HM|reflexivity]).
    assert (D : exists m : M A unit, rel RH m /\ snd (dispatch w1) = snd (m w1)).
    { unfold dispatch. rewrite bind_get, S1. unfold isActive in NA. destruct (w_st w); try discriminate NA; try (exists (ret tt); split; [apply rel_ret; exact RH_refl|reflexivity]);
        apply TH; assumption. }
    destruct D as (m & HM & D). apply (OTH m HM NA D).
  - assert (IA : isActive w = true) by (unfold isActive; rewrite SA; reflexivity). rewrite IA. clear OTH.
    assert (D : snd (dispatch w1) = snd (stateActive w1)) by (unfold dispatch; rewrite bind_get, S1, SA; reflexivity). rewrite D. clear D.
    assert (Q1 := steps_of _ w1 P1 HA1). unfold stateActive. rewrite snd_bind. set (u := snd (activeMessage w1)) in *. clearbody u.
    assert (Q2 := RH_heartbeat u (proj1 Q1)). cbv zeta in Q2. rewrite snd_bind.
    assert (Z : hbTime u = 0 -> snd (activeHeartbeat u) = u).
    { intros Z. unfold hbTime in Z. unfold activeHeartbeat, timer_running. rewrite HN, !bind_get. assert (T4 : w_tHb u = 4) by (apply Q1; exact HN). rewrite T4, (timer_running_tv 4).
      replace (negb (0 <? tv 4 u)) with (tv 4 u =? 0) by lia. destruct (w_hbEn u && (tv 4 u =? 0)); [lia|reflexivity]. }
    set (v := snd (activeHeartbeat u)) in *. clearbody v.
    assert (Q3 : steps u v (hbTime u)).
    { destruct Q2 as (X & l & O & F). split; [exact X|]. exists l. split; [exact O|]. intros n. rewrite F. unfold hbTime. destruct (w_hbEn u && (tv 4 u =? 0)); [reflexivity|rewrite N.add_0_r; reflexivity]. }
    exists u, v. split; [apply (steps_trans _ _ _ 0 0 P Q1)|]. split; [exact Q3|]. split; [|intros [X|X]; [discriminate X|apply Z, X]].
    match goal with |- steps v (set_out (ORet b :: w_out ?x) _) 0 => assert (Q4 : steps v x 0) end.
    { rewrite bind_get. destruct (0 <? w_xcount v); [change (steps v (snd (extendedPageRead v)) 0); apply steps_of; [exact P2|apply Q3]|apply steps_refl, Q3]. }
    apply (steps_trans _ _ _ 0 0 Q4). apply steps_final, Q4.
Qed.
(* the frame of a node without a message to handle *)
Lemma hb_frame rd w : apart w -> isActive w = true -> received rd w = None -> c_custom_hb cfg = false -> hbTime w = 1 ->
  exists ok rest, effects w (after w rd) = OProcess :: OTx (mkTx CLASS_INFORMATION IT_NODE_HEARTBEAT PRIO_3_NORMAL (w_nick w) [0; nodeZone w; nodeSubZone w]) ok :: rest.
Proof.
  intros HA IA RN CH HT. destruct (epilogue_history rd w) as (b & EQ). cbv zeta in EQ. assert (HA1 := apart_prologue rd w HA).
  assert (SA : w_st w = ACTIVE) by (unfold isActive in IA; destruct (w_st w); try discriminate IA; reflexivity).
  destruct (prologue_norx rd w RN) as [_ V1]. assert (O1 := prologue_out rd w). rewrite RN in O1. cbn [app] in O1.
  assert (S1 : w_st (snd (prologue rd w)) = w_st w) by (apply pres_prologue; reflexivity). assert (N1 : w_nick (snd (prologue rd w)) = w_nick w) by (apply pres_prologue; reflexivity).
  assert (PS1 : w_ps (snd (prologue rd w)) = w_ps w) by (apply pres_prologue; reflexivity). assert (T1 : hbTime (snd (prologue rd w)) = 1) by (unfold hbTime in *; rewrite (tv_prologue 4 rd w HA), (pres_prologue w_hbEn) by (reflexivity || discriminate); exact HT).
  set (w1 := snd (prologue rd w)) in *. clearbody w1.
  assert (D : snd (dispatch w1) = snd (stateActive w1)) by (unfold dispatch; rewrite bind_get, S1, SA; reflexivity). rewrite D in EQ. clear D.
  assert (AM : activeMessage w1 = (false, w1)) by (unfold activeMessage; rewrite bind_get, V1; reflexivity).
  unfold stateActive in EQ. rewrite (bind_run _ _ _ _ _ AM) in EQ.
  assert (G : exists ok v, snd (activeHeartbeat w1) = v /\ w_out v = OTx (mkTx CLASS_INFORMATION IT_NODE_HEARTBEAT PRIO_3_NORMAL (w_nick w) [0; nodeZone w; nodeSubZone w]) ok :: w_out w1 /\ apart v).
  { assert (HB := RH_heartbeat w1 HA1). destruct HB as [HB _]. unfold activeHeartbeat, timer_running in *. rewrite HN, !bind_get in *. assert (T4 : w_tHb w1 = 4) by (apply HA1; exact HN). rewrite T4, (timer_running_tv 4) in *.
    replace (negb (0 <? tv 4 w1)) with (tv 4 w1 =? 0) in * by lia. unfold hbTime in T1. destruct (w_hbEn w1 && (tv 4 w1 =? 0)); [|discriminate T1]. rewrite CH in *.
    unfold sendNodeHeartbeat in *. rewrite !bind_assoc in *.
    assert (Z : dd_getZone w1 = (nodeZone w, w1)) by (unfold dd_getZone, nodeZone, ps_readZone, psRead8, stored, readField, ps_readZone, ps_readSub, psRead8, get, ret; destruct (d_zone_ps cfg); cbn [fst]; rewrite ?PS1; reflexivity).
    assert (Z2 : dd_getSubZone w1 = (nodeSubZone w, w1)) by (unfold dd_getSubZone, nodeSubZone, ps_readSub, psRead8, stored, readField, ps_readZone, ps_readSub, psRead8, get, ret; destruct (d_sub_ps cfg); cbn [fst]; rewrite ?PS1; reflexivity).
    rewrite (bind_run _ _ _ _ _ Z), !bind_assoc, (bind_run _ _ _ _ _ Z2), bind_assoc, bind_get, N1, bind_assoc in *.
    match goal with |- context [tp_writeMessage ?f] => destruct (tx_send f w1) as (ok & v & EQ2 & HO & K); [cbn; lia|] end. rewrite (bind_run _ _ _ _ _ EQ2), bind_ret in *.
    eexists ok, _. split; [reflexivity|]. split; [exact HO|exact HB]. }
  destruct G as (ok & v & G1 & G2 & G3). rewrite snd_bind, G1 in EQ.
  destruct RH_parts as (_ & P2 & _). 
  assert (X : exists l, w_out (snd ((count <- get w_xcount ;; if 0 <? count then extendedPageRead ;; ret true else ret (fst (activeMessage w1))) v)) = l ++ w_out v).
  { rewrite bind_get. destruct (0 <? w_xcount v); [|exists []; reflexivity]. change (exists l, w_out (snd (extendedPageRead v)) = l ++ w_out v). destruct (P2 v G3) as (_ & l & O & _). eauto. }
  rewrite AM in X. cbn [fst] in X. destruct X as (l & X). exists ok, (rev l ++ [ORet b]).
  rewrite EQ. erewrite (effects_app w _ (ORet b :: l ++ [OTx _ ok; OProcess])); [|wsimp; rewrite X, G2, O1; cbn [app]; rewrite <- app_assoc; cbn [app]; reflexivity]. cbn [rev]. rewrite rev_app_distr. reflexivity.
Qed.
(* ---- histories ---- *)
Lemma hb_app l1 l2 : hbState (l1 ++ l2) = fold_left hbStep l2 (hbState l1). Proof. unfold hbState. rewrite fold_left_app. reflexivity. Qed.
Lemma steps_hist w w' k n : steps w w' k -> hbState (history w) = hbOf w n -> hbState (history w') = hbOf w' (n + k) /\ history w' = history w ++ effects w w'.
Proof.
  intros (_ & l & O & F) H. unfold history in *. rewrite (effects_app w w' l O), O, rev_app_distr, hb_app, H. split; [apply F|reflexivity].
Qed.
Lemma hb_init w : timersNeeded cfg <= c_timers cfg -> apart (snd (core_init w)) /\ exists l, w_out (snd (core_init w)) = l ++ w_out w /\
  forall b x n, fold_left hbStep (rev l) (mkHb (w_hbEn w) x b n) = hbOf (snd (core_init w)) n.
Proof.
  intros HT. rewrite core_init_eq. destruct (init_timers VE w HT) as (H1 & H2 & H3 & H4). rewrite H1.
  assert (EN : w_hbEn (snd (initTimers (snd (initHead w)))) = w_hbEn w).
  { assert (X : pres (@w_hbEn A) initTimers) by (unfold initTimers, createTimer, timer_start; pres_tac). rewrite X.
    unfold initHead, tp_init, dm_init, ps_readNicknameId, psRead8, emit, bind, upd, get. cbn [fst snd]. wsimp. destruct (c_loop cfg), (c_dm cfg), (c_dm_paged cfg); reflexivity. }
  set (v := snd (initTimers (snd (initHead w)))) in *. clearbody v.
  assert (T : rel RH (initTail true)).
  { assert (HR : rel RH restoreFactory).
    { pose (R := RH). assert (Rrefl : forall w, R w w) by exact RH_refl. assert (Rtrans : forall a b c, R a b -> R b c -> R a c) by exact RH_trans.
      assert (S : forall w w', w_tSt w' = w_tSt w -> w_tGuid w' = w_tGuid w -> w_t162 w' = w_t162 w -> w_tEp w' = w_tEp w -> w_tHb w' = w_tHb w -> w_tm w' = w_tm w ->
        w_out w' = w_out w -> w_hbEn w' = w_hbEn w -> R w w') by exact RH_same.
      assert (X_e : forall o, hbIdle o = true -> rel R (@emit A o)) by exact RH_emit.
      change (rel R restoreFactory). clearbody R.
      assert (s_psW : forall a v, rel R (psWrite8 a v)) by (intros; unfold psWrite8; rel_tac; lh S X_e).
      assert (s_ub : rel R setUB) by (lh S X_e). assert (s_ngub : rel R setNgUB) by (lh S X_e). assert (s_app : forall v w, R w (set_app v w)) by (lh S X_e).
      assert (s_nick : forall v, rel R (writeNicknameId v)) by (intros; apply tr_writeNicknameId; tr_fill ltac:(lh S X_e)).
      apply tr_restoreFactory; tr_fill ltac:(lh S X_e). }
    unfold initTail. assert (HS : rel RH getStartUpControl) by (unfold getStartUpControl, ps_readCtrl, psRead8; pose proof RH_refl; pose proof RH_trans; rel_tac).
    apply rel_bind; [exact RH_trans|exact HS|intros c]. apply rel_bind; [exact RH_trans| |intros _; apply rel_bind; [exact RH_trans|apply rel_ret; exact RH_refl|intros _; apply rel_ret; exact RH_refl]].
    match goal with |- rel RH (if ?c then _ else _) => destruct c end; [exact HR|apply rel_ret; exact RH_refl]. }
  destruct (T v H2) as (H5 & l & H6 & H7). split; [exact H5|]. exists (l ++ [OLamp LampBlinkSlow; OInit]). rewrite H6, H3, <- app_assoc. split; [reflexivity|]. intros b x n.
  rewrite rev_app_distr, fold_left_app. cbn [rev app fold_left hbStep hb_en hb_left hb_count hb_byApp]. rewrite <- H7. unfold hbOf. rewrite EN, H4. reflexivity.
Qed.
Lemma hb_power ps a wr out ub ngub : timersNeeded cfg <= c_timers cfg -> (out = [] \/ exists o, out = OPower :: o) ->
  exists n, hbState (history (snd (core_init (boot ps a wr out ub ngub)))) = hbOf (snd (core_init (boot ps a wr out ub ngub))) n.
Proof.
  intros HT HO. destruct (hb_init (boot ps a wr out ub ngub) HT) as (_ & l & O & F). set (w0 := boot ps a wr out ub ngub) in *.
  exists (hb_count (hbState (rev out))). unfold history. rewrite O, rev_app_distr, hb_app. change (w_out w0) with out. rewrite <- (F false 0). f_equal. change (w_hbEn w0) with true.
  destruct HO as [->|[o ->]]; [reflexivity|]. cbn [rev]. rewrite hb_app. reflexivity.
Qed.
Lemma reach_hb w : timersNeeded cfg <= c_timers cfg -> reachable w -> exists n, hbState (history w) = hbOf w n.
Proof.
  intros HT. revert w. apply reach_power; [intros; apply hb_power; assumption|]. intros o w WF HR (n & K). assert (HA := reach_apart w VE HR HT).
  destruct o as [rd|p|c|].
  - destruct (hb_process rd w HA) as (u & v & S1 & S2 & S3 & _). destruct (steps_hist _ _ _ _ S1 K) as [K1 _]. destruct (steps_hist _ _ _ _ S2 K1) as [K2 _]. destruct (steps_hist _ _ _ _ S3 K2) as [K3 _]. eexists. exact K3.
  - exists n. change (snd (step (OpTick p) w)) with (set_tm (timerProcess (w_tm w) p) (set_out (OTick p :: w_out w) w)).
    change (history (set_tm (timerProcess (w_tm w) p) (set_out (OTick p :: w_out w) w))) with (history w ++ [OTick p]). rewrite hb_app, K. cbn [fold_left hbStep hbOf hb_en hb_left hb_count]. unfold hbOf. f_equal.
    symmetry. apply (tv_tick 4 p w HA); [unfold timersNeeded; rewrite HN; lia|exact VE].
  - exists (n + 0). unfold step. assert (S := steps_of _ w (RH_api c) HA). apply (steps_hist _ _ _ _ S K).
  - rewrite step_init. destruct (hb_init w HT) as (_ & l & O & F). exists n. unfold history in *. rewrite O, rev_app_distr, hb_app, K. apply F.
Qed.
End B.

(* ---- without node heartbeats ---- *)
Section N.
Context {A : Type} {E : Env A}.
Implicit Types w : World A.
Hypothesis VE : valid_env E.
Definition RN w w' : Prop := exists l, w_out w' = l ++ w_out w /\ forall s, hb_byApp s = false -> let s' := fold_left hbStep (rev l) s in hb_byApp s' = false /\ hb_count s' = hb_count s.
Lemma RN_refl w : RN w w. Proof. exists []. split; [reflexivity|]. intros s H. split; [exact H|reflexivity]. Qed.
Lemma RN_trans (a b c : World A) : RN a b -> RN b c -> RN a c.
Proof. intros (l1 & O1 & H1) (l2 & O2 & H2). exists (l2 ++ l1). rewrite O2, O1, app_assoc. split; [reflexivity|]. intros s Hs. cbv zeta. rewrite rev_app_distr, fold_left_app. destruct (H1 s Hs) as [K1 K2]. destruct (H2 _ K1) as [K3 K4]. split; [exact K3|]. rewrite K4. exact K2. Qed.
Definition quietHb (o : Obs) : bool := match o with OHeartbeatCustom | OApi (ASend _) => false | OTx m _ => negb (isHeartbeat m) | _ => true end.
Lemma RN_emit o : quietHb o = true -> rel RN (@emit A o).
Proof.
  intros H w. exists [o]. split; [reflexivity|]. intros s Hs. cbn [rev app fold_left]. destruct o; try (split; reflexivity); try discriminate H.
  - destruct c; try (split; reflexivity); discriminate H.
  - cbn [hbStep quietHb] in *. destruct (isHeartbeat m); [discriminate H|]. split; reflexivity.
  - destruct l; split; reflexivity.
Qed.
Lemma RN_tx m : isHeartbeat m = false -> rel RN (tp_writeMessage m).
Proof.
  intros H w. destruct (tx_any m w) as (o & O & HO & _). destruct (RN_emit o) with (w := w) as (l & L1 & L2); [destruct O as [->|[ok ->]]; cbn; rewrite ?H; reflexivity|].
  exists l. split; [rewrite HO; exact L1|exact L2].
Qed.
Hypothesis HN : c_hb_node cfg = false.
Lemma RN_all : (forall rd, rel RN (@process A E rd)) /\ (forall c, rel RN (@doApi A E c)) /\ rel RN (@core_init A E).
Proof.
  pose (R := RN). assert (Rrefl : forall w, R w w) by exact RN_refl. assert (Rtrans : forall a b c, R a b -> R b c -> R a c) by exact RN_trans.
  assert (S : forall w w', w_out w' = w_out w -> R w w') by (intros w w' H; exists []; split; [exact H|]; intros s Hs; split; [exact Hs|reflexivity]).
  assert (X_e : forall o, quietHb o = true -> rel R (@emit A o)) by exact RN_emit.
  assert (s_std : forall cls ty prio nick d, stdFrame cls ty prio = true -> cls <> CLASS_INFORMATION -> rel R (tp_writeMessage (mkTx cls ty prio nick d))) by
    (intros; apply RN_tx; apply std_hb; assumption).
  assert (s_send : forall m, rel R (doApi (ASend m))).
  { intros m w. unfold doApi. rewrite bind_emit, snd_bind. cbn [snd ret]. set (w1 := set_out _ w). destruct (tx_any m w1) as (o & O & HO & K). exists [o; OApi (ASend m)]. split; [exact HO|].
    intros s Hs. cbn [rev app fold_left]. destruct O as [->|[ok ->]]; cbn [hbStep hb_byApp]; [split; reflexivity|]. rewrite andb_false_r. split; reflexivity. }
  change ((forall rd, rel R (@process A E rd)) /\ (forall c, rel R (@doApi A E c)) /\ rel R (@core_init A E)). clearbody R.
  assert (s_ah : rel R activeHeartbeat) by (unfold activeHeartbeat; rewrite HN; rel_tac).
  Ltac lnq S X_e := intros; try (unfold setUB, setNgUB, timer_start, timer_stop); first [apply X_e; reflexivity | apply X_e; match goal with H : plainObs ?o = true |- _ => destruct o; try reflexivity; try discriminate H end | apply rel_upd; intros; apply S; reflexivity | apply S; reflexivity].
  assert (s_api : forall c, rel R (doApi c)).
  { intros c. assert (o_psW : forall a v, rel R (psWrite8 a v)) by (intros; unfold psWrite8; rel_tac; lnq S X_e).
    assert (o_nick : forall v, rel R (writeNicknameId v)) by (intros; apply tr_writeNicknameId; tr_fill ltac:(lnq S X_e)).
    assert (o_ub : rel R setUB) by (lnq S X_e). assert (o_ngub : rel R setNgUB) by (lnq S X_e). assert (o_app : forall v w, R w (set_app v w)) by (lnq S X_e).
    assert (o_restore : rel R restoreFactory) by (apply tr_restoreFactory; tr_fill ltac:(lnq S X_e)).
    destruct c; [apply s_send|..]; unfold doApi; (apply rel_bind; [exact Rtrans|apply X_e; reflexivity|intros _]).
    all: unfold setAlarm, setTimeSinceEpoch, enableHeartbeat, log_enable, log_setLevel, ps_writeLogId, ps_writeZone, ps_writeSub, tp_getTransmitErrors, startNodeSegmentInit, changeToStateInit.
    all: try (rel_tac; lnq S X_e).
    apply rel_if; [|apply rel_ret; exact Rrefl]. apply ts_log_log; tr_fill ltac:(lnq S X_e). }
  tr_own R ltac:(lnq S X_e). tr_ownTop R ltac:(lnq S X_e).
  tr_ownProcess R ltac:(lnq S X_e). auto.
Qed.
Lemma count_mono l : forall s, hb_count s <= hb_count (fold_left hbStep l s).
Proof.
  induction l as [|o l IH]; intros s; cbn [fold_left]; [lia|]. specialize (IH (hbStep s o)). assert (X : hb_count s <= hb_count (hbStep s o)); [|lia]. clear IH.
  destruct o; cbn [hbStep hb_count]; try lia.
  - destruct c; cbn; lia.
  - destruct (_ && _); cbn; lia.
  - destruct l0; cbn; lia.
Qed.
Lemma reach_nohb w : reachable w -> hb_byApp (hbState (history w)) = false /\ hb_count (hbState (history w)) = 0.
Proof.
  destruct RN_all as (P1 & P2 & P3).
  assert (ST : forall w w', RN w w' -> hb_byApp (hbState (history w)) = false /\ hb_count (hbState (history w)) = 0 -> hb_byApp (hbState (history w')) = false /\ hb_count (hbState (history w')) = 0).
  { intros a b (l & O & F) [K1 K2]. unfold history in *. rewrite O, rev_app_distr, hb_app. destruct (F _ K1) as [F1 F2]. split; [exact F1|]. rewrite F2. exact K2. }
  revert w. apply reach_trace; [intros; split; reflexivity| |].
  - intros o w _ K. destruct o as [rd|p|c|].
    + apply (ST w); [|exact K]. unfold step. rewrite snd_then. apply P1.
    + apply (ST w); [|exact K]. exists [OTick p]. split; [reflexivity|]. intros s Hs. split; reflexivity.
    + apply (ST w); [|exact K]. apply P2.
    + rewrite step_init. apply (ST w); [|exact K]. apply P3.
  - intros w d out ps a wr ub ngub [K1 K2] O. unfold history in *. cbn [boot w_out rev]. rewrite hb_app. cbn [fold_left hbStep hb_byApp hb_count]. split; [reflexivity|].
    rewrite O, rev_app_distr, hb_app in K2. pose proof (count_mono (rev d) (hbState (rev out))). lia.
Qed.
End N.
