(* Proof_FactoryReg.v - register 0xA2 *)
From Verif Require Export Spec_FactoryReg Proof_Guid Proof_Page.

(* ---- the window ---- *)
(* one of the values written restores the factory settings *)
Fixpoint triggers (t n : N) (vs : list N) : bool :=
  match vs with [] => false | v :: r => (v =? 170) && (0 <? n) || triggers t (windowStep t n (WWrite v)) r end.

Lemma window_app t l1 l2 : window t (l1 ++ l2) = fold_left (windowStep t) l2 (window t l1). Proof. apply fold_left_app. Qed.
Lemma triggers_app t vs1 : forall n vs2, triggers t n (vs1 ++ vs2) = triggers t n vs1 || triggers t (fold_left (windowStep t) (map WWrite vs1) n) vs2.
Proof. induction vs1 as [|v vs IH]; intros n vs2; [reflexivity|]. cbn [app triggers map fold_left]. rewrite IH, orb_assoc. reflexivity. Qed.

Ltac bs_step := match goal with
  | |- bs (bind _ _) => apply bs_bind; [|intros ?]
  | |- bs (ret _) => apply bs_ret
  | |- bs (if _ then _ else _) => apply bs_if
  | |- bs (match ?x with Some _ => _ | None => _ end) => destruct x
  | |- bs (psWrite8 _ _) => apply bs_psWrite8
  | |- bs (psRead8 _) => apply bs_psRead8
  | |- bs (emit _) => apply bs_emit
  | |- bs (upd _) => apply bs_upd; let a := fresh in let b := fresh in let S := fresh "S" in intros a b S; samet S
  end.

Section B.
Context {A : Type} {E : Env A}.
Implicit Types w : World A.
Hypothesis VE : valid_env E.
Notation span := (c_t_multi cfg mod 65536).
Lemma two_in : N.of_nat 2 < timersNeeded (@cfg A E). Proof. unfold timersNeeded. destruct (c_hb_node cfg); lia. Qed.

(* vs: the values written to the register; b: a DROP_NICKNAME event is served *)
Definition QF (b : bool) (vs : list N) w w' : Prop :=
  w_rx w' = w_rx w /\ tv 2 w' = fold_left (windowStep span) (map WWrite vs) (tv 2 w) /\
  exists d, w_out w' = d ++ w_out w /\ (In OAppRestore d -> In (OApi ARestore) d \/ b = true \/ triggers span (tv 2 w) vs = true) /\ (triggers span (tv 2 w) vs = true -> In OAppRestore d).
Lemma QF_trans b vs1 vs2 (x y z : World A) : QF b vs1 x y -> QF b vs2 y z -> QF b (vs1 ++ vs2) x z.
Proof.
  intros (H1 & H2 & d1 & O1 & P1 & T1) (K1 & K2 & d2 & O2 & P2 & T2). split; [congruence|]. split; [rewrite K2, H2, map_app, fold_left_app; reflexivity|].
  exists (d2 ++ d1). split; [rewrite O2, O1, app_assoc; reflexivity|]. rewrite triggers_app, <- H2. rewrite !in_app_iff, orb_true_iff. split; [|tauto]. intros [I|I]; [destruct (P2 I) as [X|[X|X]]|destruct (P1 I) as [X|[X|X]]]; auto.
Qed.
Lemma QF_refl b w : QF b [] w w. Proof. split; [reflexivity|]. split; [reflexivity|]. exists []. split; [reflexivity|]. split; [intros []|discriminate]. Qed.
Lemma QF_same b w w' : w_rx w' = w_rx w -> w_tm w' = w_tm w -> w_out w' = w_out w -> QF b [] w w'.
Proof. intros H1 H2 H3. split; [exact H1|]. split; [unfold tv; rewrite H2; reflexivity|]. exists []. split; [exact H3|]. split; [intros []|discriminate]. Qed.
Definition RQ b := RT (QF b []).
Lemma RQ_refl b w : RQ b w w. Proof. apply RT_refl. intros. apply QF_refl. Qed.
Lemma RQ_trans b (x y z : World A) : RQ b x y -> RQ b y z -> RQ b x z.
Proof. apply RT_trans. intros u v s _ _ _. exact (QF_trans b [] [] u v s). Qed.
Lemma RQ_restore : rel (RQ true) (@restoreFactory A E).
Proof.
  set (R := RQ true). assert (Rrefl : forall w, R w w) by apply RQ_refl. assert (Rtrans : forall a b c, R a b -> R b c -> R a c) by apply RQ_trans.
  assert (S : forall w w', w_tSt w' = w_tSt w -> w_tGuid w' = w_tGuid w -> w_t162 w' = w_t162 w -> w_tEp w' = w_tEp w -> w_tHb w' = w_tHb w -> w_tm w' = w_tm w ->
    w_rx w' = w_rx w -> w_out w' = w_out w -> R w w').
  { intros w w' H1 H2 H3 H4 H5 H6 H7 H8. apply RT_same; try assumption. apply QF_same; assumption. }
  assert (X_e : forall o, rel R (@emit A o)).
  { intros o w. apply RT_same; try reflexivity. split; [reflexivity|]. split; [reflexivity|]. exists [o]. split; [reflexivity|]. split; [auto|discriminate]. }
  clearbody R. assert (s_psW : forall a v, rel R (psWrite8 a v)) by (intros; unfold psWrite8; rel_tac; intros; apply S; reflexivity).
  assert (s_nick : forall v, rel R (writeNicknameId v)) by (intros; apply tr_writeNicknameId; auto; intros; apply S; reflexivity).
  apply tr_restoreFactory; auto; try (intros; apply S; reflexivity); intros w; apply S; reflexivity.
Qed.
Lemma RQ_parts b : (forall w, m_type (w_rx w) <> 8 \/ b = true -> m_type (w_rx w) <> 11 -> m_type (w_rx w) <> 25 -> m_type (w_rx w) <> 29 -> m_type (w_rx w) <> 30 -> m_type (w_rx w) <> 38 -> RQ b w (snd (handleProtocolClassType w))) /\
  (forall c, rel (RQ b) (@doApi A E c)) /\
  rel (RQ b) (@activeHeartbeat A E) /\ rel (RQ b) (@extendedPageRead A E) /\ rel (RQ b) (@stateInit A E) /\ rel (RQ b) (@statePreActive A E) /\ rel (RQ b) (@stateReset A) /\
  rel (RQ b) (@handleGuidDrop A E) /\ (forall x, rel (RQ b) (@changeToStateInit A E x)) /\ rel (RQ b) (@changeToStateActive A E) /\
  (forall m, rel (RQ b) (@provideEvent A E m)) /\ (forall m, rel (RQ b) (@provideProtocolEvent A E m)) /\ (forall m, rel (RQ b) (dm_executeActions actionExecute m)) /\ (forall m, rel (RQ b) (ng_executeActions actionExecute m)) /\
  rel (RQ b) (@getStartUpControl A E) /\ (forall p a, rel (RQ b) (@readRegister A E p a)) /\ (forall p a v, ~ (p = 0 /\ a = 162) -> rel (RQ b) (@writeRegister A E p a v)) /\ (forall m, rel (RQ b) (tp_writeMessage m)).
Proof.
  set (R := RQ b). assert (Rrefl : forall w, R w w) by apply RQ_refl. assert (Rtrans : forall a b c, R a b -> R b c -> R a c) by apply RQ_trans.
  assert (S : forall w w', w_tSt w' = w_tSt w -> w_tGuid w' = w_tGuid w -> w_t162 w' = w_t162 w -> w_tEp w' = w_tEp w -> w_tHb w' = w_tHb w -> w_tm w' = w_tm w ->
    w_rx w' = w_rx w -> w_out w' = w_out w -> R w w').
  { intros w w' H1 H2 H3 H4 H5 H6 H7 H8. apply RT_same; try assumption. apply QF_same; assumption. }
  assert (X_e : forall o, o <> OAppRestore \/ b = true -> rel R (@emit A o)).
  { intros o HO. intros w. apply RT_same; try reflexivity. split; [reflexivity|]. split; [reflexivity|]. exists [o]. split; [reflexivity|]. split; [|discriminate]. intros [->|[]]. destruct HO as [HO|HO]; [congruence|auto]. }
  assert (s_tx : forall m, rel R (tp_writeMessage m)).
  { intros m w HA. destruct (tx_any m w) as (o & O & HO & K). split; [apply (keeps_apart w _ K HA)|]. destruct K as (K1 & K2 & K3 & _). split; [exact K3|]. split; [unfold tv; rewrite K2; reflexivity|].
    exists [o]. split; [exact HO|]. split; [|discriminate]. intros [->|[]]. destruct O as [O|[ok O]]; discriminate O. }
  assert (H_t : forall i v, i <> 2 -> rel R (@timer_start A i v)).
  { intros i v N4 w HA. unfold timer_start, upd. cbn [snd]. split; [apply apart_ts, HA|]. split; [reflexivity|]. split; [unfold timerStart; rewrite tv_set; destruct (Nat.eqb_spec 2 (N.to_nat i)); [lia|reflexivity]|]. exists []. split; [reflexivity|]. split; [intros []|discriminate]. }
  assert (H_p : forall i, i <> 2 -> rel R (@timer_stop A i)).
  { intros i N4 w HA. unfold timer_stop, upd. cbn [snd]. split; [apply apart_tp, HA|]. split; [reflexivity|]. split; [unfold timerStop; rewrite tv_set; destruct (Nat.eqb_spec 2 (N.to_nat i)); [lia|reflexivity]|]. exists []. split; [reflexivity|]. split; [intros []|discriminate]. }
  assert (s_st : forall T (k : N -> M A T), rel R (k 0) -> rel R (bind (get w_tSt) k)) by (intros; apply RT_st; assumption).
  assert (s_g : forall T (k : N -> M A T), rel R (k 1) -> rel R (bind (get w_tGuid) k)) by (intros; apply RT_guid; assumption).
  assert (s_h : c_hb_node cfg = true -> forall T (k : N -> M A T), rel R (k 4) -> rel R (bind (get w_tHb) k)) by (intros; apply RT_hb; assumption).
  assert (X_R : rel R (bind (@emit A (OApi ARestore)) (fun _ => restoreFactory))).
  { intros w HA. rewrite bind_emit. set (w1 := set_out (OApi ARestore :: w_out w) w). assert (A1 : apart w1) by exact HA. destruct (RQ_restore w1 A1) as (A2 & H1 & H2 & d & O & _). split; [exact A2|].
    split; [exact H1|]. split; [exact H2|]. exists (d ++ [OApi ARestore]). rewrite O, <- app_assoc. split; [reflexivity|]. split; [|discriminate]. intros _. left. apply in_or_app. right. left. reflexivity. }
  clearbody R.
  Ltac lq S X_e H_t H_p := intros; try (unfold setUB, setNgUB); first [apply H_t; discriminate | apply H_p; discriminate | apply X_e; left; discriminate | apply X_e; left; match goal with H : plainObs ?o = true |- _ => intros ->; discriminate H end | apply rel_upd; intros; apply S; reflexivity | apply S; reflexivity].
  assert (s_e : forall o, plainObs o = true -> rel R (@emit A o)) by (lq S X_e H_t H_p).
  assert (s_std : forall cls ty prio nick d, stdFrame cls ty prio = true -> cls <> CLASS_INFORMATION -> rel R (tp_writeMessage (mkTx cls ty prio nick d))) by (intros; apply s_tx).
  assert (s_psW : forall a v, rel R (psWrite8 a v)) by (intros; unfold psWrite8; rel_tac; lq S X_e H_t H_p).
  assert (s_nick : forall v, rel R (writeNicknameId v)) by (intros; apply tr_writeNicknameId; tr_fill ltac:(lq S X_e H_t H_p)).
  assert (s_ub : rel R setUB) by (lq S X_e H_t H_p). assert (s_ngub : rel R setNgUB) by (lq S X_e H_t H_p). assert (s_app : forall v w, R w (set_app v w)) by (lq S X_e H_t H_p).
  assert (s_restore : b = true -> rel R restoreFactory) by (intros Hb; apply tr_restoreFactory; try (apply X_e; right; exact Hb); tr_fill ltac:(lq S X_e H_t H_p)).
  assert (s_api : forall c, rel R (doApi c)).
  { intros c. destruct c; unfold doApi; try exact X_R; (apply rel_bind; [exact Rtrans|apply X_e; left; discriminate|intros _]).
    all: unfold setAlarm, setTimeSinceEpoch, enableHeartbeat, log_enable, log_setLevel, ps_writeLogId, ps_writeZone, ps_writeSub, tp_getTransmitErrors, startNodeSegmentInit, changeToStateInit.
    all: try (rel_tac; lq S X_e H_t H_p).
    apply rel_if; [|apply rel_ret; exact Rrefl]. apply ts_log_log; tr_fill ltac:(lq S X_e H_t H_p). }
  assert (s_nhb : rel R sendNodeHeartbeat) by (apply tr_sendNodeHeartbeat; tr_fill ltac:(lq S X_e H_t H_p)).
  assert (s_chb : rel R customHeartbeat) by (unfold customHeartbeat; rel_tac; lq S X_e H_t H_p).
  assert (s_ah : rel R activeHeartbeat).
  { unfold activeHeartbeat, timer_running. destruct (c_hb_node cfg); [|apply rel_ret; exact Rrefl]. pose proof (s_h eq_refl) as s_hh. tmq s_st s_g s_g s_hh; lq S X_e H_t H_p. }
  assert (s_act : rel R changeToStateActive).
  { unfold changeToStateActive. unfold sendProt. destruct (c_hb_node cfg).
    - pose proof (s_h eq_refl) as s_hh. tmq s_st s_g s_g s_hh; lq S X_e H_t H_p.
    - tmq s_st s_g s_g s_g; lq S X_e H_t H_p. }
  assert (s_init : forall x, rel R (changeToStateInit x)) by (intros; unfold changeToStateInit; rel_tac; lq S X_e H_t H_p).
  assert (s_idle : rel R changeToStateIdle) by (unfold changeToStateIdle; rel_tac; lq S X_e H_t H_p).
  assert (s_page : forall v w, R w (set_page v w)) by (lq S X_e H_t H_p).
  assert (s_pre : rel R changeToStatePreActive) by (unfold changeToStatePreActive, sendProt; tmq s_st s_g s_g s_g; lq S X_e H_t H_p).
  assert (s_reset : forall t, rel R (changeToStateReset t)) by (intros; unfold changeToStateReset; tmq s_st s_g s_g s_g; lq S X_e H_t H_p).
  assert (s_sp : forall ty prio d, rel R (sendProt ty prio d)) by (intros; unfold sendProt; rel_tac).
  assert (s_dmw : forall p a v, rel R (dm_writeRegister p a v)) by (intros; apply tr_dm_writeRegister; tr_fill ltac:(lq S X_e H_t H_p)).
  assert (s_ngw : forall p a v, rel R (ng_writeRegister p a v)) by (intros; unfold ng_writeRegister, ps_writeNG, ps_readNG, psWriteIdx, psReadIdx, psRead8; rel_tac).
  assert (s_hb : rel R handleHeartbeat) by (apply tr_handleHeartbeat; tr_fill ltac:(lq S X_e H_t H_p)).
  assert (s_rr : forall p a, rel R (readRegister p a)) by (intros; apply tr_readRegister; tr_fill ltac:(lq S X_e H_t H_p)).
  assert (s_aw : forall p a v, rel R (appWrite p a v)) by (intros; unfold appWrite; rel_tac; lq S X_e H_t H_p).
  assert (s_wr : forall p a v, ~ (p = 0 /\ a = 162) -> rel R (writeRegister p a v)).
  { intros p a v N162. unfold writeRegister. destruct ((p =? 0) && (128 <=? a) && (a <=? 255)) eqn:C.
    - unfold writeVscpRegister. unfold REG_RESTORE. replace (a =? 162) with false by lia. unfold ps_writeCtrl, ps_readCtrl, ps_writeUserId, ps_readUserId, psWriteIdx, psReadIdx, psRead8. rel_tac; auto.
    - unfold getRegAppWriteProtect, ps_readCtrl, psReadIdx, psWriteIdx, psRead8. rel_tac; auto. }
  assert (s_pr : rel R handlePageRead) by (apply ts_handlePageRead; tr_fill ltac:(lq S X_e H_t H_p)).
  assert (s_epr : rel R extendedPageRead) by (apply ts_extendedPageRead; tr_fill ltac:(lq S X_e H_t H_p)).
  assert (s_her : rel R handleExtPageRead) by (unfold handleExtPageRead; rel_tac; lq S X_e H_t H_p).
  assert (s_who : rel R handleWhoIsThere) by (apply ts_handleWhoIsThere; tr_fill ltac:(lq S X_e H_t H_p)).
  assert (s_sn : rel R handleSetNickname) by (apply ts_handleSetNickname; tr_fill ltac:(lq S X_e H_t H_p)).
  assert (s_dn : b = true -> rel R handleDropNickname) by (intros Hb; specialize (s_restore Hb); apply ts_handleDropNickname; tr_fill ltac:(lq S X_e H_t H_p)).
  assert (s_nno : rel R handleNewNodeOnline) by (apply ts_handleNewNodeOnline; tr_fill ltac:(lq S X_e H_t H_p)).
  assert (s_pa : rel R handleProbeAck) by (apply ts_handleProbeAck; tr_fill ltac:(lq S X_e H_t H_p)).
  assert (s_hrr : rel R handleReadRegister) by (apply ts_handleReadRegister; tr_fill ltac:(lq S X_e H_t H_p)).
  assert (s_ebl : rel R handleEnterBootLoader) by (apply ts_handleEnterBootLoader; tr_fill ltac:(lq S X_e H_t H_p)).
  assert (s_gmi : rel R handleGetMatrixInfo) by (apply ts_handleGetMatrixInfo; tr_fill ltac:(lq S X_e H_t H_p)).
  assert (s_pe : forall m, rel R (provideEvent m)) by (intros; unfold provideEvent; rel_tac; lq S X_e H_t H_p).
  assert (s_ppe : forall m, rel R (provideProtocolEvent m)) by (intros; unfold provideProtocolEvent; rel_tac; lq S X_e H_t H_p).
  assert (s_gg : forall i, rel R (dd_getGUID i)) by (intros; apply tr_getGUID; auto).
  assert (s_rxd : forall i, rel R (rxd i)) by (intros; apply tr_rxd; auto).
  assert (s_gd : rel R handleGuidDrop) by (unfold handleGuidDrop, timer_running, rxSize, startNodeSegmentInit; tmq s_st s_g s_g s_g; lq S X_e H_t H_p).
  split. { intros w N8 N11 N25 N29 N30 N38. unfold handleProtocolClassType. rewrite bind_get.
    replace (m_type (w_rx w) =? PT_WRITE_REGISTER) with false by (unfold PT_WRITE_REGISTER; lia). replace (m_type (w_rx w) =? PT_PAGE_WRITE) with false by (unfold PT_PAGE_WRITE; lia).
    replace (m_type (w_rx w) =? PT_INCREMENT_REGISTER) with false by (unfold PT_INCREMENT_REGISTER; lia). replace (m_type (w_rx w) =? PT_DECREMENT_REGISTER) with false by (unfold PT_DECREMENT_REGISTER; lia).
    replace (m_type (w_rx w) =? PT_EXTENDED_PAGE_WRITE) with false by (unfold PT_EXTENDED_PAGE_WRITE; lia).
    assert (ZD : rel R (if m_type (w_rx w) =? PT_DROP_NICKNAME then handleDropNickname else ret tt)).
    { destruct (N.eqb_spec (m_type (w_rx w)) PT_DROP_NICKNAME) as [D|D]; [|apply rel_ret; exact Rrefl]. apply s_dn. destruct N8 as [N8|N8]; [elim N8; exact D|exact N8]. }
    clear N8 N11 N25 N29 N30 N38. revert ZD. generalize (m_type (w_rx w)). intros t ZD. revert w. match goal with |- forall w, R w (snd (?m w)) => change (rel R m) end.
    destruct (t =? PT_DROP_NICKNAME); rel_tac. }
  split; [exact s_api|]. split; [exact s_ah|]. split; [assumption|].
  split; [unfold stateInit, timer_running, rxIsProt; tmq s_st s_g s_g s_g; lq S X_e H_t H_p|]. split; [unfold statePreActive, timer_running, rxIsProt, rxd; tmq s_st s_g s_g s_g; lq S X_e H_t H_p|].
  split; [unfold stateReset, timer_running; tmq s_st s_g s_g s_g; lq S X_e H_t H_p|].
  split; [exact s_gd|]. split; [exact s_init|]. split; [exact s_act|].
  split; [exact s_pe|]. split; [exact s_ppe|].
  split; [intros; apply ts_dm; tr_fill ltac:(lq S X_e H_t H_p)|]. split; [intros; apply ts_ng; tr_fill ltac:(lq S X_e H_t H_p)|].
  split; [apply tr_startUp; tr_fill ltac:(lq S X_e H_t H_p)|]. split; [exact s_rr|]. split; [exact s_wr|exact s_tx].
Qed.

(* ---- writing ---- *)
Lemma restore_emits w : exists d, w_out (snd (restoreFactory w)) = OAppRestore :: d ++ w_out w.
Proof.
  assert (X : exists v, ext w v /\ snd (restoreFactory w) = set_app (app_restore (w_app v)) (set_out (OAppRestore :: w_out v) v)).
  { unfold restoreFactory. repeat rewrite snd_bind. cbv beta. match goal with |- exists v, _ /\ snd (upd _ (snd (emit OAppRestore ?u))) = _ => exists u end. split; [|reflexivity].
    assert (Rrefl := @ext_refl A). assert (Rtrans := @ext_trans A).
    assert (S : forall w w', w_out w' = w_out w -> ext w w') by (intros a b H; exists []; exact H).
    assert (P : forall a v, rel (@ext A) (psWrite8 a v)) by (intros a v u; exists [OPs a (u8 v)]; reflexivity).
    assert (C : forall T (m : M A T) u, ext w u -> rel (@ext A) m -> ext w (snd (m u))) by (intros T m u H1 H2; exact (Rtrans _ _ _ H1 (H2 u))).
    repeat (apply C; [|]); try exact (Rrefl w); try (apply rel_upd; intros; apply S; reflexivity); try match goal with |- rel _ (writeNicknameId _) => apply ext_nick end.
    - unfold ps_writeCRC. rel_tac.
    - unfold ps_writeCtrl. rel_tac.
    - apply rel_forM; auto. intros i. unfold ps_writeUserId, psWriteIdx. rel_tac.
    - apply tr_dd_restore; auto.
    - destruct (c_dm cfg); [apply tr_dm_restore; auto|rel_tac].
    - destruct (c_dm_ng cfg); [apply tr_ng_restore; auto|rel_tac]. }
  destruct X as (v & [d D] & ->). exists d. wsimp. rewrite D. reflexivity.
Qed.
Lemma apart_162 w : apart w -> w_t162 w = 2. Proof. intros H. apply H. Qed.
Lemma write_q b p a v w : apart w -> apart (snd (writeRegister p a v w)) /\ QF b (if (p =? 0) && (a =? 162) then [v] else []) w (snd (writeRegister p a v w)).
Proof.
  intros HA. destruct ((p =? 0) && (a =? 162)) eqn:C.
  - assert (p = 0 /\ a = 162) as [-> ->] by lia. rewrite write_162, (apart_162 w HA). rewrite (timer_running_tv 2 w : timerRunning (w_tm w) 2 = _). unfold W162. rewrite bind_get, (apart_162 w HA).
    assert (HM : span < 65536) by lia. unfold QF. cbn [map fold_left windowStep triggers]. rewrite orb_false_r.
    destruct (N.eqb_spec v 85) as [->|N85].
    + change (85 =? 170) with false. cbn [andb]. replace (tv 2 w =? 0) with (negb (0 <? tv 2 w)) by lia. destruct (0 <? tv 2 w) eqn:T; cbn [negb].
      * cbn [ret bind snd]. split; [exact HA|]. split; [reflexivity|]. split; [reflexivity|]. exists []. split; [reflexivity|]. split; [intros []|discriminate].
      * unfold timer_start. rewrite bind_upd. cbn [ret snd]. split; [apply apart_ts, HA|]. split; [reflexivity|]. split.
        -- pose proof (tv_in 2 w HA two_in) as TI. unfold timerStart. rewrite tv_set. cbn [N.to_nat Pos.to_nat Pos.iter_op Nat.add Nat.eqb]. change (2 =? N.to_nat 2)%nat with true. cbv iota. destruct (nth_error (w_tm w) 2) eqn:NE; [reflexivity|congruence].
        -- exists []. split; [reflexivity|]. split; [intros []|discriminate].
    + cbn [andb]. destruct (N.eqb_spec v 170) as [->|N170]; cbn [andb].
      * destruct (0 <? tv 2 w) eqn:T.
        -- rewrite bind_assoc. unfold timer_stop. rewrite bind_upd. set (w1 := set_tm _ w). rewrite snd_bind. change (snd (ret (0, false) (snd (restoreFactory w1)))) with (snd (restoreFactory w1)). assert (A1 : apart w1) by (apply apart_tp, HA). destruct (RQ_restore w1 A1) as (A2 & H1 & H2 & d & O & _). split; [exact A2|].
           split; [exact H1|]. split; [rewrite H2; cbn [map fold_left]; unfold w1, timerStop; rewrite tv_set; change (2 =? N.to_nat 2)%nat with true; cbv iota; destruct (nth_error (w_tm w) 2); reflexivity|].
           exists d. split; [exact O|]. split; [auto|]. intros _. destruct (restore_emits w1) as [d' D']. rewrite O in D'. destruct d as [|o d]; [exfalso; apply (f_equal (@length _)) in D'; cbn [app length] in D'; rewrite app_length in D'; lia|]. injection D' as -> _. left. reflexivity.
        -- cbn [ret bind snd]. split; [exact HA|]. split; [reflexivity|]. split; [cbn; lia|]. exists []. split; [reflexivity|]. split; [intros []|discriminate].
      * cbn [ret bind snd]. split; [exact HA|]. split; [reflexivity|]. split; [reflexivity|]. exists []. split; [reflexivity|]. split; [intros []|discriminate].
  - destruct (RQ_parts b) as (_ & _ & _ & _ & _ & _ & _ & _ & _ & _ & _ & _ & _ & _ & _ & _ & PW & _). apply (PW p a v); [lia|exact HA].
Qed.
Lemma hits_high page vs : forall a w, 162 < a -> hits page a vs w = [].
Proof. induction vs as [|v vs IH]; intros a w H; [reflexivity|]. cbn [hits]. replace (a =? 162) with false by lia. rewrite andb_false_r. apply IH. lia. Qed.
Lemma hits_firstn page vs : forall k a w, (length vs <= k)%nat \/ 162 < a + N.of_nat k -> hits page a (firstn k vs) w = hits page a vs w.
Proof.
  induction vs as [|v vs IH]; intros k a w H; [destruct k; reflexivity|]. destruct k as [|k]; [|cbn [firstn hits]; rewrite IH; [reflexivity|cbn [length] in H; lia]].
  cbn [firstn]. symmetry. apply hits_high. cbn [length] in H. lia.
Qed.
Lemma loop_q b page pg (m : Msg) : (forall w, pg w = (page w, w)) ->
  forall vs a rxi d w, apart w -> w_rx w = m -> (forall i, (i < length vs)%nat -> nth_error (m_data m) (N.to_nat rxi + i) = nth_error vs i) ->
  (length d + length vs <= 8)%nat -> a + N.of_nat (length vs) <= 256 ->
  let w' := snd (writeLoop (length vs) pg a rxi d w) in apart w' /\ QF b (hits page a vs w) w w'.
Proof.
  intros PG. induction vs as [|v vs IH]; intros a rxi d w HA RX DA LD LA w'; unfold w'.
  - cbn [length writeLoop ret snd hits]. split; [exact HA|apply QF_refl].
  - cbn [length writeLoop hits]. cbn [length] in LD, LA. rewrite (bind_val _ _ _ _ _ (PG w)). assert (RD : rxdv rxi w = (v, w)); [|rewrite (bind_val _ _ _ _ _ RD)]. { unfold rxdv. rewrite bind_get. unfold aget. rewrite RX.
    pose proof (DA 0%nat ltac:(cbn [length]; lia)) as D0. cbn [nth_error] in D0. rewrite Nat.add_0_r in D0. rewrite D0. reflexivity. }
    replace (u8 a) with a by (unfold u8; lia). destruct (write_q b (page w) a v w HA) as [A1 Q1]. destruct (writeRegister (page w) a v w) as [x0 u0] eqn:E0. cbn [snd] in A1, Q1. rewrite (bind_val _ _ _ _ _ E0).
    rewrite (bind_val _ _ _ _ _ (push_ok d (fst x0) u0 ltac:(lia))). cbn [snd].
    destruct (IH (a + 1) (rxi + 1) (d ++ [fst x0]) u0 A1) as [A2 Q2].
    + destruct Q1 as (Q1 & _). congruence.
    + intros i Hi. pose proof (DA (Datatypes.S i) ltac:(cbn [length]; lia)) as D1. cbn [nth_error] in D1. rewrite <- D1. f_equal. lia.
    + rewrite app_length. cbn [length]. lia.
    + lia.
    + split; [exact A2|]. exact (QF_trans b _ _ _ _ _ Q1 Q2).
Qed.
Lemma loop_tx b page pg (m : Msg) ty nick pre vs a rxi w : (forall w, pg w = (page w, w)) -> apart w -> w_rx w = m -> (forall i, (i < length vs)%nat -> nth_error (m_data m) (N.to_nat rxi + i) = nth_error vs i) ->
  (length pre + length vs <= 8)%nat -> a + N.of_nat (length vs) <= 256 ->
  let w' := snd ((d <- writeLoop (length vs) pg a rxi pre ;; tp_writeMessage (mkTx CLASS_PROTOCOL ty PRIO_3_NORMAL nick d) ;; ret tt) w) in apart w' /\ QF b (hits page a vs w) w w'.
Proof.
  intros PG HA RX DA LD LA w'. destruct (loop_q b page pg m PG vs a rxi pre w HA RX DA LD LA) as [A1 Q1]. unfold w'. destruct (writeLoop (length vs) pg a rxi pre w) as [d u0] eqn:E0. cbn [snd] in A1, Q1.
  rewrite (bind_val _ _ _ _ _ E0), then_ret. destruct (RQ_parts b) as (_ & _ & _ & _ & _ & _ & _ & _ & _ & _ & _ & _ & _ & _ & _ & _ & _ & PT). 
  destruct (PT (mkTx CLASS_PROTOCOL ty PRIO_3_NORMAL nick d) u0 A1) as [A2 Q2]. split; [exact A2|]. rewrite <- (app_nil_r (hits _ _ _ _)). exact (QF_trans b _ _ _ _ _ Q1 Q2).
Qed.

(* ---- the request handlers ---- *)
Lemma hpct_11 w : m_type (w_rx w) = 11 -> handleProtocolClassType w = handleWriteRegister w. Proof. intros H. unfold handleProtocolClassType. rewrite bind_get, H. reflexivity. Qed.
Lemma hpct_29 w : m_type (w_rx w) = 29 -> handleProtocolClassType w = handleIncDec 1 w. Proof. intros H. unfold handleProtocolClassType. rewrite bind_get, H. reflexivity. Qed.
Lemma hpct_30 w : m_type (w_rx w) = 30 -> handleProtocolClassType w = handleIncDec 255 w. Proof. intros H. unfold handleProtocolClassType. rewrite bind_get, H. reflexivity. Qed.
Lemma rsp_q b vs w u (x : N * bool) addr : apart u -> QF b vs w u -> apart (snd ((when negb (snd x) do sendRWRsp addr (fst x)) u)) /\ QF b vs w (snd ((when negb (snd x) do sendRWRsp addr (fst x)) u)).
Proof.
  intros HA HQ. destruct (negb (snd x)); [|auto]. unfold sendRWRsp, sendProt. rewrite then_ret, bind_get. destruct (RQ_parts b) as (_ & _ & _ & _ & _ & _ & _ & _ & _ & _ & _ & _ & _ & _ & _ & _ & _ & PT).
  match goal with |- context [tp_writeMessage ?f] => destruct (PT f u HA) as [A2 Q2] end. split; [exact A2|]. rewrite <- (app_nil_r vs). exact (QF_trans b _ _ _ _ _ HQ Q2).
Qed.
Lemma incdec_q b delta w m : apart w -> w_rx w = m -> msg_wf m ->
  let w' := snd (handleIncDec delta w) in apart w' /\ QF b (match payload m with [n; a] => if (n =? w_nick w) && (a =? 162) then [u8 delta] else [] | _ => [] end) w w'.
Proof.
  intros HA RX WF w'. assert (NONE : apart w /\ QF b [] w w) by (split; [exact HA|apply QF_refl]).
  assert (P := payload_at m (payload m) WF eq_refl). destruct P as [SZ AT]. unfold w', handleIncDec, rxSize, rxForMe, rxd. rewrite !bind_get, RX, SZ. destruct (payload m) as [|n d] eqn:PL; [exact NONE|].
  rewrite (AT 0) by (cbn [length]; lia). change (nth (N.to_nat 0) (n :: d) 0) with n. rewrite (N.eqb_sym n). destruct (w_nick w =? n) eqn:NK; [|rewrite andb_false_r; destruct d as [|? [|]]; exact NONE]. rewrite andb_true_r.
  destruct (N.eqb_spec (N.of_nat (length (n :: d))) 2) as [L|L]; [|destruct d as [|a [|v r]]; try exact NONE; cbn [length] in L; lia].
  destruct d as [|a [|? ?]]; try (cbn [length] in L; lia). cbv iota. cbn [andb]. rewrite !bind_get, RX, (AT 1) by (cbn [length]; lia). change (nth (N.to_nat 1) [n; a] 0) with a.
  destruct (RQ_parts b) as (_ & _ & _ & _ & _ & _ & _ & _ & _ & _ & _ & _ & _ & _ & _ & PR & _). destruct (PR 0 a w HA) as [A1 Q1].
  assert (Z : a = 162 -> fst (readRegister 0 a w) = 0) by (intros ->; reflexivity). rewrite snd_bind. set (u := snd (readRegister 0 a w)) in *. set (v := fst (readRegister 0 a w)) in *.
  destruct (write_q b 0 a (u8 (v + delta)) u A1) as [A2 Q2]. rewrite snd_bind. change ((0 =? 0) && (a =? 162)) with (a =? 162) in Q2. apply rsp_q; [exact A2|].
  pose proof (QF_trans b _ _ _ _ _ Q1 Q2) as Q3. cbn [app] in Q3. destruct (N.eqb_spec a 162) as [A162|]; [|exact Q3]. rewrite (Z A162) in *. exact Q3.
Qed.
Lemma handler_q w m : apart w -> w_rx w = m -> msg_wf m -> m_class m = 0 ->
  let w' := snd (handleProtocolClassType w) in apart w' /\ QF (m_type m =? 8) (written w m) w w'.
Proof.
  intros HA RX WF MC w'. set (b := m_type m =? 8). assert (NONE : apart w /\ QF b [] w w) by (split; [exact HA|apply QF_refl]).
  assert (P := payload_at m (payload m) WF eq_refl). destruct P as [SZ AT]. assert (L8 : (length (payload m) <= 8)%nat) by (destruct WF as (_ & _ & _ & _ & W & _); lia).
  assert (HEAD : forall n d, payload m = n :: d -> at0 (m_data m) 0 = n) by (intros n d P; rewrite AT, P; [reflexivity|rewrite P; cbn [length]; lia]).
  unfold w'. unfold written. rewrite MC. change (0 =? 0) with true. cbn [andb].
  destruct (N.eq_dec (m_type m) 11) as [T|T11].
  - rewrite hpct_11, T by (rewrite RX; exact T). change (11 =? 25) with false. change (11 =? 29) with false. change (11 =? 30) with false. change (11 =? 38) with false. change (11 =? 11) with true. cbn [andb].
    unfold handleWriteRegister, rxSize, rxForMe, rxd. rewrite !bind_get, RX, SZ. destruct (payload m) as [|n d] eqn:PL; [exact NONE|]. rewrite (HEAD n d eq_refl). rewrite (N.eqb_sym n). destruct (w_nick w =? n) eqn:NK; [|rewrite andb_false_r; exact NONE]. rewrite andb_true_r.
    assert (Z1 : match d with | a :: _ :: _ => @nil N | _ => [] end = []) by (destruct d as [|? [|]]; reflexivity).
    assert (Z2 : match d with | p1 :: p2 :: a :: _ :: _ => @nil N | _ => [] end = []) by (destruct d as [|? [|? [|? [|]]]]; reflexivity). rewrite Z1, Z2, app_nil_r. clear Z1 Z2.
    destruct (N.eqb_spec (N.of_nat (length (n :: d))) 3) as [L|L]; [|destruct d as [|a [|v [|]]]; try exact NONE; elim L; reflexivity].
    destruct d as [|a [|v [|? ?]]]; try (cbn [length] in L; lia). cbv iota. rewrite !bind_get, RX, (AT 1), (AT 2) by (cbn [length]; lia). change (nth (N.to_nat 1) [n; a; v] 0) with a. change (nth (N.to_nat 2) [n; a; v] 0) with v.
    destruct (write_q b 0 a v w HA) as [A1 Q1]. rewrite snd_bind. change ((0 =? 0) && (a =? 162)) with (a =? 162) in Q1. exact (rsp_q b _ w _ _ a A1 Q1).
  - destruct (N.eq_dec (m_type m) 25) as [T|T25].
    { rewrite hpct_25, T by (rewrite RX; exact T). change (25 =? 25) with true. change (25 =? 29) with false. change (25 =? 30) with false. change (25 =? 38) with false. change (25 =? 11) with false. cbn [andb].
      unfold handlePageWrite, rxSize, rxForMe, rxd. rewrite !bind_get, RX, SZ. destruct (payload m) as [|n d] eqn:PL; [exact NONE|]. rewrite (HEAD n d eq_refl). rewrite (N.eqb_sym n). destruct (w_nick w =? n) eqn:NK; [|rewrite andb_false_r; exact NONE]. rewrite andb_true_r.
      match goal with |- _ /\ QF b (?x ++ ?y ++ ?z) _ _ => replace x with (@nil N) by (destruct d as [|? [|? [|]]]; reflexivity); replace z with (@nil N) by (destruct d as [|? [|? [|? [|]]]]; reflexivity) end. rewrite app_nil_r. cbn [app].
      destruct (N.leb_spec 3 (N.of_nat (length (n :: d)))) as [L|L]; [|destruct d as [|a [|v r]]; try exact NONE; cbn [length] in L; lia].
      destruct d as [|a [|v r]]; try (cbn [length] in L; lia). cbv iota. rewrite !bind_get, RX, (AT 1) by (cbn [length]; lia). change (nth (N.to_nat 1) (n :: a :: v :: r) 0) with a.
      assert (A256 : a < 256) by (apply (payload_byte m a WF); rewrite PL; cbn [In]; auto). cbn [length] in L8. set (vs := v :: r) in *.
      replace (N.of_nat (length (n :: a :: vs)) - 2) with (N.of_nat (length vs)) by (cbn [length]; lia). set (k := N.to_nat (clampNum (N.of_nat (length vs)) a)).
      assert (LV : (length vs <= 6)%nat) by (unfold vs; cbn [length]; lia).
      assert (KL : (k <= length vs)%nat /\ a + N.of_nat k <= 256 /\ ((length vs <= k)%nat \/ 162 < a + N.of_nat k)) by (unfold k, clampNum; destruct (N.ltb_spec (255 - N.of_nat (length vs)) a); lia).
      destruct KL as (K1 & K2 & K3). rewrite <- (hits_firstn w_page vs k a w K3). assert (LF : length (firstn k vs) = k) by (apply firstn_length_le, K1). assert (FN : forall i, (i < k)%nat -> nth_error (firstn k vs) i = nth_error vs i) by (intros i Hi; apply firstn_nth; exact Hi). revert LF FN. generalize (firstn k vs). intros us LF FN. rewrite <- LF.
      apply (loop_tx b w_page (get w_page) m); auto; rewrite ?LF.
      - intros i Hi. change (N.to_nat 2 + i)%nat with (S (S i)). rewrite (data_at m (n :: a :: vs) _ WF SZ AT) by (cbn [length]; lia). cbn [nth_error]. symmetry. apply FN. exact Hi.
      - cbn [length]. lia.
      - exact K2. }
    destruct (N.eq_dec (m_type m) 29) as [T|T29].
    { rewrite hpct_29, T by (rewrite RX; exact T). change (29 =? 25) with false. change (29 =? 29) with true. change (29 =? 30) with false. change (29 =? 38) with false. change (29 =? 11) with false. cbn [andb].
      destruct (incdec_q b 1 w m HA RX WF) as [A1 Q1]. split; [exact A1|]. match goal with |- QF b ?l _ _ => match type of Q1 with QF b ?l' _ _ => replace l with l'; [exact Q1|] end end.
      destruct (payload m) as [|n [|a [|v [|x r]]]]; try reflexivity; destruct (n =? w_nick w); cbn [andb]; try reflexivity. destruct (a =? 162); reflexivity. destruct r; reflexivity. }
    destruct (N.eq_dec (m_type m) 30) as [T|T30].
    { rewrite hpct_30, T by (rewrite RX; exact T). change (30 =? 25) with false. change (30 =? 30) with true. change (30 =? 29) with false. change (30 =? 38) with false. change (30 =? 11) with false. cbn [andb].
      destruct (incdec_q b 255 w m HA RX WF) as [A1 Q1]. split; [exact A1|]. match goal with |- QF b ?l _ _ => match type of Q1 with QF b ?l' _ _ => replace l with l'; [exact Q1|] end end.
      destruct (payload m) as [|n [|a [|v [|x r]]]]; try reflexivity; destruct (n =? w_nick w); cbn [andb]; try reflexivity. destruct (a =? 162); reflexivity. destruct r; reflexivity. }
    destruct (N.eq_dec (m_type m) 38) as [T|T38].
    { rewrite hpct_38, T by (rewrite RX; exact T). change (38 =? 25) with false. change (38 =? 29) with false. change (38 =? 30) with false. change (38 =? 38) with true. change (38 =? 11) with false. cbn [andb].
      unfold handleExtPageWrite, rxSize, rxForMe, rxd. rewrite !bind_get, RX, SZ. destruct (payload m) as [|n d] eqn:PL; [exact NONE|]. rewrite (HEAD n d eq_refl). rewrite (N.eqb_sym n). destruct (w_nick w =? n) eqn:NK; [|rewrite andb_false_r; exact NONE]. rewrite andb_true_r.
      match goal with |- _ /\ QF b (?x ++ ?y ++ ?z) _ _ => replace x with (@nil N) by (destruct d as [|? [|? [|]]]; reflexivity); replace y with (@nil N) by (destruct d as [|? [|? [|? [|]]]]; reflexivity) end. cbn [app].
      destruct (N.leb_spec 5 (N.of_nat (length (n :: d)))) as [L|L]; [|destruct d as [|p1 [|p2 [|a [|v r]]]]; try exact NONE; cbn [length] in L; lia].
      destruct d as [|p1 [|p2 [|a [|v r]]]]; try (cbn [length] in L; lia). cbv iota. rewrite !bind_get, RX, (AT 1), (AT 2), (AT 3) by (cbn [length]; lia).
      change (nth (N.to_nat 1) (n :: p1 :: p2 :: a :: v :: r) 0) with p1. change (nth (N.to_nat 2) (n :: p1 :: p2 :: a :: v :: r) 0) with p2. change (nth (N.to_nat 3) (n :: p1 :: p2 :: a :: v :: r) 0) with a.
      assert (P256 : p2 < 256) by (apply (payload_byte m p2 WF); rewrite PL; cbn [In]; auto).
      assert (A256 : a < 256) by (apply (payload_byte m a WF); rewrite PL; cbn [In]; auto). cbn [length] in L8. set (vs := v :: r) in *.
      replace (N.of_nat (length (n :: p1 :: p2 :: a :: vs)) - 4) with (N.of_nat (length vs)) by (cbn [length]; lia).
      set (k := N.to_nat (if 255 - N.of_nat (length vs) + 1 <? a then 255 - a + 1 else N.of_nat (length vs))).
      assert (LV : (length vs <= 4)%nat) by (unfold vs; cbn [length]; lia).
      assert (KL : (k <= length vs)%nat /\ a + N.of_nat k <= 256 /\ ((length vs <= k)%nat \/ 162 < a + N.of_nat k)) by (unfold k; destruct (N.ltb_spec (255 - N.of_nat (length vs) + 1) a); lia).
      destruct KL as (K1 & K2 & K3). rewrite <- (hits_firstn _ vs k a w K3). assert (LF : length (firstn k vs) = k) by (apply firstn_length_le, K1). assert (FN : forall i, (i < k)%nat -> nth_error (firstn k vs) i = nth_error vs i) by (intros i Hi; apply firstn_nth; exact Hi). revert LF FN. generalize (firstn k vs). intros us LF FN. rewrite <- LF.
      assert (MK : mkWord p1 p2 = 256 * p1 + p2) by (unfold mkWord; rewrite be2 by assumption; reflexivity). rewrite MK.
      apply (loop_tx b (fun _ => 256 * p1 + p2) (ret (256 * p1 + p2)) m); auto; rewrite ?LF.
      - intros i Hi. change (N.to_nat 4 + i)%nat with (S (S (S (S i)))). rewrite (data_at m (n :: p1 :: p2 :: a :: vs) _ WF SZ AT) by (cbn [length]; lia). cbn [nth_error]. symmetry. apply FN. exact Hi.
      - cbn [length]. lia.
      - exact K2. }
    replace (m_type m =? 11) with false by lia. replace (m_type m =? 25) with false by lia. replace (m_type m =? 29) with false by lia. replace (m_type m =? 30) with false by lia. replace (m_type m =? 38) with false by lia. cbn [andb].
    match goal with |- _ /\ QF b ?l _ _ => replace l with (@nil N) by (destruct (payload m) as [|n [|? [|? [|? [|]]]]]; try reflexivity; destruct (n =? w_nick w); reflexivity) end.
    destruct (RQ_parts b) as (PH & _). apply PH; try (rewrite RX; assumption); [|exact HA]. rewrite RX. unfold b. destruct (N.eqb_spec (m_type m) 8); auto.
Qed.

(* ---- nodes that agree ---- *)
Lemma bs_appWrite p a v : bs (appWrite p a v).
Proof.
  unfold appWrite. apply bs_bind; [apply bs_emit|intros _]. apply bs_bind; [apply bs_get; intros x y S; rewrite (same_app _ _ S), (same_ps _ _ S); reflexivity|intros r]. apply bs_bind; [apply bs_upd; intros x y S; samet S|intros _].
  apply bs_bind; [|intros ?; apply bs_ret]. intros x y S. split; [match goal with |- ?f = ?g => destruct f, g; reflexivity end|]. 
  assert (G : forall cs u z, same u z -> same (snd (forM cs doApi u)) (snd (forM cs doApi z))); [|apply G, S].
  clear. induction cs as [|c cs IH]; intros u z S; [exact S|]. cbn [forM]. unfold bind. apply IH. apply api_same, S.
Qed.
Lemma bs_write p a v : ~ (p = 0 /\ a = 162) -> bs (writeRegister p a v).
Proof.
  intros N162. assert (PG : bs (get (@w_page A))) by (apply bs_get; intros x y S; apply (same_page _ _ S)).
  assert (DI : bs (get (@w_dmIdx A))) by (apply bs_get; intros x y S; destruct S as [V _]; unfold visible in V; congruence).
  unfold writeRegister. destruct ((p =? 0) && (128 <=? a) && (a <=? 255)) eqn:C.
  - unfold writeVscpRegister. unfold REG_RESTORE. replace (a =? 162) with false by lia. unfold ps_writeCtrl, ps_readCtrl, ps_writeUserId, ps_readUserId, psWriteIdx, psReadIdx.
    repeat first [bs_step | assumption | apply bs_get; intros ? ? S; rewrite (same_page _ _ S); reflexivity | apply bs_upd; intros ? ? S; rewrite (same_page _ _ S); samet S].
  - pose proof (bs_appWrite p a v) as BA. unfold getRegAppWriteProtect, ps_readCtrl, dm_writeRegister, dm_writePaged, dm_writeStd, ng_writeRegister, ps_readDM, ps_readNG, ps_writeDM, ps_writeNG, psReadIdx, psWriteIdx.
    repeat first [bs_step | assumption].
Qed.
Lemma hits_same page vs : (forall x y : World A, same x y -> page x = page y) -> forall a x y, same x y -> hits page a vs x = hits page a vs y.
Proof.
  intros PS. induction vs as [|v vs IH]; intros a x y S; [reflexivity|]. cbn [hits]. rewrite <- (PS x y S). destruct ((page x =? 0) && (a =? 162)) eqn:C.
  - rewrite !hits_high by lia. reflexivity.
  - apply IH. apply bs_write; [lia|exact S].
Qed.
Lemma written_same m x y : same x y -> written x m = written y m.
Proof.
  intros S. unfold written. rewrite (same_nick _ _ S). destruct (payload m) as [|n d]; [reflexivity|]. destruct ((m_class m =? 0) && (n =? w_nick y)); [|reflexivity]. f_equal. f_equal.
  - destruct d as [|a [|v r]]; try reflexivity. destruct (m_type m =? 25); [|reflexivity]. apply hits_same; [intros; apply same_page; assumption|exact S].
  - destruct d as [|p1 [|p2 [|a [|v r]]]]; try reflexivity. destruct (m_type m =? 38); [|reflexivity]. apply hits_same; [reflexivity|exact S].
Qed.

(* ---- one process call ---- *)
Definition evF w (m : Msg) : list N := if listens w m then written (guidOf w m) m else [].
Lemma evF_same a b m : same a b -> evF a m = evF b m.
Proof. intros S. unfold evF, listens. rewrite (attends_same a b m S), (same_st _ _ S), (written_same m _ _ (guidOf_same a b m S)). reflexivity. Qed.
Lemma written_not0 w m : m_class m <> 0 -> written w m = [].
Proof. intros H. unfold written. destruct (payload m); [reflexivity|]. replace (m_class m =? 0) with false by lia. reflexivity. Qed.
Lemma dispatch_q w : apart w -> (w_rxv w = true -> msg_wf (w_rx w)) ->
  let v := snd (dispatch w) in apart v /\ QF (w_rxv w && (m_class (w_rx w) =? 0) && (m_type (w_rx w) =? 8)) (if w_rxv w then evF w (w_rx w) else []) w v.
Proof.
  intros HA WF v. set (b := _ && _). destruct (RQ_parts b) as (_ & PA & PH & PX & PI & PP & PR & PG & PJ & PC & PE & PV & PD & PN & PS & _).
  assert (Rrefl := RQ_refl b). assert (Rtrans := RQ_trans b).
  unfold v, dispatch. rewrite bind_get.
  assert (NO : forall u, RQ b w u -> listens w (w_rx w) = false -> apart u /\ QF b (if w_rxv w then evF w (w_rx w) else []) w u).
  { intros u HU HN. unfold evF. rewrite HN. destruct (w_rxv w); exact (HU HA). }
  destruct (w_st w) eqn:ST.
  - rewrite snd_bind. apply NO; [|unfold listens; rewrite ST; reflexivity]. match goal with |- RQ b w (snd (ret ?r (snd (?q w)))) => change (RQ b w (snd (q w))); enough (Z : rel (RQ b) q) by apply Z end.
    unfold stateStartup, rxIsProt. clear NO. generalize dependent (RQ b). intros R; intros. rel_tac.
  - rewrite snd_bind. apply NO; [apply PI|unfold listens; rewrite ST; reflexivity].
  - rewrite snd_bind. apply NO; [apply PP|unfold listens; rewrite ST; reflexivity].
  - unfold stateActive. rewrite snd_bind.
    match goal with |- context [snd (?q (snd (activeMessage w)))] => assert (Z : rel (RQ b) q) by (clear NO; generalize dependent (RQ b); intros R; intros; rel_tac) end.
    enough (X : apart (snd (activeMessage w)) /\ QF b (if w_rxv w then evF w (w_rx w) else []) w (snd (activeMessage w))).
    { destruct X as [X1 X2]. destruct (Z _ X1) as [X3 X4]. split; [exact X3|]. rewrite <- (app_nil_r (if w_rxv w then _ else _)). exact (QF_trans b _ _ _ _ _ X2 X4). }
    clear Z NO. unfold activeMessage. rewrite bind_get. destruct (w_rxv w) eqn:RV; [|split; [exact HA|apply QF_refl]]. specialize (WF eq_refl).
    rewrite bind_get, snd_bind. set (m := w_rx w) in *.
    match goal with |- context [snd (?q (snd (?p w)))] => assert (Z : rel (RQ b) q) by (generalize dependent (RQ b); intros R; intros; rel_tac); enough (X : apart (snd (p w)) /\ QF b (evF w m) w (snd (p w))) end.
    { destruct X as [X1 X2]. destruct (Z _ X1) as [X3 X4]. split; [exact X3|]. rewrite <- (app_nil_r (evF w m)). exact (QF_trans b _ _ _ _ _ X2 X4). }
    clear Z. unfold evF, listens, attends. rewrite ST. destruct (m_class m =? CLASS_PROTOCOL) eqn:CP.
    + assert (MC : m_class m = 0) by (unfold CLASS_PROTOCOL in CP; lia). assert (B8 : b = (m_type m =? 8)) by (unfold b; rewrite MC; reflexivity). unfold guidOf. rewrite ST. unfold heard. destruct (c_prot_ev cfg) eqn:PV'.
      * destruct (provided w m) as [SV HF]. rewrite snd_bind, HF. set (u := snd (provideProtocolEvent m w)) in *. destruct (PV m w HA) as [UA UQ]. fold u in UA, UQ. assert (UX : w_rx u = m) by apply UQ.
        cbn [andb]. destruct (fst (fst (app_prot (w_app w, w_ps w) m))); cbn [negb].
        -- split; [exact UA|exact UQ].
        -- destruct (handler_q u m UA UX WF MC) as (H1 & H2). split; [exact H1|]. rewrite <- (written_same m u) by exact SV. rewrite B8 in *. exact (QF_trans _ [] _ _ _ _ UQ H2).
      * cbn [andb negb fold_left]. rewrite B8. apply handler_q; try assumption. reflexivity.
    + rewrite written_not0 by (unfold CLASS_PROTOCOL in CP; lia). replace (if negb _ then [] else []) with (@nil N) by (destruct (negb _); reflexivity).
      destruct (PE m w HA) as (H1 & H2). auto.
  - apply NO; [apply Rrefl|unfold listens; rewrite ST; reflexivity].
  - rewrite snd_bind. apply NO; [apply PR|unfold listens; rewrite ST; reflexivity].
  - apply NO; [apply Rrefl|unfold listens; rewrite ST; reflexivity].
Qed.

Lemma regEvents_process w rd : writes w rd = match received rd w with Some m => evF w m | None => [] end.
Proof. unfold writes, after. rewrite process_taken. destruct (received rd w) as [m|]; [|reflexivity]. cbn [optList]. unfold evF. destruct (listens w m); reflexivity. Qed.
Lemma process_q rd w : timersNeeded cfg <= c_timers cfg -> reachable w -> op_wf (OpProcess rd) ->
  let vs := match received rd w with Some m => evF w m | None => [] end in let w' := after w rd in let l := effects w w' in
  tv 2 w' = fold_left (windowStep span) (map WWrite vs) (tv 2 w) /\
  (In OAppRestore l -> otherRestore l \/ triggers span (tv 2 w) vs = true) /\ (triggers span (tv 2 w) vs = true -> In OAppRestore l).
Proof.
  intros HT HR HO vs w' l. assert (HA := reach_apart w VE HR HT). set (u := snd (prologue rd w)).
  assert (AU : apart u) by (apply apart_prologue, HA). assert (TU : tv 2 u = tv 2 w) by (apply tv_prologue; [exact HA|discriminate]).
  assert (OU := prologue_out rd w). fold u in OU.
  assert (VU : (if w_rxv u then evF u (w_rx u) else []) = vs /\ (w_rxv u = true -> msg_wf (w_rx u)) /\ (w_rxv u = true -> received rd w = Some (w_rx u))).
  { unfold vs. destruct (received rd w) as [m|] eqn:RM.
    - destruct (prologue_rx rd w m RM) as [R1 R2]. fold u in R1, R2. rewrite R1, R2. split; [apply evF_same, prologue_same|]. split; [intros _; exact (received_wf VE rd w m HR HO RM)|reflexivity].
    - destruct (prologue_norx rd w RM) as [_ R2]. fold u in R2. rewrite R2. split; [reflexivity|]. split; discriminate. }
  destruct VU as (VU & WU & MU). destruct (dispatch_q u AU WU) as [AD (_ & TD & d & OD & D1 & D2)]. rewrite VU, TU in *. set (y := snd (dispatch u)) in *.
  assert (W' : exists o, w_out w' = ORet o :: w_out y /\ w_tm w' = w_tm y). { unfold w', after, step. rewrite snd_then, (process_state rd w). cbv zeta. cbn [snd]. fold u. fold y. eexists. split; reflexivity. }
  destruct W' as (o & W1 & W2). assert (LL : exists d0, l = d0 ++ rev d ++ [ORet o] /\ (forall x, In x d0 -> x = OProcess \/ exists m, x = ORx m)).
  { unfold l. rewrite (effects_app w w' (ORet o :: d ++ (match received rd w with Some m => [ORx m] | None => [] end) ++ [OProcess])).
    - cbn [rev]. rewrite !rev_app_distr. exists (rev ((match received rd w with Some m => [ORx m] | None => [] end) ++ [OProcess])). split; [rewrite rev_app_distr, <- !app_assoc; reflexivity|].
      intros x HX. apply in_rev in HX. destruct (received rd w) as [m|]; cbn [app] in HX; [destruct HX as [HX|[HX|[]]]; [right; exists m; auto|left; auto]|destruct HX as [HX|[]]; left; auto].
    - rewrite W1, OD, OU. cbn [app]. rewrite <- !app_assoc. reflexivity. }
  destruct LL as (d0 & LL & LD). split; [unfold tv in *; rewrite W2; exact TD|]. split.
  - intros HI. rewrite LL in HI. apply in_app_or in HI. destruct HI as [HI|HI]; [destruct (LD _ HI) as [X|[m X]]; discriminate X|]. apply in_app_or in HI. destruct HI as [HI|[HI|[]]]; [|discriminate HI].
    apply in_rev in HI. destruct (D1 HI) as [X|[X|X]]; [|left; right|right; exact X].
    + left. left. rewrite LL. apply in_or_app. right. apply in_or_app. left. apply in_rev in X. exact X.
    + apply andb_prop in X. destruct X as [X X3]. apply andb_prop in X. destruct X as [X1 X2]. exists (w_rx u). split; [unfold l, w', after; rewrite process_taken, (MU X1); reflexivity|]. split; lia.
  - intros HT'. rewrite LL. apply in_or_app. right. apply in_or_app. left. apply in_rev. rewrite rev_involutive. apply D2, HT'.
Qed.
Definition JF (l : list WEv) w : Prop := tv 2 w = window span l.
Lemma JF_init l w : timersNeeded cfg <= c_timers cfg -> window span l = 0 -> JF l (snd (core_init w)).
Proof.
  intros HT CU. rewrite core_init_eq. destruct (init_timers VE w HT) as (H1 & H2 & H3 & H4). rewrite H1. set (v := snd (initTimers (snd (initHead w)))) in *. clearbody v. unfold JF. rewrite CU.
  enough (T : tv 2 (snd (initTail true v)) = tv 2 v) by (rewrite T, H4; reflexivity).
  assert (P : RQ true v (snd (initTail true v))).
  { destruct (RQ_parts true) as (_ & _ & _ & _ & _ & _ & _ & _ & _ & _ & _ & _ & _ & _ & PG & _). unfold initTail. apply (rel_bind (RQ true)); [exact (RQ_trans true)|exact PG|]. intros c. apply (rel_bind (RQ true)); [exact (RQ_trans true)| |].
    - destruct (_ && _); [|intros w0; apply RQ_refl]. exact RQ_restore.
    - intros []. intros w0. apply RQ_refl. }
  destruct (P H2) as (_ & _ & T & _). exact T.
Qed.
Lemma JF_step l e w : timersNeeded cfg <= c_timers cfg -> reachable w -> event_wf e -> JF l w -> JF (l ++ regEvents w e) (stepE e w).
Proof.
  intros HT HR HE HJ. assert (HA := reach_apart w VE HR HT). destruct e as [[rd|p|c|]|o k a].
  - cbn [regEvents]. rewrite regEvents_process. destruct (process_q rd w HT HR HE) as (H & _). unfold JF in *. rewrite window_app, <- HJ. exact H.
  - cbn [regEvents]. unfold JF in *. rewrite window_app. cbn [fold_left windowStep]. rewrite <- HJ. change (stepE (EOp (OpTick p)) w) with (set_tm (timerProcess (w_tm w) p) (set_out (OTick p :: w_out w) w)).
    apply (tv_tick 2 p w HA two_in VE).
  - cbn [regEvents]. rewrite app_nil_r. destruct (RQ_parts true) as (_ & PA & _). change (stepE (EOp (OpApi c)) w) with (snd (doApi c w)). destruct (PA c w HA) as (_ & _ & H & _). unfold JF in *. rewrite H. exact HJ.
  - change (stepE (EOp OpInit) w) with (snd (step OpInit w)). rewrite step_init. apply JF_init; [exact HT|]. cbn [regEvents]. rewrite window_app. reflexivity.
  - cbn [regEvents stepE]. cbv zeta. apply JF_init; [exact HT|]. destruct o; rewrite window_app; reflexivity.
Qed.
Lemma JF_run es : timersNeeded cfg <= c_timers cfg -> forall l w, reachable w -> Forall event_wf es -> JF l w -> JF (l ++ regTrace es w) (run es w).
Proof.
  intros HT. induction es as [|e es IH]; intros l w HR HE HJ; [cbn [regTrace]; rewrite app_nil_r; exact HJ|].
  inversion HE; subst. cbn [regTrace]. rewrite app_assoc. change (run (e :: es) w) with (run es (stepE e w)). apply IH; [apply reach_step; assumption|assumption|]. apply JF_step; assumption.
Qed.
Lemma JF_power es ps a wr : timersNeeded cfg <= c_timers cfg -> (forall x, ps x < 256) -> Forall event_wf es -> JF (regTrace es (powerUp ps a wr)) (run es (powerUp ps a wr)).
Proof.
  intros HT HP HE. pose proof (reach_base ps a wr HP) as R0.
  assert (J0 : JF [] (powerUp ps a wr)) by (unfold powerUp; apply JF_init; [exact HT|reflexivity]).
  revert R0 J0. generalize (powerUp ps a wr). intros w R0 J0. exact (JF_run es HT [] w R0 HE J0).
Qed.
Lemma other_events e w : timersNeeded cfg <= c_timers cfg -> reachable w -> (match e with EOp (OpTick _) | EOp (OpApi _) => True | _ => False end) -> In OAppRestore (effects w (stepE e w)) -> In (OApi ARestore) (effects w (stepE e w)).
Proof.
  intros HT HR HE HI. assert (HA := reach_apart w VE HR HT). destruct e as [[rd|p|c|]|o k a]; try contradiction.
  - exfalso. change (stepE (EOp (OpTick p)) w) with (set_tm (timerProcess (w_tm w) p) (set_out (OTick p :: w_out w) w)) in HI. erewrite (effects_app w (set_tm _ _) [OTick p]) in HI by reflexivity. destruct HI as [HI|[]]. discriminate HI.
  - destruct (RQ_parts false) as (_ & PA & _). change (stepE (EOp (OpApi c)) w) with (snd (doApi c w)) in *. destruct (PA c w HA) as (_ & _ & _ & d & O & D & _). rewrite (effects_app w _ d O) in *. apply in_rev in HI. apply in_rev. rewrite rev_involutive. destruct (D HI) as [X|[X|X]]; [exact X|discriminate X|discriminate X].
Qed.
End B.

Lemma triggers_iff t vs : forall n, triggers t n vs = true <-> exists v1 v2, vs = v1 ++ 170 :: v2 /\ 0 < fold_left (windowStep t) (map WWrite v1) n.
Proof.
  induction vs as [|v vs IH]; intros n; cbn [triggers].
  - split; [discriminate|]. intros (v1 & v2 & H & _). destruct v1; discriminate H.
  - rewrite orb_true_iff, IH. split.
    + intros [H|(v1 & v2 & H1 & H2)]; [exists [], vs|exists (v :: v1), v2].
      * apply andb_prop in H. destruct H as [H1 H2]. split; [cbn [app]; f_equal; lia|]. cbn [map fold_left]. lia.
      * subst vs. split; [reflexivity|exact H2].
    + intros (v1 & v2 & H1 & H2). destruct v1 as [|x v1]; cbn [app] in H1; injection H1 as H1 H3; subst v.
      * left. cbn [map fold_left] in H2. lia.
      * right. exists v1, v2. split; [exact H3|exact H2].
Qed.
Lemma fold_window t l : forall n, ~ In WBreak l -> ~ In (WWrite 170) l -> 0 < n -> msPassed l < n -> fold_left (windowStep t) l n = n - msPassed l.
Proof.
  induction l as [|e l IH]; intros n H1 H2 H3 H4; [cbn; lia|]. cbn [fold_left]. assert (H1' : ~ In WBreak l) by (intros X; apply H1; right; exact X). assert (H2' : ~ In (WWrite 170) l) by (intros X; apply H2; right; exact X).
  destruct e as [p|v|]; [| |exfalso; apply H1; left; reflexivity].
  - change (msPassed (WTime p :: l)) with (p + msPassed l) in *. cbn [windowStep]. rewrite IH; [lia|assumption|assumption|lia|lia].
  - change (msPassed (WWrite v :: l)) with (msPassed l) in *. cbn [windowStep]. assert (V : v <> 170) by (intros ->; apply H2; left; reflexivity). replace (v =? 170) with false by lia.
    replace (if v =? 85 then if n =? 0 then t else n else n) with n; [apply IH; assumption|]. destruct (v =? 85); [destruct (N.eqb_spec n 0); lia|reflexivity].
Qed.
Lemma window_iff t l : 0 < window t l <-> exists l1 l2, l = l1 ++ WWrite 85 :: l2 /\ window t l1 = 0 /\ msPassed l2 < t /\ ~ In WBreak l2 /\ ~ In (WWrite 170) l2.
Proof.
  split.
  - induction l as [|e l IH] using rev_ind; [cbn; lia|]. rewrite window_app. cbn [fold_left]. intros H.
    destruct (N.eq_dec (window t l) 0) as [Z|Z].
    + rewrite Z in H. destruct e as [p|v|]; cbn [windowStep] in H; [lia| |lia]. destruct (N.eqb_spec v 85) as [->|]; [|destruct (v =? 170); lia].
      exists l, []. split; [reflexivity|]. split; [exact Z|]. cbn in *. split; [lia|]. split; intros [].
    + assert (Z0 : 0 < window t l) by lia. destruct (IH Z0) as (l1 & l2 & H1 & H2 & H3 & H4 & H5). exists l1, (l2 ++ [e]). rewrite H1. split; [rewrite <- app_assoc; reflexivity|]. split; [exact H2|].
      assert (W : window t l = t - msPassed l2). { rewrite H1, window_app. cbn [fold_left windowStep]. rewrite H2. cbn [N.eqb Pos.eqb]. apply fold_window; [exact H4|exact H5|lia|exact H3]. }
      assert (EA : msPassed (l2 ++ [e]) = msPassed l2 + match e with WTime p => p | _ => 0 end). { clear. induction l2 as [|x l2 IH]; [destruct e; cbn; lia|]. destruct x; cbn [app]; change (msPassed (WTime p :: l2 ++ [e])) with (p + msPassed (l2 ++ [e])) || idtac; unfold msPassed in *; cbn [fold_right]; lia. }
      rewrite EA. destruct e as [p|v|]; cbn [windowStep] in H.
      * split; [lia|]. split; intros X; apply in_app_or in X; destruct X as [X|[X|[]]]; auto; discriminate X.
      * split; [lia|]. split; intros X; apply in_app_or in X; destruct X as [X|[X|[]]]; auto; try discriminate X. injection X as ->. cbn in H. lia.
      * lia.
  - intros (l1 & l2 & -> & H2 & H3 & H4 & H5). rewrite window_app. cbn [fold_left windowStep]. rewrite H2. cbn [N.eqb Pos.eqb]. rewrite fold_window; [lia|exact H4|exact H5|lia|exact H3].
Qed.
