(* Proof_Request.v - a process call of an active node that receives a protocol event *)
From Verif Require Export Spec_Request Proof_Logger Proof_Regs.

Section Q.
Context {A : Type} {E : Env A}.
Implicit Types w : World A.

Lemma same_refl w : same w w. Proof. split; [reflexivity|]. intros; reflexivity. Qed.
Lemma same_tEp w w' : visible w = visible w' -> w_tEp w = w_tEp w'. Proof. intros H. unfold visible in H. congruence. Qed.
Lemma same_trans (a b c : World A) : same a b -> same b c -> same a c.
Proof.
  intros [H1 H2] [H3 H4]. split; [congruence|]. intros id Hid. rewrite (H2 id Hid). apply H4. rewrite <- (same_tEp _ _ H1). exact Hid.
Qed.
Lemma same_sym (a b : World A) : same a b -> same b a.
Proof. intros [H1 H2]. split; [congruence|]. intros id Hid. symmetry. apply H2. rewrite (same_tEp _ _ H1). exact Hid. Qed.
Lemma same_quick w w' : visible w = visible w' -> w_tm w = w_tm w' -> same w w'.
Proof. intros H1 H2. split; [exact H1|]. intros. rewrite H2. reflexivity. Qed.
Lemma same_running w w' id : same w w' -> id <> w_tEp w -> timerRunning (w_tm w) id = timerRunning (w_tm w') id.
Proof. intros [_ H] Hid. unfold timerRunning. rewrite (H id Hid). reflexivity. Qed.

(* the part before the state machine *)
Lemma timerSetAt_other ts i v j : i <> j -> nth_error (timerSetAt ts i v) j = nth_error ts j.
Proof.
  revert i j. induction ts as [|t ts IH]; intros [|i] [|j] H; cbn [timerSetAt nth_error]; try reflexivity; [congruence|apply IH; congruence].
Qed.
Lemma timerSetAt_length ts i v : length (timerSetAt ts i v) = length ts.
Proof. revert i. induction ts as [|t ts IH]; intros [|i]; cbn [timerSetAt length]; try reflexivity. rewrite IH. reflexivity. Qed.
Lemma prologue_same rd w : same (snd (prologue rd w)) w.
Proof.
  assert (HV : visible (snd (prologue rd w)) = visible w).
  { pose (vis0 (v : World A) := (fst (visible v), tt)). assert (H : vis0 (snd (prologue rd w)) = vis0 w) by (apply (pres_prologue vis0 rd); reflexivity).
    assert (HL : length (w_tm (snd (prologue rd w))) = length (w_tm w)).
    { destruct (prologue_tm rd w) as [->|(_ & _ & ->)]; [reflexivity|]. unfold timerStart. apply timerSetAt_length. }
    unfold vis0, visible in *. cbn [fst] in H. congruence. }
  split; [exact HV|]. intros id Hid. rewrite (same_tEp _ _ HV) in Hid. destruct (prologue_tm rd w) as [->|(_ & _ & ->)]; [reflexivity|].
  unfold timerStart. apply timerSetAt_other. lia.
Qed.

(* what happens after the event has been served *)
Definition aftermath (m : Msg) : M A unit :=
  (when c_dm cfg do dm_executeActions actionExecute m) ;;
  (when c_dm_ng cfg do ng_executeActions actionExecute m) ;;
  activeHeartbeat ;;
  count <- get w_xcount ;;
  when 0 <? count do extendedPageRead.

Lemma ext_all : (forall c, rel (@ext A) (doApi c)) /\ (forall m, rel (@ext A) (dm_executeActions actionExecute m)) /\
  (forall m, rel (@ext A) (ng_executeActions actionExecute m)) /\ rel (@ext A) activeHeartbeat /\ rel (@ext A) extendedPageRead /\
  rel (@ext A) handleProtocolClassType /\ (forall p a v, rel (@ext A) (writeRegister p a v)) /\ (forall p a, rel (@ext A) (readRegister p a)).
Proof.
  pose (R := @ext A). assert (Rrefl : forall w, R w w) by apply ext_refl. assert (Rtrans : forall a b c, R a b -> R b c -> R a c) by apply ext_trans.
  assert (S : forall w w', w_out w' = w_out w -> R w w') by (intros w w' H; exists []; exact H).
  assert (X_e : forall o, rel R (emit o)) by (intros o w; exists [o]; reflexivity).
  assert (X_emit : forall o, plainObs o = true -> rel R (emit o)) by (intros o _; apply X_e).
  change ((forall c, rel R (doApi c)) /\ (forall m, rel R (dm_executeActions actionExecute m)) /\
  (forall m, rel R (ng_executeActions actionExecute m)) /\ rel R activeHeartbeat /\ rel R extendedPageRead /\
  rel R handleProtocolClassType /\ (forall p a v, rel R (writeRegister p a v)) /\ (forall p a, rel R (readRegister p a))). clearbody R.
  tr_mid R ltac:(tr_leaf ltac:(first [apply X_e | apply S; reflexivity | intros ?; apply S; reflexivity])).
  assert (X_act : forall a p m, rel R (emit (OAction a p m))) by (intros; apply X_e). assert (X_cu : rel R (emit OHeartbeatCustom)) by apply X_e.
  assert (X_s : forall g, (forall w, w_out (g w) = w_out w) -> forall w, R w (g w)) by (intros g H w; apply S, H).
  split; [assumption|]. split; [intros m; apply tr_dm_executeActions; try assumption; intros; first [apply t_psW | apply S; reflexivity]|].
  split; [intros m; apply tr_ng_executeActions; try assumption; intros; first [apply t_psW | apply X_e | apply S; reflexivity]|].
  split; [apply tr_activeHeartbeat; try assumption; intros; first [apply t_psW | apply X_e | apply S; reflexivity]|].
  split; [apply tr_extendedPageRead; try assumption; intros; first [apply t_psW | apply X_e | apply S; reflexivity]|].
  split; [apply tr_handleProtocolClassType; try assumption; intros; first [apply t_psW | apply X_e | apply S; reflexivity]|].
  split; [intros; apply tr_writeRegister; try assumption; intros; first [apply t_psW | apply X_e | apply S; reflexivity]|].
  intros; apply tr_readRegister; try assumption; intros; first [apply t_psW | apply X_e | apply S; reflexivity].
Qed.

(* executing the decision logic: either an action is executed, or nothing visible happens *)
Definition acted w w' : Prop := exists d, w_out w' = d ++ w_out w /\ (actions d <> [] \/ (d = [] /\ same w' w)).
Lemma acted_refl w : acted w w. Proof. exists []. split; [reflexivity|]. right. split; [reflexivity|apply same_refl]. Qed.
Lemma actions_nil_app l1 l2 : actions (l1 ++ l2) = [] -> actions l1 = [] /\ actions l2 = [].
Proof. rewrite actions_app. apply app_eq_nil. Qed.
Lemma acted_trans (a b c : World A) : acted a b -> acted b c -> acted a c.
Proof.
  intros (d1 & H1 & K1) (d2 & H2 & K2). exists (d2 ++ d1). split; [rewrite H2, H1, app_assoc; reflexivity|].
  destruct K1 as [K1|[-> K1]]; [left; intros H; apply actions_nil_app in H; tauto|].
  destruct K2 as [K2|[-> K2]]; [left; intros H; apply actions_nil_app in H; tauto|].
  right. split; [reflexivity|]. eapply same_trans; eassumption.
Qed.
Lemma acted_same w w' : w_out w' = w_out w -> visible w' = visible w -> w_tm w' = w_tm w -> acted w w'.
Proof. intros H1 H2 H3. exists []. split; [exact H1|]. right. split; [reflexivity|]. apply same_quick; assumption. Qed.
Lemma acted_exec : (forall m, rel acted (dm_executeActions actionExecute m)) /\ (forall m, rel acted (ng_executeActions actionExecute m)).
Proof.
  destruct ext_all as (XA & _).
  assert (T : forall a p m, rel acted (actionExecute a p m)).
  { intros a p m w. unfold actionExecute. rewrite bind_emit, bind_get. cbv zeta. rewrite bind_upd.
    match goal with |- acted w (snd (forM ?l _ ?v)) => assert (HX : ext v (snd (forM l doApi v))); [|set (v0 := v) in *] end.
    { apply rel_forM; [apply ext_refl|apply ext_trans|exact XA]. }
    destruct HX as [d Hd]. exists (d ++ [OAction a p m]). split; [rewrite Hd; unfold v0; wsimp; rewrite <- app_assoc; reflexivity|].
    left. intros H. apply actions_nil_app in H. destruct H as [_ H]. discriminate H. }
  assert (Rrefl := acted_refl). assert (Rtrans := acted_trans).
  assert (S : forall w w', w_out w' = w_out w -> visible w' = visible w -> w_tm w' = w_tm w -> acted w w') by exact acted_same.
  assert (U1 : rel acted (@setUB A)) by (intros w; apply S; reflexivity).
  assert (U2 : rel acted (@setNgUB A)) by (intros w; apply S; reflexivity).
  pose (R := acted). change ((forall m, rel R (dm_executeActions actionExecute m)) /\ (forall m, rel R (ng_executeActions actionExecute m))).
  change (forall w, R w w) in Rrefl. change (forall a b c, R a b -> R b c -> R a c) in Rtrans.
  change (forall a p m, rel R (actionExecute a p m)) in T.
  change (forall w w', w_out w' = w_out w -> visible w' = visible w -> w_tm w' = w_tm w -> R w w') in S.
  change (rel R (@setUB A)) in U1. change (rel R (@setNgUB A)) in U2. clearbody R. split.
  - intros m. unfold dm_executeActions, dm_step, dm_rowEnabled, dm_readRow, ps_readDMRow, psReadMultiple, dm_readExtRow, ps_readDMExtRow, dd_getZone, dd_getSubZone, ps_readZone, ps_readSub, ps_readDM, psReadMultiple, psReadIdx, psRead8. rel_tac.
  - intros m. assert (C : forall n i b, rel R (@ng_copy A E n i b)).
    { induction n; intros i [|x b]; cbn [ng_copy]; unfold ps_readNG, psReadIdx, psRead8; rel_tac. }
    assert (G : forall b, rel R (@ng_getNextRule A E b)).
    { intros b. unfold ng_getNextRule, ps_readNG, psReadIdx, psRead8. rel_tac; apply S; reflexivity. }
    assert (N1 : forall b, rel R (ng_rule actionExecute m b)).
    { intros b. unfold ng_rule, ng_decide, dbgIncRule, dbgIncPos, dbgSetError. rel_tac; apply S; reflexivity. }
    assert (N2 : forall n b, rel R (ng_rules n actionExecute m b)) by (induction n; intros b; cbn [ng_rules]; rel_tac).
    unfold ng_executeActions, ng_getFirstRule, dbgClrError, ps_readNG, psReadIdx, psRead8. rel_tac; apply S; reflexivity.
Qed.

Lemma heartbeat_notDue w : heartbeatDue w = false -> snd (activeHeartbeat w) = w.
Proof.
  unfold heartbeatDue, activeHeartbeat. destruct (c_hb_node cfg); [|reflexivity]. cbn [andb]. intros H.
  rewrite !bind_get. unfold timer_running. rewrite bind_get. rewrite H. reflexivity.
Qed.
Lemma aftermath_ext m : rel (@ext A) (aftermath m).
Proof.
  destruct ext_all as (_ & X1 & X2 & X3 & X4 & _). assert (Rrefl := @ext_refl A). assert (Rtrans := @ext_trans A). unfold aftermath. rel_tac.
Qed.
Lemma aftermath_quiet m w : (forall d, w_out (snd (aftermath m w)) = d ++ w_out w -> actions d = []) ->
  (forall w', same w' w -> heartbeatDue w' = false) -> w_xcount w = 0 ->
  w_out (snd (aftermath m w)) = w_out w /\ same (snd (aftermath m w)) w.
Proof.
  intros HA HH HX. destruct acted_exec as [X1 X2]. destruct ext_all as (_ & _ & _ & X3 & X4 & _).
  set (w1 := snd ((when c_dm cfg do dm_executeActions actionExecute m) w)).
  set (w2 := snd ((when c_dm_ng cfg do ng_executeActions actionExecute m) w1)).
  assert (HR : acted w w2).
  { apply (acted_trans w w1 w2).
    - unfold w1. destruct (c_dm cfg); [apply X1|apply acted_refl].
    - unfold w2. destruct (c_dm_ng cfg); [apply X2|apply acted_refl]. }
  destruct HR as (d & D1 & D2).
  assert (EQ : snd (aftermath m w) = snd ((activeHeartbeat ;; count <- get w_xcount ;; when 0 <? count do extendedPageRead) w2)) by reflexivity.
  assert (HE : ext w2 (snd (aftermath m w))).
  { rewrite EQ. assert (Rrefl := @ext_refl A). assert (Rtrans := @ext_trans A).
    assert (G : rel (@ext A) (activeHeartbeat ;; count <- get w_xcount ;; when 0 <? count do extendedPageRead)) by rel_tac. apply G. }
  destruct HE as [d2 HE]. destruct D2 as [D2|[-> D2]].
  { exfalso. apply D2. specialize (HA (d2 ++ d)). rewrite HE, D1, app_assoc in HA. specialize (HA eq_refl). apply actions_nil_app in HA. tauto. }
  assert (HD : heartbeatDue w2 = false) by (apply HH; exact D2).
  assert (HC : w_xcount w2 = 0). { destruct D2 as [V _]. unfold visible in V. assert (w_xcount w2 = w_xcount w) by congruence. lia. }
  assert (EQ2 : snd (aftermath m w) = w2).
  { rewrite EQ. unfold bind at 1. rewrite (heartbeat_notDue w2 HD). rewrite bind_get, HC. reflexivity. }
  rewrite EQ2. split; [rewrite D1; reflexivity|exact D2].
Qed.

(* the application hears m, makes no API calls, and claims it or not *)
Definition reacts (b : bool) w m : Prop := if c_prot_ev cfg then fst (app_prot (w_app w, w_ps w) m) = (b, []) else b = false.
Definition serving (b : bool) : M A unit := when negb b do handleProtocolClassType.
Lemma unclaimed_reacts w m : unclaimed w m -> reacts false w m.
Proof. unfold unclaimed, reacts. destruct (c_prot_ev cfg); auto. Qed.
Lemma serving_ext b : rel (@ext A) (serving b).
Proof. destruct ext_all as (_ & _ & _ & _ & _ & XH & _). destruct b; [intros w; apply ext_refl|exact XH]. Qed.
Lemma dispatch_active b m w : isActive w = true -> w_rx w = m -> w_rxv w = true -> m_class m = 0 -> reacts b w m ->
  let w0 := set_out (notice m ++ w_out w) (heard w m) in
  snd (dispatch w) = snd (aftermath m (snd (serving b w0))).
Proof.
  intros HA HX HV HC HU. cbv zeta. unfold dispatch. rewrite bind_get. unfold isActive in HA. destruct (w_st w) eqn:HS; try discriminate HA.
  unfold stateActive, activeMessage. rewrite !bind_assoc, bind_get, HV. cbv iota. rewrite !bind_assoc, bind_get, HX.
  change CLASS_PROTOCOL with 0. replace (m_class m =? 0) with true by lia.
  assert (HE : forall (v : World A), snd ((h <- ((when c_dm cfg do dm_executeActions actionExecute m) ;; (when c_dm_ng cfg do ng_executeActions actionExecute m) ;; ret true) ;;
     activeHeartbeat ;; count <- get w_xcount ;; (if 0 <? count then extendedPageRead ;; ret true else ret h)) v) = snd (aftermath m v)).
  { intros v. unfold aftermath. rewrite !bind_assoc. unfold bind, ret, get. cbn [fst snd].
    match goal with |- context [0 <? ?c] => destruct (0 <? c) end; reflexivity. }
  unfold notice, heard, reacts in *. destruct (c_prot_ev cfg).
  - unfold provideProtocolEvent.
    rewrite !bind_assoc, bind_emit. wsimp. rewrite !bind_assoc, bind_get. wsimp. rewrite !bind_assoc, bind_upd.
    rewrite HU. cbn [fst snd forM]. etransitivity; [|apply HE]. reflexivity.
  - subst b. cbn [app]. unfold bind at 1. etransitivity; [|rewrite <- HE; reflexivity].
    replace (set_out (w_out w) w) with w by (destruct w; reflexivity). reflexivity.
Qed.

Lemma timerSetAt_ids l : forall i v, map t_id (timerSetAt l i v) = map t_id l.
Proof. induction l as [|t l IH]; intros [|i] v; cbn [timerSetAt map]; [reflexivity..|]. rewrite IH. reflexivity. Qed.
(* one process call that receives the protocol event m *)
Lemma serve b rd w m : isActive w = true -> received rd w = Some m -> m_class m = 0 -> reacts b w m ->
  exists w0, same w0 (heard w m) /\ w_rx w0 = m /\ map t_id (w_tm w0) = map t_id (w_tm w) /\ w_out w0 = notice m ++ ORx m :: OProcess :: w_out w /\
   let w1 := snd (serving b w0) in
   let w' := snd (step (OpProcess rd) w) in
   (exists d, w_out w' = d ++ w_out w1) /\
   (actions (effects w w') = [] -> (forall v, same v w1 -> heartbeatDue v = false) -> w_xcount w1 = 0 ->
    w_out w' = ORet true :: w_out w1 /\ same w' w1).
Proof.
  intros HA HR HC HU. set (wp := snd (prologue rd w)).
  assert (SP : same wp w) by apply prologue_same. destruct (prologue_rx rd w m HR) as [RX RV]. fold wp in RX, RV.
  assert (AP : w_app wp = w_app w). { destruct SP as [V _]. unfold visible in V. congruence. }
  assert (PP : w_ps wp = w_ps w). { destruct SP as [V _]. unfold visible in V. congruence. }
  assert (SA : isActive wp = true). { destruct SP as [V _]. unfold visible in V. unfold isActive in *. replace (w_st wp) with (w_st w) by congruence. exact HA. }
  assert (OP : w_out wp = ORx m :: OProcess :: w_out w) by (unfold wp; rewrite prologue_out, HR; reflexivity).
  exists (set_out (notice m ++ w_out wp) (heard wp m)). split.
  { unfold heard. destruct (c_prot_ev cfg); [|exact SP]. rewrite AP, PP. destruct SP as [V T]. split; [|exact T].
    unfold visible in *. wsimp. congruence. }
  split; [unfold heard; destruct (c_prot_ev cfg); exact RX|].
  split. { assert (TI : map t_id (w_tm wp) = map t_id (w_tm w)) by (unfold wp; destruct (prologue_tm rd w) as [->|(_ & _ & ->)]; [reflexivity|]; unfold timerStart; apply timerSetAt_ids). unfold heard. destruct (c_prot_ev cfg); exact TI. }
  split; [unfold heard; wsimp; rewrite OP; reflexivity|].
  assert (UW : reacts b wp m) by (unfold reacts; rewrite AP, PP; exact HU).
  pose proof (dispatch_active b m wp SA RX RV HC UW) as HD. cbv zeta in HD. cbv zeta. set (w1 := snd (serving b _)) in *.
  assert (PS := process_state rd w). cbv zeta in PS. rewrite HR in PS. fold wp in PS. rewrite HD in PS.
  assert (SW : snd (step (OpProcess rd) w) = set_out (ORet true :: w_out (snd (aftermath m w1))) (set_rxv false (snd (aftermath m w1))))
    by (cbn [step]; rewrite snd_then, PS; reflexivity).
  rewrite SW. destruct (aftermath_ext m w1) as [d Hd].
  assert (HE1 : ext w w1).
  { destruct (serving_ext b (set_out (notice m ++ w_out wp) (heard wp m))) as [d1 H1]. fold w1 in H1.
    exists (d1 ++ notice m ++ [ORx m; OProcess]). rewrite H1. wsimp. rewrite OP, <- !app_assoc. reflexivity. }
  split; [exists (ORet true :: d); wsimp; rewrite Hd; reflexivity|].
  intros H1 H2 H3. destruct (aftermath_quiet m w1) as [Q1 Q2].
  - intros d' Hd'. destruct HE1 as [d1 HE1]. rewrite (effects_app w _ (ORet true :: d' ++ d1)) in H1 by (wsimp; rewrite Hd', HE1, app_assoc; reflexivity).
    cbn [rev] in H1. rewrite rev_app_distr in H1. apply actions_nil_app in H1. destruct H1 as [H1 _]. apply actions_nil_app in H1. destruct H1 as [_ H1].
    rewrite <- (rev_involutive d'). apply actions_rev. exact H1.
  - exact H2.
  - exact H3.
  - split; [wsimp; rewrite Q1; reflexivity|]. apply (same_trans _ (snd (aftermath m w1))); [|exact Q2]. apply same_quick; reflexivity.
Qed.

(* -- hypotheses of the property statements -- *)
Lemma received_taken rd w m : taken (effects w (snd (step (OpProcess rd) w))) = [m] -> received rd w = Some m.
Proof. rewrite process_taken. destruct (received rd w); cbn [optList]; congruence. Qed.
Lemma payload_at m d : msg_wf m -> payload m = d ->
  m_size m = N.of_nat (length d) /\ forall i, i < N.of_nat (length d) -> at0 (m_data m) i = nth (N.to_nat i) d 0.
Proof.
  intros (_ & _ & _ & _ & H1 & H2 & _) <-. unfold payload. rewrite firstn_length, H2. split; [lia|]. intros i Hi. unfold at0.
  assert (HH : (N.to_nat i < N.to_nat (m_size m))%nat) by lia. revert HH. generalize (N.to_nat i) as j. generalize (N.to_nat (m_size m)) as k. clear.
  intros k j. revert k. generalize (m_data m) as l. induction j as [|j IH]; intros [|x l] [|k] H; try lia; try reflexivity; cbn [firstn nth].
  apply IH. lia.
Qed.
Section R.
Hypothesis VE : valid_env E.
Lemma received_wf rd w m : reachable w -> op_wf (OpProcess rd) -> received rd w = Some m -> msg_wf m.
Proof.
  intros HR HO HM. pose proof (process_taken rd w) as T. rewrite HM in T. cbn [optList] in T.
  destruct (reach_inv VE (snd (step (OpProcess rd) w)) (reach_op w (OpProcess rd) HR HO)) as [ps0 HI].
  pose proof (i_out _ _ HI) as HF.
  assert (HIn : In (ORx m) (effects w (snd (step (OpProcess rd) w)))).
  { assert (G : In m (taken (effects w (snd (step (OpProcess rd) w))))) by (rewrite T; left; reflexivity).
    unfold taken in G. apply in_flat_map in G. destruct G as (o & G1 & G2). destruct o; try contradiction G2. destruct G2 as [->|[]]. exact G1. }
  unfold effects in HIn. apply in_rev in HIn. rewrite Forall_forall in HF. apply (HF (ORx m)).
  rewrite <- (firstn_skipn (length (w_out (snd (step (OpProcess rd) w))) - length (w_out w))). apply in_or_app. left. exact HIn.
Qed.
Lemma due_same ps0 v w : Inv ps0 w -> same v w -> heartbeatDue v = heartbeatDue w.
Proof.
  intros HI HS. unfold heartbeatDue. pose proof HS as [V _]. unfold visible in V.
  assert (V1 : w_hbEn v = w_hbEn w) by congruence. assert (V2 : w_tHb v = w_tHb w) by congruence. assert (V3 : w_tEp v = w_tEp w) by congruence.
  rewrite V1, V2. destruct (c_hb_node cfg) eqn:HH; [|reflexivity]. cbn [andb]. f_equal. f_equal.
  destruct (N.eq_dec (w_tHb w) (w_tEp v)) as [EQ|NE]; [|apply (same_running v w _ HS NE)].
  rewrite V3 in EQ. pose proof (i_tHb _ _ HI) as T4. rewrite HH in T4. pose proof (i_tEp _ _ HI) as T3. unfold tid in *.
  destruct (i_tm _ _ HI) as [TM _]. apply (f_equal (@length N)) in TM. rewrite map_length in TM. unfold tids in TM. rewrite map_length, seq_length in TM.
  assert (HL : length (w_tm v) = length (w_tm w)) by congruence.
  assert (C : c_timers cfg <= 3) by (destruct (N.ltb_spec 3 (c_timers cfg)); destruct (N.ltb_spec 4 (c_timers cfg)); unfold TIMER_ID_INVALID in *; lia).
  assert (TE : w_tHb w = 255) by (rewrite T4; destruct (N.ltb_spec 4 (c_timers cfg)); [lia|reflexivity]).
  unfold timerRunning. rewrite TE.
  replace (nth_error (w_tm v) (N.to_nat 255)) with (@None Timer) by (symmetry; apply nth_error_None; lia).
  replace (nth_error (w_tm w) (N.to_nat 255)) with (@None Timer) by (symmetry; apply nth_error_None; lia). reflexivity.
Qed.
End R.
(* what a handler must leave alone so that the rest of the cycle stays as quiet as before *)
Definition hbView w := (w_hbEn w, w_tHb w, w_tEp w).
Definition undisturbed w0 w1 : Prop := (hbView w1 = hbView w0 /\ length (w_tm w1) = length (w_tm w0)) /\
  nth_error (w_tm w1) (N.to_nat (w_tHb w0)) = nth_error (w_tm w0) (N.to_nat (w_tHb w0)) /\ (w_xcount w0 = 0 -> w_xcount w1 = 0).
Lemma undisturbed_refl w : undisturbed w w. Proof. repeat split. auto. Qed.
Lemma undisturbed_trans (a b c : World A) : undisturbed a b -> undisturbed b c -> undisturbed a c.
Proof.
  intros ((H1 & HL) & H2 & H3) ((K1 & KL) & K2 & K3). split; [split; congruence|]. split; [|auto].
  assert (HT : w_tHb b = w_tHb a) by (unfold hbView in H1; congruence). rewrite HT in K2. congruence.
Qed.
Lemma same_undisturbed w0 w1 : same w1 w0 -> w_tm w1 = w_tm w0 -> undisturbed w0 w1.
Proof.
  intros [V T] HT. unfold visible in V. split; [unfold hbView; split; congruence|]. split; [rewrite HT; reflexivity|]. intros. congruence.
Qed.

(* the general shape of a request: E are the effects of serving it *)
Lemma reception (VE : valid_env E) b w rd m : reachable w -> op_wf (OpProcess rd) -> isActive w = true ->
  let w' := snd (step (OpProcess rd) w) in
  taken (effects w w') = [m] -> m_class m = 0 -> reacts b w m ->
  exists w0, same w0 (heard w m) /\ w_rx w0 = m /\ msg_wf m /\ map t_id (w_tm w0) = map t_id (w_tm w) /\
    let w1 := snd (serving b w0) in
    exists rest, effects w w' = OProcess :: ORx m :: notice m ++ effects w0 w1 ++ rest /\
      (quiet w w' -> undisturbed w0 w1 -> rest = [ORet true] /\ same w' w1).
Proof.
  intros HR HO HA w' HT HC HU. pose proof (received_taken rd w m HT) as HM.
  destruct (serve b rd w m HA HM HC HU) as (w0 & S0 & RX & TI & O0 & S1 & S2). exists w0. split; [exact S0|]. split; [exact RX|].
  split; [apply (received_wf VE rd w m HR HO HM)|]. split; [exact TI|]. cbv zeta. set (w1 := snd (serving b w0)) in *. fold w' in S1, S2.
  destruct S1 as [d D]. destruct (serving_ext b w0) as [d1 D1]. fold w1 in D1.
  assert (EF : effects w w' = OProcess :: ORx m :: notice m ++ effects w0 w1 ++ rev d).
  { rewrite (effects_app w0 w1 d1 D1). rewrite (effects_app w w' (d ++ d1 ++ notice m ++ [ORx m; OProcess])).
    - rewrite !rev_app_distr. replace (rev (notice m)) with (notice m) by (unfold notice; destruct (c_prot_ev cfg); reflexivity).
      cbn [rev app]. rewrite <- !app_assoc. reflexivity.
    - rewrite D, D1, O0, <- !app_assoc. reflexivity. }
  exists (rev d). split; [exact EF|]. intros (Q1 & Q2 & Q3) ((U1 & U0) & U2 & U3).
  destruct (reach_inv VE w HR) as [ps0 HI].
  assert (HH0 : forall v, same v w1 -> heartbeatDue v = false).
  { intros v Hv. rewrite <- Q2. destruct (c_hb_node cfg) eqn:HB; [|unfold heartbeatDue; rewrite HB; reflexivity].
    (* the state v with the framework's view of w1 turned back into that of w *)
    assert (SW : same w0 (heard w m)) by exact S0. 
    assert (IH : Inv ps0 (heard w m)) by (unfold heard; destruct (c_prot_ev cfg); [|exact HI]; destruct HI; constructor; assumption).
    assert (E1 : heartbeatDue (heard w m) = heartbeatDue w) by (unfold heard; destruct (c_prot_ev cfg); reflexivity).
    rewrite <- E1, <- (due_same ps0 w0 _ IH S0).
    assert (V3 : w_tEp w0 = w_tEp (heard w m)) by (apply same_tEp; apply S0). assert (V4 : w_tHb w0 = w_tHb (heard w m)) by (destruct S0 as [V _]; unfold visible in V; congruence).
    unfold hbView in U1. assert (A1 : w_hbEn w1 = w_hbEn w0) by congruence. assert (A2 : w_tHb w1 = w_tHb w0) by congruence. assert (A3 : w_tEp w1 = w_tEp w0) by congruence.
    pose proof Hv as [V VT]. unfold visible in V. assert (B1 : w_hbEn v = w_hbEn w1) by congruence. assert (B2 : w_tHb v = w_tHb w1) by congruence. assert (B3 : w_tEp v = w_tEp w1) by congruence.
    unfold heartbeatDue. rewrite B1, B2, A1, A2. f_equal. f_equal.
    destruct (N.eq_dec (w_tHb w0) (w_tEp v)) as [EQ|NE].
    - (* both timers invalid *)
      rewrite B3, A3, V3, V4 in EQ. pose proof (i_tHb _ _ IH) as T4. rewrite HB in T4. pose proof (i_tEp _ _ IH) as T3. unfold tid in *.
      assert (C : c_timers cfg <= 3) by (destruct (N.ltb_spec 3 (c_timers cfg)); destruct (N.ltb_spec 4 (c_timers cfg)); unfold TIMER_ID_INVALID in *; lia).
      destruct (i_tm _ _ IH) as [TM _]. apply (f_equal (@length N)) in TM. rewrite map_length in TM. unfold tids in TM. rewrite map_length, seq_length in TM.
      assert (TE : w_tHb w0 = 255) by (rewrite V4, T4; destruct (N.ltb_spec 4 (c_timers cfg)); [lia|reflexivity]).
      assert (TP : w_tEp w0 = 255) by (rewrite V3, T3; destruct (N.ltb_spec 3 (c_timers cfg)); [lia|reflexivity]).
      assert (L0 : length (w_tm w0) = length (w_tm (heard w m))) by (destruct S0 as [V0 _]; unfold visible in V0; congruence).
      assert (L1 : length (w_tm v) = length (w_tm w1)) by congruence.
      assert (N1 : nth_error (w_tm w0) 255 = None) by (apply nth_error_None; lia).
      assert (N3 : nth_error (w_tm v) 255 = None).
      { apply nth_error_None. rewrite L1, U0, L0. lia. }
      unfold timerRunning. rewrite TE. change (N.to_nat 255) with 255%nat. rewrite N1, N3. reflexivity.
    - unfold timerRunning. rewrite VT by exact NE. rewrite U2. reflexivity. }
  destruct (S2 Q1 HH0) as [G1 G2].
  - apply U3. destruct S0 as [V _]. unfold visible in V. assert (X : w_xcount w0 = w_xcount (heard w m)) by congruence. rewrite X.
    unfold heard, readPending in *. destruct (c_prot_ev cfg); wsimp; lia.
  - split; [|exact G2]. rewrite G1 in D. apply (f_equal (@rev Obs)) in D. rewrite rev_app_distr in D. cbn [rev] in D.
    apply app_inv_head in D. symmetry. exact D.
Qed.
Lemma request_served (VE : valid_env E) w rd m : reachable w -> op_wf (OpProcess rd) -> isActive w = true ->
  let w' := snd (step (OpProcess rd) w) in
  taken (effects w w') = [m] -> m_class m = 0 -> unclaimed w m ->
  exists w0, same w0 (heard w m) /\ w_rx w0 = m /\ msg_wf m /\ map t_id (w_tm w0) = map t_id (w_tm w) /\
    let w1 := snd (handleProtocolClassType w0) in
    exists rest, effects w w' = OProcess :: ORx m :: notice m ++ effects w0 w1 ++ rest /\
      (quiet w w' -> undisturbed w0 w1 -> rest = [ORet true] /\ same w' w1).
Proof.
  intros HR HO HA w' HT HC HU. exact (reception VE false w rd m HR HO HA HT HC (unclaimed_reacts w m HU)).
Qed.
End Q.
