(* Proof_Segment.v - nicknames on a segment *)
From Verif Require Export Spec_Segment Proof_Disc4 Proof_RW Proof_Proto Prop_Proto.

Section One.
Context {A : Type} {E : Env A}.
Implicit Types w : World A.

(* ---- an active node keeps its nickname, loses it, or is no longer active ---- *)
Definition RK w w' : Prop := w_rx w' = w_rx w /\ (w_st w' = ACTIVE -> w_st w = ACTIVE /\ (w_nick w' = w_nick w \/ w_nick w' = 255)).
Lemma RK_refl w : RK w w. Proof. split; auto. Qed.
Lemma RK_trans a b c : RK a b -> RK b c -> RK a c.
Proof.
  intros (H1 & H2) (H3 & H4). split; [congruence|]. intros H. destruct (H4 H) as (H5 & H6). destruct (H2 H5) as (H7 & H8). split; [exact H7|].
  destruct H6 as [H6|H6]; [|auto]. destruct H8 as [H8|H8]; [left|right]; congruence.
Qed.
Lemma RK_same w w' : w_rx w' = w_rx w -> w_st w' = w_st w -> w_nick w' = w_nick w -> RK w w'.
Proof. intros H1 H2 H3. split; [exact H1|]. rewrite H2, H3. auto. Qed.
Lemma RK_away w w' : w_rx w' = w_rx w -> w_st w' <> ACTIVE -> RK w w'.
Proof. intros H1 H2. split; [exact H1|]. intros H. contradiction. Qed.
Lemma RK_parts : (forall w, m_type (w_rx w) <> 6 -> RK w (snd (handleProtocolClassType w))) /\ (forall c, rel RK (@doApi A E c)) /\ rel RK (@activeHeartbeat A E) /\ rel RK (@extendedPageRead A E) /\
  (forall m, rel RK (@provideEvent A E m)) /\ (forall m, rel RK (@provideProtocolEvent A E m)) /\ (forall m, rel RK (dm_executeActions actionExecute m)) /\ (forall m, rel RK (ng_executeActions actionExecute m)).
Proof.
  assert (RX : (forall b, rel (fun w w' => w_rx w' = w_rx w) (@changeToStateInit A E b)) /\ rel (fun w w' => w_rx w' = w_rx w) (@changeToStateIdle A E) /\ (forall t, rel (fun w w' => w_rx w' = w_rx w) (@changeToStateReset A t)) /\
     rel (fun w w' => w_rx w' = w_rx w) (@restoreFactory A E) /\ rel (fun w w' => w_rx w' = w_rx w) (@handleDropNickname A E) /\ (forall v, rel (fun w w' => w_rx w' = w_rx w) (@writeNicknameId A E v))).
  { pose (R := fun w w' => w_rx w' = w_rx w). assert (Rrefl : forall w, R w w) by reflexivity. assert (Rtrans : forall a b c, R a b -> R b c -> R a c) by (unfold R; intros; congruence).
    assert (S : forall w w', w_rx w' = w_rx w -> R w w') by auto.
    change ((forall b, rel R (@changeToStateInit A E b)) /\ rel R (@changeToStateIdle A E) /\ (forall t, rel R (@changeToStateReset A t)) /\ rel R (@restoreFactory A E) /\ rel R (@handleDropNickname A E) /\ (forall v, rel R (@writeNicknameId A E v))). clearbody R.
    Ltac l1 S := intros; try (unfold setUB, setNgUB, timer_start, timer_stop, emit); first [apply rel_upd; intros; apply S; reflexivity | apply S; reflexivity].
    tr_active2 R ltac:(l1 S). auto 10. }
  destruct RX as (E1 & E2 & E3 & E4 & E5 & E6).
  assert (Rrefl := RK_refl). assert (Rtrans := RK_trans). assert (S := RK_same).
  assert (s_restore : rel RK (@restoreFactory A E)).
  { intros w. split; [apply E4|]. destruct (restore_ram w) as (R1 & _ & _ & _ & R2 & _). intros H. split; [rewrite <- R2; exact H|right; exact R1]. }
  assert (s_dn : rel RK handleDropNickname). { intros w. destruct (drop_away w) as [H|H]; [apply RK_away; [apply E5|exact H]|rewrite H; apply Rrefl]. }
  assert (s_init : forall b, rel RK (@changeToStateInit A E b)) by (intros b w; apply RK_away; [apply E1|rewrite toInit_st; discriminate]).
  assert (s_idle : rel RK (@changeToStateIdle A E)) by (intros w; apply RK_away; [apply E2|rewrite toIdle_st; discriminate]).
  assert (s_reset : forall t, rel RK (@changeToStateReset A t)) by (intros b w; apply RK_away; [apply E3|rewrite toReset_st; discriminate]).
  assert (s_nr : rel RK (@writeNicknameId A E NICK_NOT_INIT ;; changeToStateReset 0)).
  { intros w. apply RK_away; [|rewrite snd_bind, toReset_st; discriminate]. rewrite snd_bind, E3. apply E6. }
  pose (R := RK). change ((forall w, m_type (w_rx w) <> 6 -> R w (snd (handleProtocolClassType w))) /\ (forall c, rel R (@doApi A E c)) /\ rel R (@activeHeartbeat A E) /\ rel R (@extendedPageRead A E) /\
  (forall m, rel R (@provideEvent A E m)) /\ (forall m, rel R (@provideProtocolEvent A E m)) /\ (forall m, rel R (dm_executeActions actionExecute m)) /\ (forall m, rel R (ng_executeActions actionExecute m))). 
  fold R in s_nr, Rrefl, Rtrans, S, s_restore, s_dn, s_init, s_idle, s_reset. clearbody R. clear E1 E2 E3 E4 E5 E6.
  Ltac l2 S := intros; try (unfold setUB, setNgUB, timer_start, timer_stop, emit); first [apply rel_upd; intros; apply S; reflexivity | apply S; reflexivity].
  assert (s_ub : rel R setUB) by l2 S.
  assert (X_e : forall o, rel R (@emit A o)) by l2 S.
  assert (s_tx : forall m, rel R (tp_writeMessage m)).
  { unfold tp_writeMessage, adapterWrite, loopWrite. rel_tac; try (l2 S). destruct (w_txe _ <? 255); l2 S. }
  assert (s_api : forall c, rel R (doApi c)).
  { unfold doApi, startNodeSegmentInit, setAlarm, setTimeSinceEpoch, enableHeartbeat, log_enable, log_setLevel, tp_getTransmitErrors. intros c. destruct c; rel_tac; try (l2 S); [eapply tr_log_log; eauto|..]; unfold ps_writeLogId, ps_writeZone, ps_writeSub, psWrite8; rel_tac; l2 S. }
  assert (s_guid : rel R handleGuidDrop).
  { unfold handleGuidDrop, startNodeSegmentInit, timer_running. set (nr := bind (writeNicknameId NICK_NOT_INIT) _) in *. clearbody nr. rel_tac; try (l2 S). all: unfold dd_getGUID, ps_readGUID, psReadIdx, psRead8; rel_tac. }
  tr_parts R ltac:(l2 S).
  assert (s_nno : rel R handleNewNodeOnline) by (apply ts_handleNewNodeOnline; tr_fill ltac:(l2 S)).
  assert (s_pa : rel R handleProbeAck) by (apply ts_handleProbeAck; tr_fill ltac:(l2 S)).
  assert (s_hrr : rel R handleReadRegister) by (apply ts_handleReadRegister; tr_fill ltac:(l2 S)).
  assert (s_ebl : rel R handleEnterBootLoader) by (apply ts_handleEnterBootLoader; tr_fill ltac:(l2 S)).
  assert (s_gmi : rel R handleGetMatrixInfo) by (apply ts_handleGetMatrixInfo; tr_fill ltac:(l2 S)).
  assert (s_hwr : rel R handleWriteRegister) by (unfold handleWriteRegister, sendRWRsp, rxSize, rxForMe, rxd; rel_tac; l2 S).
  assert (s_id : forall d, rel R (handleIncDec d)) by (intros; unfold handleIncDec, sendRWRsp, rxSize, rxForMe, rxd; rel_tac; l2 S).
  assert (s_ah : rel R activeHeartbeat) by (apply ts_activeHeartbeat; tr_fill ltac:(l2 S)).
  split. { intros w N6. unfold handleProtocolClassType. rewrite bind_get. replace (m_type (w_rx w) =? PT_SET_NICKNAME) with false by (unfold PT_SET_NICKNAME; lia).
    clear N6. generalize (m_type (w_rx w)). intros t. revert w. match goal with |- forall w, R w (snd (?m w)) => change (rel R m) end. rel_tac. }
  split; [exact s_api|]. split; [exact s_ah|]. split; [assumption|]. split; [intros; unfold provideEvent; rel_tac; l2 S|]. split; [intros; unfold provideProtocolEvent; rel_tac; l2 S|].
  split; [intros; apply ts_dm; tr_fill ltac:(l2 S)|]. intros; apply ts_ng; tr_fill ltac:(l2 S).
Qed.

(* everything in the active state after the handling of the event *)
Lemma active_tail w : exists q : bool -> M A bool, (forall h, rel RK (q h)) /\ snd (stateActive w) = snd (q (fst (activeMessage w)) (snd (activeMessage w))).
Proof.
  destruct RK_parts as (_ & _ & PH & PX & _). assert (Rrefl := RK_refl). assert (Rtrans := RK_trans).
  unfold stateActive. rewrite snd_bind. eexists (fun h => _). split; [|reflexivity]. intros h. cbv beta. generalize dependent RK. intros R; intros. rel_tac.
Qed.
Lemma message_tail w : w_rxv w = true -> exists q : M A bool, rel RK q /\ snd (activeMessage w) =
  snd (q (snd ((if m_class (w_rx w) =? 0 then if c_prot_ev cfg then bind (provideProtocolEvent (w_rx w)) (fun handled : bool => when negb handled do handleProtocolClassType) else handleProtocolClassType else provideEvent (w_rx w)) w))).
Proof.
  intros RV. destruct RK_parts as (_ & _ & _ & _ & _ & _ & PD & PN). assert (Rrefl := RK_refl). assert (Rtrans := RK_trans).
  unfold activeMessage. rewrite bind_get, RV, bind_get, snd_bind. eexists. split; [|reflexivity]. generalize dependent RK. intros R; intros. rel_tac.
Qed.
Lemma active_rk w : (w_rxv w = true -> assigns (w_rx w) = false) -> RK w (snd (stateActive w)).
Proof.
  intros NS. destruct (active_tail w) as (q & Q & ->). apply RK_trans with (snd (activeMessage w)); [|apply Q]. clear q Q.
  destruct RK_parts as (PH & _ & _ & _ & PE & PP & _). destruct (w_rxv w) eqn:RV; [|unfold activeMessage; rewrite bind_get, RV; apply RK_refl].
  destruct (message_tail w RV) as (q & Q & ->). match goal with |- RK w (snd (q ?u)) => apply RK_trans with u; [|apply Q] end. clear q Q.
  destruct (m_class (w_rx w) =? 0) eqn:MC; [|apply PE]. assert (N6 : m_type (w_rx w) <> 6) by (specialize (NS eq_refl); unfold assigns in NS; rewrite MC in NS; cbn [andb] in NS; lia).
  destruct (c_prot_ev cfg); [|apply PH, N6]. rewrite snd_bind. pose proof (PP (w_rx w) w) as X. apply RK_trans with (snd (provideProtocolEvent (w_rx w) w)); [exact X|].
  destruct (fst (provideProtocolEvent (w_rx w) w)); cbn [negb]; [apply RK_refl|]. apply PH. rewrite (proj1 X). exact N6.
Qed.
(* an active node that is told that its nickname is held by somebody else gives up *)
Lemma active_yields w : w_st w = ACTIVE -> w_rxv w = true -> msg_wf (w_rx w) -> acknowledges (w_nick w) (w_rx w) -> unclaimed w (w_rx w) -> w_st (snd (stateActive w)) <> ACTIVE.
Proof.
  intros SA RV WF (C0 & T3 & OA & PL) UN. destruct (active_tail w) as (q & Q & ->). destruct (message_tail w RV) as (q2 & Q2 & ->). rewrite C0, N.eqb_refl.
  match goal with |- w_st (snd (q _ (snd (q2 ?u)))) <> _ => set (v := u); assert (X : w_st v <> ACTIVE) end.
  2:{ intros H. apply X. apply (proj2 (Q2 v)), (proj2 (Q _ (snd (q2 v))) H). }
  destruct (payload_at _ _ WF PL) as [SZ _]. plsize SZ.
  assert (G : forall z, w_rx z = w_rx w -> w_nick z = w_nick w -> w_st (snd (handleProtocolClassType z)) <> ACTIVE).
  { intros z RX NK. rewrite hpct_3 by (rewrite RX; exact T3). unfold handleProbeAck, rxSize. rewrite !bind_get, RX, SZ, OA, NK. pass. rewrite toInit_st. discriminate. }
  unfold v. unfold unclaimed in UN. destruct (c_prot_ev cfg); [|apply G; reflexivity]. specialize (UN eq_refl). rewrite snd_bind.
  assert (PR : exists x, provideProtocolEvent (w_rx w) w = (false, x) /\ w_rx x = w_rx w /\ w_nick x = w_nick w).
  { unfold provideProtocolEvent. rewrite bind_emit, bind_get, bind_upd. wsimp. destruct (app_prot (w_app w, w_ps w) (w_rx w)) as [[h cs] a']. cbn [fst] in UN. injection UN as -> ->. cbn [fst snd forM]. rewrite bind_ret. eexists. split; [reflexivity|]. split; reflexivity. }
  destruct PR as (x & -> & X1 & X2). cbn [fst snd negb]. apply G; assumption.
Qed.

Hypothesis VE : valid_env E.
Hypothesis NL : c_loop cfg = false.
Lemma received_id rd w : received rd w = rd.
Proof. unfold received, tp_readMessage. rewrite NL. reflexivity. Qed.

(* ---- process calls ---- *)
Lemma frames_in f ok l : In (OTx f ok) l -> In (f, ok) (frames l).
Proof. intros H. unfold frames. apply in_flat_map. exists (OTx f ok). split; [exact H|left; reflexivity]. Qed.
Lemma announce rd w n : op_wf (OpProcess rd) -> reachable w -> (isActive w = true -> forall m, rd = Some m -> assigns m = false) ->
  isActive (after w rd) = true -> readNicknameId (after w rd) = n -> n <> 255 ->
  (isActive w = true /\ readNicknameId w = n) \/ exists f ok, In (f, ok) (frames (effects w (after w rd))) /\ protFrame f 2 0 n [n].
Proof.
  intros WF HR NS HA HN N5. unfold isActive, readNicknameId in *.
  destruct (epilogue_history rd w) as (b & EQ). cbv zeta in EQ. rewrite EQ in HA, HN. wsimp_in HA. wsimp_in HN. set (w1 := snd (prologue rd w)) in *.
  assert (S1 : w_st w1 = w_st w) by apply prologue_st. assert (N1 : w_nick w1 = w_nick w) by (apply pres_prologue; reflexivity).
  assert (HA' : w_st (snd (dispatch w1)) = ACTIVE) by (destruct (w_st (snd (dispatch w1))); try discriminate HA; reflexivity). clear HA. 
  assert (FR : forall d f ok, w_out (snd (dispatch w1)) = OTx f ok :: d ++ w_out w1 -> protFrame f 2 0 n [n] -> exists f ok, In (f, ok) (frames (effects w (after w rd))) /\ protFrame f 2 0 n [n]).
  { intros d f ok HO HF. exists f, ok. split; [|exact HF]. rewrite (after_frames rd w (OTx f ok :: d)) by exact HO. apply frames_in, in_rev. rewrite rev_involutive. left. reflexivity. }
  destruct (w_st w) eqn:SW.
  - right. unfold dispatch in HA', HN, FR. rewrite bind_get, S1, snd_retb in *. unfold stateStartup in *. rewrite bind_get in *. change NICK_NOT_INIT with 255 in *. destruct (w_nick w1 =? 255) eqn:Q.
    + exfalso. destruct (c_silent cfg) eqn:SIL.
      * rewrite bind_get in HA'. match type of HA' with context [if ?c then _ else _] => destruct c end; [|cbn [snd ret] in HA'; congruence].
        assert (X : onlyTo [INIT] w1 (snd (handleGuidDrop w1))).
        { apply startup_guid; try exact S1; try reflexivity; try (intros; left; reflexivity).
          - unfold onlyTo. intros x y z [X1|X1] [X2|X2]; rewrite ?X2, ?X1 in *; auto.
          - intros b1 v. right. left. symmetry. apply toInit_st. - exact SIL. }
        destruct X as [X|[X|[]]]; congruence.
      * unfold getStartUpControl, ps_readCtrl, psRead8 in HA'. rewrite bind_assoc, bind_get, bind_ret in HA'. match type of HA' with context [if ?c then _ else _] => destruct c end; [rewrite toInit_st in HA'; discriminate HA'|cbn [snd ret] in HA'; congruence].
    + destruct (toActive_step w1) as (f & ok & T1 & T2 & _ & T4 & _); [congruence|]. rewrite T4 in HN. rewrite HN in T1. exact (FR [_] f ok T2 T1).
  - right. destruct (after_init VE rd w HR SW) as (x & y & b' & -> & IS & _ & _ & II & _ & _ & _ & <-). fold w1 in IS, II. unfold initStep in IS. destruct (w_ist w1).
    + destruct IS as (f & ok & _ & _ & X & _). congruence.
    + destruct IS as (_ & _ & [X|X]); congruence.
    + destruct IS as (f & ok & _ & _ & X). destruct ok; [destruct (w_probe w1 =? 255); [destruct X as [X _]; congruence|destruct X as [[X _] _]; congruence]|destruct X as [[X _] _]; congruence].
    + destruct (timerRunning _ _).
      * destruct IS as (_ & _ & [[_ [X _]]|[_ X]]); congruence.
      * destruct IS as (f & ok & X1 & X2 & _ & X4). rewrite HN in X4. rewrite <- X4 in X1, X2. exact (FR [_; _] f ok X2 X1).
  - right. destruct (after_pre VE rd w WF HR SW) as (x & y & b' & -> & IS & _ & _ & _ & _ & <-). fold w1 in IS. unfold preStep in IS. destruct (timerRunning _ _); [|destruct IS as [X _]; congruence].
    destruct IS as [[_ X]|(_ & X)]; [congruence|]. cbv zeta in X. destruct X as (f1 & ok1 & f2 & ok2 & _ & X1 & X2 & _ & X4). rewrite HN in X4. rewrite <- X4 in X1. exact (FR [_; _; _] f2 ok2 X2 X1).
  - left. split; [reflexivity|]. assert (RK w1 (snd (dispatch w1))) as (_ & X).
    { unfold dispatch. rewrite bind_get, S1. apply active_rk. intros RV. unfold w1 in *. rewrite rxv_received in RV. rewrite received_id in RV. destruct rd as [m|]; [|discriminate RV].
      rewrite (proj1 (prologue_rx (Some m) w m (received_id _ _))). apply NS; reflexivity. }
    destruct (X HA') as (_ & [Y|Y]); congruence.
  - exfalso. unfold dispatch in HA'. rewrite bind_get, S1 in HA'. cbn [snd ret] in HA'. congruence.
  - exfalso. pose proof (dispatch_st w1) as X. rewrite S1, HA' in X. destruct X as [X|[]]; discriminate X.
  - exfalso. pose proof (dispatch_st w1) as X. rewrite S1, HA' in X. destruct X as [X|[]]; discriminate X.
Qed.
Lemma yields m w : op_wf (OpProcess (Some m)) -> reachable w -> isActive w = true -> acknowledges (readNicknameId w) m -> (forall w m, unclaimed w m) -> isActive (after w (Some m)) = false.
Proof.
  intros WF HR HA AK UN. unfold isActive, readNicknameId in *. rewrite after_state. set (w1 := snd (prologue (Some m) w)).
  assert (S1 : w_st w1 = w_st w) by apply prologue_st. assert (N1 : w_nick w1 = w_nick w) by (apply pres_prologue; reflexivity).
  assert (SA : w_st w = ACTIVE) by (destruct (w_st w); try discriminate HA; reflexivity).
  destruct (prologue_rx (Some m) w m (received_id _ _)) as [X1 X2]. fold w1 in X1, X2.
  unfold dispatch. rewrite bind_get, S1, SA. assert (Y : w_st (snd (stateActive w1)) <> ACTIVE).
  { apply active_yields; [congruence|exact X2|rewrite X1; exact WF|rewrite X1, N1; exact AK|apply UN]. }
  destruct (w_st (snd (stateActive w1))); try reflexivity. contradiction.
Qed.
Lemma defends m w : op_wf (OpProcess (Some m)) -> reachable w -> isActive w = true -> announces (readNicknameId w) m -> (forall w m, unclaimed w m) ->
  exists f ok, In (f, ok) (frames (effects w (after w (Some m)))) /\ acknowledges (readNicknameId w) f.
Proof.
  intros WF HR HA (C0 & T2 & PL) UN. destruct (C46_probe_answered A E VE w (Some m) m) as (f & ok & (F1 & F2 & _ & F4 & _ & F6) & rest & HE & _).
  - split; [exact HR|]. split; [exact WF|]. split; [exact HA|]. split; [unfold after; rewrite process_taken, received_id; reflexivity|]. repeat split; try assumption. apply UN.
  - exists f, ok. split; [|repeat split; assumption]. apply frames_in. rewrite HE. right. right. apply in_or_app. right. left. reflexivity.
Qed.
(* all other operations *)
Lemma others o w n : (forall rd, o <> OpProcess rd) -> reachable w -> isActive (snd (step o w)) = true -> readNicknameId (snd (step o w)) = n -> n <> 255 ->
  isActive w = true /\ readNicknameId w = n.
Proof.
  intros NP HR HA HN N5. unfold isActive, readNicknameId in *. destruct o as [rd|p|c|]; [exfalso; exact (NP rd eq_refl)|split; assumption| |].
  - destruct RK_parts as (_ & PA & _). destruct (PA c w) as (_ & X). cbn [step] in HA, HN.
    assert (HA' : w_st (snd (doApi c w)) = ACTIVE) by (destruct (w_st (snd (doApi c w))); try discriminate HA; reflexivity).
    destruct (X HA') as (Y1 & Y2). rewrite Y1. split; [reflexivity|]. destruct Y2; congruence.
  - exfalso. rewrite (init_state VE w HR) in HA. destruct (_ <=? _); discriminate HA.
Qed.
Lemma crashed o k a w : op_wf o -> reachable w -> isActive (stepE (ECrash o k a) w) = false.
Proof.
  intros WF HR. destruct (reach_inv VE w HR) as (ps0 & HI). destruct (crash_boot ps0 VE o k a w WF HI) as (ps & out & ub & ngub & _ & _ & ->). unfold isActive. rewrite init_cases. destruct (fst _); reflexivity.
Qed.
End One.

Section Many.
Context {A : Type} (env : nat -> Env A).
Hypothesis SE : segEnv env.
Notation Seg := (Segment A).
Implicit Types s : Seg.
Notation segStep := (segStep env). Notation segRun := (segRun env). Notation segRunOK := (segRunOK env). Notation segOK := (segOK env).

Lemma sent_in i e s f : segOK s (SNode i e) -> forall ok, In (f, ok) (frames (effects (node s i) (stepOf env i e (node s i)))) -> In f (sentOK (node s i) (stepOf env i e (node s i))).
Proof. intros ((_ & _ & RL) & _) ok H. unfold sentOK. apply in_flat_map. exists (f, ok). split; [exact H|]. rewrite (RL f ok H). left. reflexivity. Qed.

Lemma of_op i o w : stepOf env i (EOp o) w = snd (@step A (env i) o w). Proof. reflexivity. Qed.
Lemma of_process i rd w : stepOf env i (EOp (OpProcess rd)) w = @after A (env i) w rd. Proof. reflexivity. Qed.
Lemma of_crash i o k a w : stepOf env i (ECrash o k a) w = @stepE A (env i) (ECrash o k a) w. Proof. reflexivity. Qed.
(* one event at one node *)
Lemma node_step i e s n : segOK s (SNode i e) -> @reachable A (env i) (node s i) -> let w := node s i in let w' := stepOf env i e w in
  isActive w' = true -> readNicknameId w' = n -> n <> 255 ->
  (isActive w = true /\ readNicknameId w = n) \/ exists f, In f (sentOK w w') /\ announces n f.
Proof.
  intros OK HR. cbv zeta. intros HA HN N5. pose proof OK as ((WF & RD & RL) & UA). destruct (SE i) as (VE & NL & UN).
  destruct e as [[rd|p|c|]|o k a].
  - pose proof (sent_in i (EOp (OpProcess rd)) s) as SI. rewrite of_process in *. destruct (announce VE NL rd (node s i) n WF HR (fun H m Hm => UA m (f_equal Some Hm) H) HA HN N5) as [X|(f & ok & X1 & X2)]; [left; exact X|right].
    exists f. split; [exact (SI f OK ok X1)|]. destruct X2 as (Y1 & Y2 & _ & _ & _ & Y6). repeat split; assumption.
  - left. rewrite of_op in HA, HN. apply (others VE (OpTick p) (node s i) n); [discriminate|exact HR|exact HA|exact HN|exact N5].
  - left. rewrite of_op in HA, HN. apply (others VE (OpApi c) (node s i) n); [discriminate|exact HR|exact HA|exact HN|exact N5].
  - left. rewrite of_op in HA, HN. apply (others VE OpInit (node s i) n); [discriminate|exact HR|exact HA|exact HN|exact N5].
  - exfalso. rewrite of_crash in HA. rewrite (crashed VE o k a (node s i) WF HR) in HA. discriminate HA.
Qed.
(* an active node that reads a frame which disputes its nickname *)
Lemma node_reads i e s n m : segOK s (SNode i e) -> @reachable A (env i) (node s i) -> let w := node s i in let w' := stepOf env i e w in
  isActive w = true -> readNicknameId w = n -> isActive w' = true -> readFrame e = Some (Some m) ->
  (announces n m -> exists f, In f (sentOK w w') /\ acknowledges n f) /\ ~ acknowledges n m.
Proof.
  intros OK HR. cbv zeta. intros HA HN HA' HX. pose proof OK as ((WF & RD & RL) & UA). destruct (SE i) as (VE & NL & UN).
  destruct e as [[rd|p|c|]|o k a]; try discriminate HX.
  - injection HX as ->. subst n. pose proof (sent_in i (EOp (OpProcess (Some m))) s) as SI. rewrite of_process in *. split.
    + intros AN. destruct (defends VE NL m (node s i) WF HR HA AN UN) as (f & ok & X1 & X2). exists f. split; [exact (SI f OK ok X1)|exact X2].
    + intros AK. pose proof (yields NL m (node s i) WF HR HA AK UN) as X. rewrite X in HA'. discriminate HA'.
  - exfalso. rewrite of_crash in HA'. rewrite (crashed VE o k a (node s i) WF HR) in HA'. discriminate HA'.
Qed.
Lemma reads_frame (e : Event A) : reads e = true -> exists rd, readFrame e = Some rd.
Proof. destruct e as [[]|[] ? ?]; try discriminate; intros _; eexists; reflexivity. Qed.

(* ---- reachable states ---- *)
Definition allReach s : Prop := forall i, @reachable A (env i) (node s i).
Lemma step_reach s v : segOK s v -> allReach s -> allReach (segStep s v).
Proof.
  intros OK HR j. destruct v as [i e|m]; [|apply HR]. cbn [Spec_Segment.segStep node]. destruct (Nat.eqb j i) eqn:Q; [|apply HR]. apply Nat.eqb_eq in Q. subst j. apply (@reach_step A (env i)); [apply HR|apply OK].
Qed.
Definition disputed s : Prop := forall i j n, i <> j -> nodeHolds s i n -> nodeHolds s j n -> n <> 255 -> exists m, (In m (inbox s i) \/ In m (inbox s j)) /\ disputes n m.
Lemma step_disputed_one s i e j n : allReach s -> disputed s -> segOK s (SNode i e) -> i <> j -> let s' := segStep s (SNode i e) in
  nodeHolds s' i n -> nodeHolds s' j n -> n <> 255 -> exists m, (In m (inbox s' i) \/ In m (inbox s' j)) /\ disputes n m.
Proof.
  intros HR HD OK NE. cbv zeta. unfold nodeHolds. cbn [Spec_Segment.segStep node inbox]. rewrite Nat.eqb_refl. replace (Nat.eqb j i) with false by (symmetry; apply Nat.eqb_neq; congruence).
  intros (A1 & A2) (B1 & B2) N5. set (w := node s i) in *. set (w' := stepOf env i e w) in *.
  destruct (node_step i e s n OK (HR i) A1 A2 N5) as [X|(f & X1 & X2)].
  2:{ exists f. split; [right; apply in_or_app; right; exact X1|left; exact X2]. }
  destruct (HD i j n NE X (conj B1 B2) N5) as (m & [M|M] & MD); [|exists m; split; [right; apply in_or_app; left; exact M|exact MD]].
  destruct (reads e) eqn:RE; [|exists m; split; [left; exact M|exact MD]].
  destruct (reads_frame e RE) as (rd & RF). pose proof OK as ((_ & RD & _) & _). rewrite (RD rd RF) in RF. destruct (inbox s i) as [|h t]; [destruct M|]. cbn [hd_error] in RF. cbn [tl].
  destruct M as [->|M]; [|exists m; split; [left; exact M|exact MD]].
  destruct (node_reads i e s n m OK (HR i) (proj1 X) (proj2 X) A1 RF) as (Y1 & Y2). destruct MD as [MD|MD]; [|contradiction].
  destruct (Y1 MD) as (f & F1 & F2). exists f. split; [right; apply in_or_app; right; exact F1|right; exact F2].
Qed.
Lemma step_disputed s v : allReach s -> disputed s -> segOK s v -> disputed (segStep s v).
Proof.
  intros HR HD OK i j n NE H1 H2 N5. destruct v as [k e|m].
  - destruct (Nat.eq_dec k i) as [->|Ki]; [exact (step_disputed_one s i e j n HR HD OK NE H1 H2 N5)|]. destruct (Nat.eq_dec k j) as [->|Kj].
    + destruct (step_disputed_one s j e i n HR HD OK (not_eq_sym NE) H2 H1 N5) as (m & M & MD). exists m. split; [tauto|exact MD].
    + unfold nodeHolds in *. cbn [Spec_Segment.segStep node inbox] in *. replace (Nat.eqb i k) with false in * by (symmetry; apply Nat.eqb_neq; congruence). replace (Nat.eqb j k) with false in * by (symmetry; apply Nat.eqb_neq; congruence).
      destruct (HD i j n NE H1 H2 N5) as (m & M & MD). exists m. split; [|exact MD]. destruct M; [left|right]; apply in_or_app; left; assumption.
  - destruct (HD i j n NE H1 H2 N5) as (x & M & MD). exists x. split; [|exact MD]. cbn [Spec_Segment.segStep inbox]. destruct M; [left|right]; apply in_or_app; left; assumption.
Qed.
Lemma run_inv l : forall s, allReach s -> disputed s -> segRunOK s l -> allReach (segRun s l) /\ disputed (segRun s l).
Proof.
  induction l as [|v l IH]; intros s HR HD OK; [split; assumption|]. destruct OK as [O1 O2]. cbn [Spec_Segment.segRun]. apply IH; [apply step_reach|apply step_disputed|]; assumption.
Qed.
Lemma run_nil {E : Env A} (w : World A) : w = run [] w. Proof. reflexivity. Qed.
Lemma powered i ps a wr : (forall x, ps x < 256) -> @reachable A (env i) (@powerUp A (env i) ps a wr) /\ isActive (@powerUp A (env i) ps a wr) = false.
Proof.
  intros HP. split; [exists ps, a, wr, []; split; [exact HP|]; split; [constructor|apply run_nil]|]. unfold powerUp, isActive. rewrite init_cases. destruct (fst _); reflexivity.
Qed.
Lemma init_inv s : segInit env s -> allReach s /\ disputed s.
Proof.
  intros (HN & HI). split.
  - intros i. destruct (HN i) as (ps & a & wr & HP & ->). apply powered, HP.
  - intros i j n _ (H & _) _ _. exfalso. destruct (HN i) as (ps & a & wr & HP & EQ). rewrite EQ, (proj2 (powered i ps a wr HP)) in H. discriminate H.
Qed.
Theorem reach_seg s : segReachable env s -> allReach s /\ disputed s.
Proof. intros (s0 & l & H0 & HL & ->). destruct (init_inv s0 H0). apply run_inv; assumption. Qed.

(* ---- runs ---- *)
Lemma run_app l1 l2 s : segRun s (l1 ++ l2) = segRun (segRun s l1) l2.
Proof. revert s. induction l1 as [|v l IH]; intros s; [reflexivity|]. cbn [app Spec_Segment.segRun]. apply IH. Qed.
Lemma ok_app l1 l2 s : segRunOK s (l1 ++ l2) <-> segRunOK s l1 /\ segRunOK (segRun s l1) l2.
Proof. revert s. induction l1 as [|v l IH]; intros s; [cbn; tauto|]. unfold Spec_Segment.segRunOK in *. cbn [app Spec_Segment.segRun segAll]. rewrite IH. tauto. Qed.
Lemma th_here P s l : throughout env P s l -> P s.
Proof. intros H. exact (H [] l eq_refl). Qed.
Lemma th_next P s v l : throughout env P s (v :: l) -> throughout env P (segStep s v) l.
Proof. intros H l1 l2 ->. exact (H (v :: l1) l2 eq_refl). Qed.
Lemma th_app P s l1 l2 : throughout env P s (l1 ++ l2) -> throughout env P s l1 /\ throughout env P (segRun s l1) l2.
Proof. intros H. split; [intros x y ->; apply (H x (y ++ l2)); rewrite app_assoc; reflexivity|]. intros x y ->. rewrite <- run_app. apply (H (l1 ++ x) y). rewrite app_assoc. reflexivity. Qed.
Lemma processes_app i (l1 l2 : list (SegEv A)) : processes i (l1 ++ l2) = (processes i l1 + processes i l2)%nat.
Proof. unfold processes. rewrite filter_app, app_length. reflexivity. Qed.

(* the way of a frame through the inbox of a node that keeps its nickname: what happens when it is read *)
Lemma track (P : Seg -> Prop) i m s l : segRunOK s l -> allReach s -> forall l1 l2, inbox s i = l1 ++ m :: l2 ->
  (exists la e lb l2', l = la ++ SNode i e :: lb /\ inbox (segRun s la) i = m :: l2' /\ readFrame e = Some (Some m)) \/
  (exists l1' l2', inbox (segRun s l) i = l1' ++ m :: l2' /\ (length l1' + processes i l = length l1)%nat).
Proof.
  revert s. induction l as [|v l IH]; intros s OK HR l1 l2 HI; [right; exists l1, l2; split; [exact HI|cbn; lia]|].
  destruct OK as [O1 O2]. assert (ST := step_reach s v O1 HR).
  assert (G : forall l1' l2', inbox (segStep s v) i = l1' ++ m :: l2' -> (length l1' + processes i [v] = length l1)%nat ->
    (exists la e lb l2', v :: l = la ++ SNode i e :: lb /\ inbox (segRun s la) i = m :: l2' /\ readFrame e = Some (Some m)) \/
    (exists l1' l2', inbox (segRun s (v :: l)) i = l1' ++ m :: l2' /\ (length l1' + processes i (v :: l) = length l1)%nat)).
  { intros l1' l2' H1 H2. destruct (IH _ O2 ST l1' l2' H1) as [(la & e & lb & l2'' & -> & X1 & X2)|(x & y & X1 & X2)].
    - left. exists (v :: la), e, lb, l2''. split; [reflexivity|]. split; assumption.
    - right. exists x, y. split; [exact X1|]. change (v :: l) with ([v] ++ l). rewrite processes_app. lia. }
  destruct v as [k e|x].
  - destruct (Nat.eqb k i) eqn:Q.
    + apply Nat.eqb_eq in Q. subst k. destruct (reads e) eqn:RE.
      * destruct (reads_frame e RE) as (rd & RF). pose proof O1 as ((_ & RD & _) & _). rewrite (RD rd RF), HI in RF. destruct l1 as [|h t].
        -- left. exists [], e, l, l2. split; [reflexivity|]. split; [exact HI|exact RF].
        -- apply (G t l2); cbn [Spec_Segment.segStep inbox]; [rewrite Nat.eqb_refl, RE, HI; reflexivity|]. unfold processes. cbn [filter]. rewrite Nat.eqb_refl, RE. cbn. lia.
      * apply (G l1 l2); cbn [Spec_Segment.segStep inbox]; [rewrite Nat.eqb_refl, RE; exact HI|]. unfold processes. cbn [filter]. rewrite Nat.eqb_refl, RE. cbn. lia.
    + apply (G l1 (l2 ++ sentOK (node s k) (stepOf env k e (node s k)))); cbn [Spec_Segment.segStep inbox].
      * rewrite Nat.eqb_sym, Q, HI, <- app_assoc. reflexivity.
      * unfold processes. cbn [filter]. rewrite Q. cbn. lia.
  - apply (G l1 (l2 ++ [x])); cbn [Spec_Segment.segStep inbox]; [rewrite HI, <- app_assoc; reflexivity|cbn; lia].
Qed.
Lemma run_reach s l : segRunOK s l -> allReach s -> allReach (segRun s l).
Proof. revert s. induction l as [|v l IH]; intros s OK HR; [exact HR|]. destruct OK as [O1 O2]. apply IH; [exact O2|apply step_reach; assumption]. Qed.
(* the node that nodeHolds n must not read an acknowledgement from n *)
Lemma track_ack i n m s l : segRunOK s l -> allReach s -> throughout env (fun s => nodeHolds s i n) s l -> In m (inbox s i) -> acknowledges n m ->
  In m (inbox (segRun s l) i) /\ (processes i l < length (inbox s i))%nat.
Proof.
  intros OK HR TH HI AK. apply in_split in HI. destruct HI as (l1 & l2 & HI). destruct (track (fun _ => True) i m s l OK HR l1 l2 HI) as [(la & e & lb & l2' & -> & X1 & X2)|(x & y & X1 & X2)].
  - exfalso. apply ok_app in OK. destruct OK as [O1 [O2 _]]. pose proof (TH la _ eq_refl) as (H1 & H2). pose proof (TH (la ++ [SNode i e]) lb ltac:(rewrite <- app_assoc; reflexivity)) as (H3 & _).
    rewrite run_app in H3. cbn [Spec_Segment.segRun Spec_Segment.segStep node] in H3. rewrite Nat.eqb_refl in H3.
    exact (proj2 (node_reads i e _ n m O2 (run_reach s la O1 HR i) H1 H2 H3 X2) AK).
  - split; [rewrite X1; apply in_or_app; right; left; reflexivity|]. rewrite HI, app_length. cbn [length]. lia.
Qed.
(* the node that nodeHolds n answers when it reads an announcement of n *)
Lemma track_ann i j n m s l : i <> j -> segRunOK s l -> allReach s -> throughout env (fun s => nodeHolds s i n) s l -> In m (inbox s i) -> announces n m ->
  (exists la lb f, l = la ++ lb /\ In f (inbox (segRun s la) j) /\ acknowledges n f) \/
  (In m (inbox (segRun s l) i) /\ (processes i l < length (inbox s i))%nat).
Proof.
  intros NE OK HR TH HI AN. apply in_split in HI. destruct HI as (l1 & l2 & HI). destruct (track (fun _ => True) i m s l OK HR l1 l2 HI) as [(la & e & lb & l2' & -> & X1 & X2)|(x & y & X1 & X2)].
  - left. apply ok_app in OK. destruct OK as [O1 [O2 _]]. pose proof (TH la _ eq_refl) as (H1 & H2). pose proof (TH (la ++ [SNode i e]) lb ltac:(rewrite <- app_assoc; reflexivity)) as (H3 & _).
    rewrite run_app in H3. cbn [Spec_Segment.segRun Spec_Segment.segStep node] in H3. rewrite Nat.eqb_refl in H3.
    destruct (proj1 (node_reads i e _ n m O2 (run_reach s la O1 HR i) H1 H2 H3 X2) AN) as (f & F1 & F2).
    exists (la ++ [SNode i e]), lb, f. split; [rewrite <- app_assoc; reflexivity|]. split; [|exact F2]. rewrite run_app. cbn [Spec_Segment.segRun Spec_Segment.segStep inbox].
    replace (Nat.eqb j i) with false by (symmetry; apply Nat.eqb_neq; congruence). apply in_or_app. right. exact F1.
  - right. split; [rewrite X1; apply in_or_app; right; left; reflexivity|]. rewrite HI, app_length. cbn [length]. lia.
Qed.
Theorem conflict_ends s i j n la lb : segReachable env s -> i <> j -> n <> 255 -> segRunOK s (la ++ lb) ->
  (length (inbox s i) <= processes i la)%nat -> (length (inbox s j) <= processes j la)%nat ->
  (length (inbox (segRun s la) i) <= processes i lb)%nat -> (length (inbox (segRun s la) j) <= processes j lb)%nat ->
  ~ throughout env (fun x => nodeHolds x i n /\ nodeHolds x j n) s (la ++ lb).
Proof.
  intros HS NE N5 OK L1 L2 L3 L4 TH. destruct (reach_seg s HS) as (HR & HD). apply ok_app in OK. destruct OK as [O1 O2]. apply th_app in TH. destruct TH as [T1 T2].
  assert (HR2 := run_reach s la O1 HR).
  assert (K : forall i j, i <> j -> (length (inbox s i) <= processes i la)%nat -> (length (inbox (segRun s la) i) <= processes i lb)%nat -> (length (inbox (segRun s la) j) <= processes j lb)%nat ->
    throughout env (fun x => nodeHolds x i n) s la -> throughout env (fun x => nodeHolds x j n) s la -> throughout env (fun x => nodeHolds x i n) (segRun s la) lb -> throughout env (fun x => nodeHolds x j n) (segRun s la) lb ->
    forall m, In m (inbox s i) -> disputes n m -> False).
  { clear i j NE L1 L2 L3 L4 T1 T2. intros i j NE L1 L3 L4 A1 B1 A2 B2 m M [MD|MD].
    - destruct (track_ann i j n m s la NE O1 HR A1 M MD) as [(x & y & f & -> & F1 & F2)|(_ & X)]; [|lia].
      apply ok_app in O1. destruct O1 as [O1 O3]. apply th_app in B1. destruct B1 as [_ B1]. assert (HR3 := run_reach s x O1 HR).
      destruct (track_ack j n f _ y O3 HR3 B1 F1 F2) as (F3 & _). rewrite run_app in *. destruct (track_ack j n f _ lb O2 HR2 B2 F3 F2) as (_ & X). lia.
    - destruct (track_ack i n m s la O1 HR A1 M MD) as (_ & X). lia. }
  destruct (th_here _ _ _ T1) as [H1 H2]. destruct (HD i j n NE H1 H2 N5) as (m & [M|M] & MD).
  - apply (K i j NE L1 L3 L4) with (m := m); try assumption; intros x y Hx; first [apply (T1 x y Hx) | apply (T2 x y Hx)].
  - apply (K j i (not_eq_sym NE) L2 L4 L3) with (m := m); try assumption; intros x y Hx; first [apply (T1 x y Hx) | apply (T2 x y Hx)].
Qed.

(* ---- probing ---- *)
Lemma not_waiting i e s n m : segOK s (SNode i e) -> @reachable A (env i) (node s i) -> waitsFor (node s i) n -> readFrame e = Some (Some m) -> acknowledges n m -> ~ waitsFor (stepOf env i e (node s i)) n.
Proof.
  intros OK HR HW HX (M1 & M2 & M3 & _) HW'. pose proof OK as ((WF & _) & _). destruct (SE i) as (VE & NL & UN). destruct e as [[rd|p|c|]|o k a]; try discriminate HX.
  - injection HX as ->. destruct HW as (S1 & S2 & S3). rewrite of_process in HW'.
    destruct (after_init VE (Some m) (node s i) HR S1) as (w1 & w2 & b & EW & IS & EQ & _ & I1 & P1 & _ & _ & _). rewrite EQ in HW'. destruct HW' as (X1 & X2 & X3). wsimp_in X1. wsimp_in X2.
    unfold initStep in IS. rewrite I1, S2 in IS. destruct (timerRunning _ _).
    + destruct IS as (_ & _ & [[_ (_ & Y & _)]|[Y _]]); [congruence|]. apply Y. subst w1. apply ack_received. exists m. split; [apply received_id, NL|]. rewrite P1, S3. repeat split; assumption.
    + destruct IS as (f & ok & _ & _ & Y & _). congruence.
  - destruct HW' as (X1 & _). destruct (reach_inv VE _ HR) as (ps0 & HI). destruct (crash_boot ps0 VE o k a (node s i) WF HI) as (ps & out & ub & ngub & _ & _ & EQ). rewrite of_crash, EQ, init_cases in X1. destruct (fst _); discriminate X1.
Qed.
Definition pends s i j n : Prop := (exists m, In m (inbox s i) /\ announces n m) \/ (exists m, In m (inbox s j) /\ acknowledges n m).
Lemma run_pends i j n l : i <> j -> forall s, allReach s -> segRunOK s l -> throughout env (fun x => nodeHolds x i n /\ waitsFor (node x j) n) s l -> pends s i j n -> pends (segRun s l) i j n.
Proof.
  intros NE. induction l as [|v l IH]; intros s HR OK TH HP; [exact HP|]. destruct OK as [O1 O2]. cbn [Spec_Segment.segRun]. pose proof (th_here _ _ _ TH) as (H1 & W1).
  apply th_next in TH. pose proof (th_here _ _ _ TH) as (H2 & W2). apply IH; try assumption; [apply step_reach; assumption|].
  destruct v as [k e|x].
  - unfold pends, nodeHolds in *. cbn [Spec_Segment.segStep node inbox] in *. destruct (Nat.eqb i k) eqn:Qi; [apply Nat.eqb_eq in Qi; subst k; replace (Nat.eqb j i) with false by (symmetry; apply Nat.eqb_neq; congruence)|].
    + destruct HP as [(m & M & MD)|(m & M & MD)]; [|right; exists m; split; [apply in_or_app; left; exact M|exact MD]].
      destruct (reads e) eqn:RE; [|left; exists m; auto]. destruct (reads_frame e RE) as (rd & RF). pose proof O1 as ((_ & RD & _) & _). rewrite (RD rd RF) in RF. destruct (inbox s i) as [|h t]; [destruct M|]. cbn [hd_error] in RF. cbn [tl].
      destruct M as [->|M]; [|left; exists m; auto]. destruct (proj1 (node_reads i e s n m O1 (HR i) (proj1 H1) (proj2 H1) (proj1 H2) RF) MD) as (f & F1 & F2). right. exists f. split; [apply in_or_app; right; exact F1|exact F2].
    + destruct HP as [(m & M & MD)|(m & M & MD)]; [left; exists m; split; [apply in_or_app; left; exact M|exact MD]|]. right. destruct (Nat.eqb j k) eqn:Qj; [|exists m; split; [apply in_or_app; left; exact M|exact MD]].
      apply Nat.eqb_eq in Qj. subst k. destruct (reads e) eqn:RE; [|exists m; auto]. destruct (reads_frame e RE) as (rd & RF). pose proof O1 as ((_ & RD & _) & _). rewrite (RD rd RF) in RF. destruct (inbox s j) as [|h t]; [destruct M|]. cbn [hd_error] in RF. cbn [tl].
      destruct M as [->|M]; [|exists m; auto]. exfalso. exact (not_waiting j e s n m O1 (HR j) W1 RF MD W2).
  - destruct HP as [(m & M & MD)|(m & M & MD)]; [left|right]; exists m; (split; [apply in_or_app; left; exact M|exact MD]).
Qed.
Theorem probe_pends s i j n e l : segReachable env s -> i <> j -> let v := SNode j e in segRunOK s (v :: l) ->
  (exists f, In f (sentOK (node s j) (stepOf env j e (node s j))) /\ announces n f) ->
  throughout env (fun x => nodeHolds x i n /\ waitsFor (node x j) n) (segStep s v) l ->
  pends (segRun s (v :: l)) i j n.
Proof.
  intros HS NE v OK (f & F1 & F2) TH. destruct (reach_seg s HS) as (HR & _). destruct OK as [O1 O2]. apply (run_pends i j n l NE (segStep s v)); try assumption; [apply step_reach; assumption|].
  left. exists f. split; [|exact F2]. cbn [Spec_Segment.segStep inbox v]. replace (Nat.eqb i j) with false by (symmetry; apply Nat.eqb_neq; exact NE). apply in_or_app. right. exact F1.
Qed.
End Many.
