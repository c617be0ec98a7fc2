(* Proof_Disc4.v - a node that discovers has no nickname *)
From Verif Require Export Proof_Disc3.

Section U.
Context {A : Type} {E : Env A}.
Implicit Types w : World A.

Definition unnamed w : Prop := w_st w = INIT -> w_nick w = 255.
Definition RU w w' : Prop := unnamed w -> unnamed w'.
Lemma dropCase w : let w' := snd (handleDropNickname w) in w_st w' = w_st w \/ w_st w' = RESET \/ w_st w' = IDLE.
Proof.
  cbv zeta. unfold handleDropNickname, rxSize, rxForMe, rxd. rewrite !bind_get. match goal with |- context [if ?c then _ else _] => destruct c end; [|left; reflexivity].
  match goal with |- context [if ?c then _ else _] => destruct c end.
  { right. left. rewrite snd_bind. apply toReset_st. }
  match goal with |- context [if ?c then _ else _] => destruct c end; [|left; reflexivity].
  right. rewrite !bind_get. cbv zeta. rewrite snd_bind. match goal with |- context [snd (?m w)] => set (v := snd (m w)); clearbody v end.
  destruct (bitset _ 5); [left; apply toReset_st|]. destruct (bitset _ 7); rewrite snd_bind; [right; apply toIdle_st|left; apply toReset_st].
Qed.
Lemma RU_active : c_prot_ev cfg = false -> (forall w, w_st w = ACTIVE -> unnamed (snd (@stateActive A E w))) /\ (forall c, rel RU (@doApi A E c)) /\ rel RU (@stateStartup A E) /\ rel RU (@stateReset A).
Proof.
  intros PE. assert (Rrefl : forall w, RU w w) by (intros w H; exact H). assert (Rtrans : forall a b c, RU a b -> RU b c -> RU a c) by (intros a b c H1 H2 H; auto).
  assert (S : forall w w', w_st w' = w_st w -> w_nick w' = w_nick w -> RU w w') by (intros w w' H1 H2 H; unfold unnamed; rewrite H1, H2; exact H).
  assert (X_away : forall w w', w_st w' <> INIT -> RU w w') by (intros w w' H _ X; contradiction).
  assert (X_n : forall w w', w_nick w' = 255 -> RU w w') by (intros w w' H _ X; exact H).
  assert (s_init : forall b, rel RU (changeToStateInit b)).
  { intros b w H. unfold changeToStateInit. rewrite bind_get. destruct (w_st w) eqn:SW; cbn [state_eqb negb]; try exact H; intros _; rewrite bind_emit, bind_upd; destruct b; cbn [negb]; rewrite bind_assoc, !bind_upd;
      (rewrite (writeNick_state _ NICK_NOT_INIT) by reflexivity); reflexivity. }
  assert (s_restore : rel RU restoreFactory).
  { intros w. apply X_n. destruct (restore_ram w) as (X & _). exact X. }
  assert (s_sn : forall w, w_st w = ACTIVE -> unnamed (snd (handleSetNickname w))).
  { intros w SA X. exfalso. assert (P : pres w_st handleSetNickname). { unfold handleSetNickname. pres_tac; try (apply sendProt_pres; reflexivity). all: intros ?; reflexivity. } rewrite P in X. congruence. }
  assert (s_dn : forall w, w_st w = ACTIVE -> unnamed (snd (handleDropNickname w))).
  { intros w SA X. exfalso. assert (P : rel (fun a b : World A => w_st b = w_st a \/ w_st b = RESET \/ w_st b = IDLE) handleDropNickname). { clear. intros w. destruct (dropCase w) as [H|[H|H]]; auto. } destruct (P w) as [P1|[P1|P1]]; congruence. }
  assert (s_idle : rel RU changeToStateIdle) by (intros w; apply X_away; rewrite toIdle_st; discriminate).
  assert (s_reset : forall t, rel RU (changeToStateReset t)) by (intros b w; apply X_away; rewrite toReset_st; discriminate).
  assert (s_nr : rel RU (writeNicknameId NICK_NOT_INIT ;; changeToStateReset 0)).
  { intros w. apply X_away. rewrite snd_bind, toReset_st. discriminate. }
  assert (Unf : forall w w', RU w w' -> unnamed w -> unnamed w') by (intros w w' H; exact H).
  assert (s_act : rel RU changeToStateActive) by (intros w; apply X_away; rewrite toActive_st; discriminate).
  pose (R := RU). fold R in Rrefl, Rtrans, S, s_init, s_restore, s_idle, s_reset, s_nr, Unf, s_act |- *. clearbody R. clear X_away X_n.
  Ltac lu S := intros; try (unfold setUB, setNgUB, timer_start, timer_stop, emit); first [apply rel_upd; intros; apply S; reflexivity | apply S; reflexivity].
  assert (s_ub : rel R setUB) by lu S. assert (X_e : forall o, rel R (emit o)) by (intros; lu S).
  assert (s_tx : forall m, rel R (tp_writeMessage m)).
  { unfold tp_writeMessage, adapterWrite, loopWrite. rel_tac; try (lu S). destruct (w_txe _ <? 255); lu S. }
  assert (s_api : forall c, rel R (doApi c)).
  { unfold doApi, startNodeSegmentInit, setAlarm, setTimeSinceEpoch, enableHeartbeat, log_enable, log_setLevel, tp_getTransmitErrors. intros c. destruct c; rel_tac; try (lu S);
      [eapply tr_log_log; eauto|..]; unfold ps_writeLogId, ps_writeZone, ps_writeSub, psWrite8; rel_tac; lu S. }
  assert (s_guid : rel R handleGuidDrop).
  { unfold handleGuidDrop, startNodeSegmentInit, timer_running. set (nr := bind (writeNicknameId NICK_NOT_INIT) _) in *. clearbody nr. rel_tac; try (lu S). all: unfold dd_getGUID, ps_readGUID, psReadIdx, psRead8; rel_tac. }
  tr_parts R ltac:(lu S).
  assert (t_ah : rel R activeHeartbeat) by (apply ts_activeHeartbeat; tr_fill ltac:(lu S)).
  assert (t_dm : forall m, rel R (dm_executeActions actionExecute m)). { intros; apply ts_dm; tr_fill ltac:(lu S). }
  assert (t_ng : forall m, rel R (ng_executeActions actionExecute m)). { intros; apply ts_ng; tr_fill ltac:(lu S). }
  assert (t_pe : forall m, rel R (provideEvent m)). { intros; apply ts_provideEvent; tr_fill ltac:(lu S). }
  assert (t_h : forall w, w_st w = ACTIVE -> unnamed (snd (handleProtocolClassType w))).
  { intros w SA. unfold handleProtocolClassType. rewrite bind_get. assert (U0 : unnamed w) by (intros X; congruence).
    repeat lazymatch goal with |- unnamed (snd ((if ?c then _ else _) _)) => destruct c end; try (apply s_sn, SA); try (apply s_dn, SA); try exact U0; apply (Unf w); try exact U0.
    all: match goal with |- ?Q ?x (snd (?m ?x)) => assert (HM : rel Q m); [clear U0 SA|apply HM] end; try assumption.
    - apply ts_handleNewNodeOnline; tr_fill ltac:(lu S).
    - apply ts_handleProbeAck; tr_fill ltac:(lu S).
    - apply ts_handleReadRegister; tr_fill ltac:(lu S).
    - apply ts_handleWriteRegister; tr_fill ltac:(lu S).
    - apply ts_handleEnterBootLoader; tr_fill ltac:(lu S).
    - apply ts_handleIncDec; tr_fill ltac:(lu S).
    - apply ts_handleIncDec; tr_fill ltac:(lu S).
    - apply ts_handleGetMatrixInfo; tr_fill ltac:(lu S). }
  split; [|split; [assumption|split]].
  - intros w SA. unfold stateActive. rewrite snd_bind. apply (Unf (snd (activeMessage w))).
    + match goal with |- R ?x (snd (?m _)) => assert (HM : rel R m); [|apply HM] end. rel_tac.
    + unfold activeMessage. rewrite bind_get. destruct (w_rxv w); [|intros X; cbn [snd ret] in X; congruence]. rewrite bind_get, PE, snd_bind.
      match goal with |- unnamed (snd (?m ?x)) => apply (Unf x); [assert (HM : rel R m); [rel_tac|apply HM]|] end.
      destruct (_ =? CLASS_PROTOCOL); [apply t_h, SA|]. apply (Unf w); [apply t_pe|intros X; congruence].
  - unfold stateStartup. rel_tac.
  - unfold stateReset, timer_running, emit. rel_tac; lu S.
Qed.

Theorem reach_unnamed w : valid_env E -> c_prot_ev cfg = false -> reachable w -> unnamed w.
Proof.
  intros VE PE. destruct (RU_active PE) as (PA & PC & PS & PR). apply reach_stable.
  - intros ps a wr out ub ngub X. rewrite init_cases in X. destruct (fst _); discriminate X.
  - intros o v WF HR U. destruct o as [rd|p|c|].
    + destruct (epilogue_history rd v) as (b & EQ). cbv zeta in EQ. set (w1 := snd (prologue rd v)) in *. fold (after v rd).
      assert (S1 : w_st w1 = w_st v) by apply prologue_st. assert (N1 : w_nick w1 = w_nick v) by (apply pres_prologue; reflexivity).
      assert (U1 : unnamed w1) by (unfold unnamed; rewrite S1, N1; exact U).
      assert (G : unnamed (snd (dispatch w1)) -> unnamed (after v rd)) by (rewrite EQ; intros H; exact H).
      destruct (w_st v) eqn:SW.
      * apply G. unfold dispatch. rewrite bind_get, S1, snd_retb. apply PS, U1.
      * destruct (after_init VE rd v HR SW) as (w1' & w2 & b' & HW1 & HS & HA & S1' & I1 & P1 & N1' & T1 & D12). fold w1 in HW1. subst w1'. rewrite D12 in G. apply G.
        intros X. unfold initStep in HS. destruct (w_ist w1).
        -- destruct HS as (f & ok & _ & _ & _ & HN). rewrite HN, N1'. apply U, SW.
        -- destruct HS as (_ & HN & _). rewrite HN, N1'. apply U, SW.
        -- destruct HS as (f & ok & _ & HN & _). rewrite HN, N1'. apply U, SW.
        -- destruct (timerRunning _ _); [destruct HS as (_ & HN & _); rewrite HN, N1'; apply U, SW|destruct HS as (f & ok & _ & _ & HS & _); congruence].
      * destruct (after_pre VE rd v WF HR SW) as (w1' & w2 & b' & HW1 & HS & HA & S1' & N1' & T1 & D12). fold w1 in HW1. subst w1'. rewrite D12 in G. apply G.
        intros X. unfold preStep in HS. destruct (timerRunning _ _); [|apply HS]. destruct HS as [(_ & HS)|(_ & f1 & k1 & f2 & k2 & _ & _ & _ & HS & _)]; congruence.
      * apply G. unfold dispatch. rewrite bind_get, S1. apply PA, S1.
      * apply G. unfold dispatch. rewrite bind_get, S1. exact U1.
      * apply G. unfold dispatch. rewrite bind_get, S1, snd_retb. apply PR, U1.
      * apply G. unfold dispatch. rewrite bind_get, S1. exact U1.
    + exact U.
    + apply PC, U.
    + intros X. rewrite (init_state VE v HR) in X. destruct (_ <=? _); discriminate X.
Qed.
End U.
