(* Reach.v - induction over the histories of a node *)
From Verif Require Export Proof_Process.

Section Reach.
Context {A : Type} {E : Env A}.
Implicit Type w : World A.

Section Init.
Variable R : World A -> World A -> Prop.
Hypothesis Rrefl : forall w, R w w.
Hypothesis Rtrans : forall a b c, R a b -> R b c -> R a c.
Notation rel := (rel R).
Lemma tr_createTimer st : (forall v w, R w (set_tm v w)) -> (forall v w, R w (st v w)) -> rel (createTimer st).
Proof. intros H1 H2. unfold createTimer. rel_tac. Qed.
Lemma tr_core_init :
  rel (emit OInit) -> (forall l, rel (emit (OLamp l))) -> (forall v w, R w (set_tm v w)) -> rel tp_init -> rel dm_init ->
  rel (n <- ps_readNicknameId ;; upd (set_nick n)) ->
  (forall w, R w (set_st STARTUP w)) -> (forall w, R w (set_ist PROBE w)) -> (forall w, R w (set_rreq false w)) ->
  (forall v w, R w (set_rx v w)) -> (forall w, R w (set_rxv false w)) ->
  (forall v w, R w (set_tSt v w)) -> (forall v w, R w (set_tGuid v w)) -> (forall v w, R w (set_t162 v w)) ->
  (forall v w, R w (set_tEp v w)) -> (forall v w, R w (set_tHb v w)) ->
  (forall i v, rel (timer_start i v)) -> rel restoreFactory -> rel changeToStateError -> rel core_init.
Proof.
  intros H1 H2 H3 H4 H5 H6 H7 H8 H9 H10 H11 H12 H13 H14 H15 H16 H17 H18 H19.
  assert (HC : forall st, (forall v w, R w (st v w)) -> rel (createTimer st)) by (intros; apply tr_createTimer; assumption).
  assert (HS : rel getStartUpControl) by (apply tr_startUp; assumption).
  unfold core_init.
  apply rel_bind; [assumption|assumption|intros _]. apply rel_bind; [assumption|apply rel_upd; auto|intros _].
  apply rel_bind; [assumption|assumption|intros _]. apply rel_bind; [assumption|rel_tac|intros _].
  match goal with |- Traverse.rel _ (bind ps_readNicknameId (fun n => bind (upd (set_nick n)) (fun _ => ?k))) =>
    assert (G : rel (bind (n <- ps_readNicknameId ;; upd (set_nick n)) (fun _ => k)));
    [|intros w; specialize (G w); rewrite bind_assoc in G; exact G] end.
  apply rel_bind; [assumption|assumption|intros _].
  rel_tac.
Qed.
End Init.

Lemma reach_step w e : reachable w -> event_wf e -> reachable (stepE e w).
Proof. intros [ps0 H] He. exists ps0. destruct H as (a & wr & es & H1 & H2 & ->). exists a, wr, (es ++ [e]). split; [exact H1|].
  split; [apply Forall_app; auto|]. unfold run. rewrite fold_left_app. reflexivity. Qed.
Lemma reach_op w o : reachable w -> op_wf o -> reachable (snd (step o w)).
Proof. intros H Ho. apply (reach_step w (EOp o)); assumption. Qed.
(* a property established by initialisation and kept by every operation on a reachable state *)
Lemma reach_stable (P : World A -> Prop) :
  (forall ps a wr out ub ngub, P (snd (core_init (boot ps a wr out ub ngub)))) ->
  (forall o w, op_wf o -> reachable w -> P w -> P (snd (step o w))) -> forall w, reachable w -> P w.
Proof.
  intros H0 H1 w (ps0 & a & wr & es & Hps & Hes & ->).
  assert (G : forall es', Forall event_wf es' -> P (run es' (powerUp ps0 a wr))); [|apply G, Hes].
  intros es'. induction es' as [|e es' IH] using rev_ind; intros HF; [apply H0|].
  apply Forall_app in HF. destruct HF as [HF1 HF2]. unfold run in *. rewrite fold_left_app. cbn [fold_left].
  destruct e as [o|o k a'].
  - cbn [stepE]. apply H1; [inversion HF2; assumption| |apply IH, HF1].
    exists ps0, a, wr, es'. auto.
  - apply H0.
Qed.
Lemma snd_then {T} (m : M A T) w : snd ((m ;; ret tt) w) = snd (m w). Proof. reflexivity. Qed.
Lemma step_init w : snd (step OpInit w) = snd (core_init w). Proof. exact (snd_then core_init w). Qed.
(* a property of the unpowered node that every operation keeps *)
Lemma reach_kept (P : World A -> Prop) :
  (forall ps a wr out ub ngub, P (boot ps a wr out ub ngub)) -> (forall o w, P w -> P (snd (step o w))) -> forall w, reachable w -> P w.
Proof.
  intros H0 H1. apply reach_stable.
  - intros ps a wr out ub ngub. rewrite <- step_init. apply H1, H0.
  - intros o w _ _. apply H1.
Qed.
(* a property of histories: kept by operations and by losing the end of the log *)
Lemma reach_trace (P : World A -> Prop) :
  (forall ps a wr, P (boot ps a wr [] false false)) -> (forall o w, op_wf o -> P w -> P (snd (step o w))) ->
  (forall w d out ps a wr ub ngub, P w -> w_out w = d ++ out -> P (boot ps a wr (OPower :: out) ub ngub)) ->
  forall w, reachable w -> P w.
Proof.
  intros H0 H1 H2 w (ps0 & a & wr & es & Hps & Hes & ->).
  assert (HI : forall v, P v -> P (snd (core_init v))) by (intros v Hv; rewrite <- step_init; apply H1; [exact Logic.I|exact Hv]).
  assert (G : forall es', Forall event_wf es' -> P (run es' (powerUp ps0 a wr))); [|apply G, Hes].
  intros es'. induction es' as [|e es' IH] using rev_ind; intros HF; [apply HI, H0|].
  apply Forall_app in HF. destruct HF as [HF1 HF2]. unfold run in *. rewrite fold_left_app. cbn [fold_left].
  inversion HF2 as [|? ? He _]; subst. destruct e as [o|o k a'].
  - cbn [stepE]. apply H1; [exact He|apply IH, HF1].
  - cbn [stepE]. cbv zeta. apply HI. eapply H2; [apply (H1 o _ He (IH HF1))|]. symmetry. apply firstn_skipn.
Qed.
End Reach.

(* establish R for all functions of the node from its leaves: facts already in the context are
   used as they are, the rest is built from the leaf tactic *)
Ltac tr_exact := match goal with H : ?P |- ?P => exact H end.
Ltac tr_leaf tac := intros;
  lazymatch goal with
  | |- rel _ (emit _) => tac
  | |- rel _ setUB => tac
  | |- rel _ setNgUB => tac
  | |- rel _ (upd _) => tac
  | |- rel _ (timer_start _ _) => tac
  | |- rel _ (timer_stop _) => tac
  | |- rel _ _ => fail
  | |- _ => tac
  end.
Ltac tr_fill leaf := first [tr_exact | intros; first [tr_exact | solve [leaf] | solve [auto] | idtac]].
Ltac tr_api R leaf :=
  assert (t_ub : rel R setUB) by first [tr_exact | leaf];
  assert (t_ngub : rel R setNgUB) by first [tr_exact | leaf];
  assert (t_emit : forall o, plainObs o = true -> rel R (emit o)) by first [tr_exact | leaf];
  assert (t_app : forall v w, R w (set_app v w)) by first [tr_exact | leaf];
  assert (t_psW : forall a v, rel R (psWrite8 a v)) by first [tr_exact | solve [leaf] | unfold psWrite8; rel_tac; leaf];
  assert (t_tx : forall m, rel R (tp_writeMessage m)) by
    first [tr_exact | solve [leaf] | unfold tp_writeMessage, adapterWrite, loopWrite; rel_tac; try leaf; destruct (w_txe _ <? 255); leaf];
  assert (t_ts : forall i v, rel R (timer_start i v)) by first [tr_exact | solve [leaf]];
  assert (t_tp : forall i, rel R (timer_stop i)) by first [tr_exact | solve [leaf]];
  assert (t_nick : forall v, rel R (writeNicknameId v)) by first [tr_exact | intros; apply tr_writeNicknameId; tr_fill leaf];
  assert (t_init : forall b, rel R (changeToStateInit b)) by first [tr_exact | intros; apply tr_toInit; tr_fill leaf];
  assert (t_pre : rel R changeToStatePreActive) by first [tr_exact | apply tr_toPreActive; tr_fill leaf];
  assert (t_act : rel R changeToStateActive) by first [tr_exact | apply tr_toActive; tr_fill leaf];
  assert (t_idle : rel R changeToStateIdle) by first [tr_exact | apply tr_toIdle; tr_fill leaf];
  assert (t_reset : forall t, rel R (changeToStateReset t)) by first [tr_exact | intros; apply tr_toReset; tr_fill leaf];
  assert (t_err : rel R changeToStateError) by first [tr_exact | apply tr_toError; tr_fill leaf];
  assert (t_restore : rel R restoreFactory) by first [tr_exact | apply tr_restoreFactory; tr_fill leaf];
  assert (t_page : forall v w, R w (set_page v w)) by first [tr_exact | leaf];
  assert (t_alarm : rel R (v <- get w_alarm ;; upd (set_alarm 0) ;; ret v)) by first [tr_exact | rel_tac; leaf];
  assert (t_api : forall c, rel R (doApi c)) by
    first [tr_exact | intros; apply tr_doApi; tr_fill leaf;
      unfold setAlarm, setTimeSinceEpoch, enableHeartbeat, log_enable, log_setLevel, tp_getTransmitErrors; rel_tac; leaf].
Ltac tr_mid R leaf := tr_api R leaf;
  assert (t_wv : forall a v, rel R (writeVscpRegister a v)) by first [tr_exact | intros; apply tr_writeVscpRegister; tr_fill leaf];
  assert (t_dmw : forall p a v, rel R (dm_writeRegister p a v)) by first [tr_exact | intros; apply tr_dm_writeRegister; tr_fill leaf];
  assert (t_hb : rel R handleHeartbeat) by first [tr_exact | apply tr_handleHeartbeat; tr_fill leaf];
  assert (t_guid : rel R handleGuidDrop) by first [tr_exact | apply tr_handleGuidDrop; tr_fill leaf];
  assert (t_sinit : rel R stateInit) by first [tr_exact | apply tr_stateInit; tr_fill leaf];
  assert (t_sreset : rel R stateReset) by first [tr_exact | apply tr_stateReset; tr_fill leaf];
  assert (t_dispatch : rel R dispatch) by (first [tr_exact | apply tr_dispatch; tr_fill leaf]).
Ltac tr_all R leaf := tr_mid R leaf;
  assert (t_read : forall rd, rel R (tp_readMessage rd)) by
    first [tr_exact | solve [leaf] | unfold tp_readMessage, loopWrite; rel_tac; try leaf];
  assert (t_log : forall m, rel R (log_handleEvent m)) by first [tr_exact | intros; apply tr_log_handleEvent; tr_fill leaf];
  assert (t_take : forall m, rel R (upd (set_rx m) ;; upd (set_rxv true) ;; emit (ORx m))) by first [tr_exact | intros; rel_tac; leaf];
  assert (t_process : forall rd, rel R (process rd)) by (first [tr_exact | intros; apply tr_process; tr_fill leaf]).
Ltac tr_coreinit R leaf :=
  assert (t_tpinit : rel R tp_init) by (unfold tp_init; apply rel_if; [apply rel_upd; leaf|apply rel_ret; assumption]);
  assert (t_dminit : rel R dm_init) by (unfold dm_init; apply rel_if; [apply rel_upd; leaf|apply rel_ret; assumption]);
  assert (t_rnick : rel R (n <- ps_readNicknameId ;; upd (set_nick n))) by
    (unfold ps_readNicknameId, psRead8; apply rel_bind; [assumption|apply rel_get; assumption|intros ?; apply rel_upd; leaf]);
  assert (t_coreinit : rel R core_init) by
    (apply tr_core_init; first [tr_exact | leaf]).
(* all operations *)
Ltac tr_step R leaf := tr_all R leaf; tr_coreinit R leaf;
  assert (t_step : forall o, rel R (step o)) by
    (intros [?rd|?p|?c|]; unfold step;
     [apply rel_bind; [assumption|intros; match goal with H : forall rd, rel R (process rd) |- _ => apply H end|intros ?; apply rel_ret; assumption]
     |apply rel_bind; [assumption|leaf|intros ?; apply rel_upd; leaf]
     |match goal with H : forall c, rel R (doApi c) |- _ => apply H end
     |apply rel_bind; [assumption|tr_exact|intros ?; apply rel_ret; assumption]]).
