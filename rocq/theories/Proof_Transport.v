(* Proof_Transport.v - loop-back, transmit errors *)
From Verif Require Export Spec_Transport Reach.

Section T.
Context {A : Type} {E : Env A}.
Implicit Type w : World A.

Lemma frames_app l1 l2 : frames (l1 ++ l2) = frames l1 ++ frames l2.
Proof. unfold frames. apply flat_map_app. Qed.
Lemma sentBack_app l1 l2 : sentBack (l1 ++ l2) = sentBack l1 ++ sentBack l2.
Proof. unfold sentBack. rewrite frames_app, map_app, filter_app. reflexivity. Qed.

Lemma taken_app l1 l2 : taken (l1 ++ l2) = taken l1 ++ taken l2.
Proof. unfold taken. apply flat_map_app. Qed.

(* ---- loop-back ---- *)
Definition queued (q : list Msg) w : Prop := Repr (w_loop w) q /\ cb_num (w_loop w) = c_loop_num cfg.
Definition loopCap : nat := N.to_nat (c_loop_num cfg) - 1.
Definition loopR w w' : Prop := exists d, w_out w' = d ++ w_out w /\ taken (rev d) = [] /\
  forall q, queued q w -> queued (fold_left (enqueue loopCap) (sentBack (rev d)) q) w'.
Lemma loopR_refl w : loopR w w. Proof. exists []. split; [reflexivity|]. split; [reflexivity|]. intros q H. exact H. Qed.
Lemma loopR_trans a b c : loopR a b -> loopR b c -> loopR a c.
Proof.
  intros (d1 & H1 & T1 & K1) (d2 & H2 & T2 & K2). exists (d2 ++ d1). split; [rewrite H2, H1, app_assoc; reflexivity|].
  split; [rewrite rev_app_distr, taken_app, T1, T2; reflexivity|].
  intros q Hq. rewrite rev_app_distr, sentBack_app, fold_left_app. apply K2, K1, Hq.
Qed.
Lemma loopR_same w w' : w_out w' = w_out w -> w_loop w' = w_loop w -> loopR w w'.
Proof. intros H1 H2. exists []. split; [exact H1|]. split; [reflexivity|]. intros q H. unfold queued. rewrite H2. exact H. Qed.
Lemma loopR_emit o : frames [o] = [] -> taken [o] = [] -> rel loopR (emit o).
Proof.
  intros H HT w. exists [o]. split; [reflexivity|]. split; [exact HT|]. intros q Hq. cbn [rev app]. unfold sentBack. rewrite H. exact Hq.
Qed.
Lemma loopWrite_queued m q w : queued q w -> loopWrite m w = (tt, snd (loopWrite m w)) /\ queued (enqueue loopCap q m) (snd (loopWrite m w)) /\
  w_out (snd (loopWrite m w)) = w_out w.
Proof.
  intros [H1 H2]. destruct (cbWrite1 _ _ m H1) as (n & b' & W1 & W2 & W3).
  unfold loopWrite, bind, get. cbn [fst snd]. rewrite W1. unfold upd. cbn [fst snd]. split; [reflexivity|]. split; [|reflexivity].
  split; wsimp; [|congruence]. unfold enqueue, loopCap. rewrite <- H2. exact W3.
Qed.
Lemma loopR_tx m : c_loop cfg = true -> rel loopR (tp_writeMessage m).
Proof.
  intros HL. unfold tp_writeMessage. rewrite HL.
  assert (Rrefl := loopR_refl). assert (Rtrans := loopR_trans).
  apply rel_bind; [assumption| |intros st; rel_tac; destruct (w_txe _ <? 255); apply loopR_same; reflexivity].
  apply rel_if.
  2:{ apply rel_bind; [assumption|apply loopR_emit; reflexivity|intros _; rel_tac]. }
  intros w. unfold adapterWrite.
  set (w1 := snd ((when negb (m_class m =? CLASS_PROTOCOL) && negb (m_class m =? CLASS_LOG) do loopWrite m) w)).
  exists [OTx m (hd true (w_wr w1))]. split.
  - unfold bind, upd, emit, ret, get. cbn [fst snd]. wsimp. fold w1. f_equal.
    unfold w1. destruct (_ && _); [|reflexivity]. unfold loopWrite, bind, get. cbn [fst snd].
    destruct (cbWrite (w_loop w) [m]) as [[? ?]|]; reflexivity.
  - split; [reflexivity|]. intros q Hq. unfold sentBack, frames. cbn [rev app flat_map map fst filter].
    assert (G : queued (fold_left (enqueue loopCap) (if comesBack m then [m] else []) q) w1).
    { unfold w1. change CLASS_PROTOCOL with 0. change CLASS_LOG with 509. unfold comesBack. destruct (negb (m_class m =? 0) && negb (m_class m =? 509)); [|exact Hq].
      cbn [fold_left]. apply (loopWrite_queued m q w Hq). }
    exact G.
Qed.
Lemma loopR_parts : c_loop cfg = true -> (forall c, rel loopR (doApi c)) /\ rel loopR dispatch /\ rel loopR runLogger /\ rel loopR runEpoch.
Proof.
  intros HL. pose (R := loopR). assert (Rrefl : forall w, R w w) by exact loopR_refl. assert (Rtrans : forall a b c, R a b -> R b c -> R a c) by exact loopR_trans.
  assert (S : forall w w', w_out w' = w_out w -> w_loop w' = w_loop w -> R w w') by exact loopR_same.
  assert (X_emit : forall o, plainObs o = true -> rel R (emit o)) by (intros o Ho; apply loopR_emit; destruct o; try reflexivity; discriminate Ho).
  assert (X_e1 : forall n, rel R (emit (OTxErrors n))) by (intros; apply loopR_emit; reflexivity).
  assert (X_e2 : rel R (emit OResetRequest)) by (apply loopR_emit; reflexivity).
  assert (X_e5 : rel R (emit (OLamp LampBlinkFast))) by (apply loopR_emit; reflexivity).
  assert (X_e6 : rel R (emit (OLamp LampOn))) by (apply loopR_emit; reflexivity).
  assert (X_e7 : rel R (emit OHeartbeatCustom)) by (apply loopR_emit; reflexivity).
  assert (X_e8 : forall p a v, rel R (emit (OAppWrite p a v))) by (intros; apply loopR_emit; reflexivity).
  assert (X_e9 : rel R (emit OAppRestore)) by (apply loopR_emit; reflexivity).
  assert (X_e4 : forall c, rel R (emit (OApi c))) by (intros; apply loopR_emit; reflexivity).
  assert (X_e3 : forall a p m, rel R (emit (OAction a p m))) by (intros; apply loopR_emit; reflexivity).
  assert (X_tx : forall m, rel R (tp_writeMessage m)) by (intros; apply loopR_tx; exact HL).
  assert (X_psW : forall a v, rel R (psWrite8 a v)).
  { intros a v. unfold psWrite8. apply rel_bind; [assumption|apply rel_upd; intros; apply S; reflexivity|intros _; apply loopR_emit; reflexivity]. }
  change ((forall c, rel R (doApi c)) /\ rel R dispatch /\ rel R runLogger /\ rel R runEpoch). clearbody R.
  tr_mid R ltac:(tr_leaf ltac:(first [apply X_e1 | apply X_e2 | apply X_e4 | apply X_e3 | apply S; reflexivity | intros ?; apply S; reflexivity])).
  split; [assumption|]. split; [assumption|]. split.
  - unfold runLogger, log_handleEvent, ps_readLogId, psRead8. rel_tac; apply S; reflexivity.
  - unfold runEpoch, timer_running, timer_start. rel_tac; apply S; reflexivity.
Qed.

Definition delivered (rd : option Msg) (q : list Msg) : option Msg := match q with m :: _ => Some m | [] => rd end.
Lemma read_queued rd q w : c_loop cfg = true -> queued q w ->
  received rd w = delivered rd q /\ queued (arrival (OpProcess rd) q) (snd (tp_readMessage rd w)) /\ w_out (snd (tp_readMessage rd w)) = w_out w.
Proof.
  intros HL Hq. pose proof Hq as [H1 H2]. destruct (cbRead1 _ _ H1) as (b' & E1 & E2 & E3).
  assert (Q1 : queued (tl q) (set_loop b' w)) by (split; wsimp; [exact E3|congruence]).
  unfold received, tp_readMessage. rewrite HL. unfold bind, get. cbn [fst snd]. rewrite E1.
  destruct q as [|m q]; cbn [firstn].
  - unfold upd, ret. cbn [fst snd]. split; [reflexivity|]. split; [exact Q1|reflexivity].
  - unfold upd. cbn [fst snd]. cbn [tl] in Q1. destruct rd as [x|].
    + destruct (loopWrite_queued x q _ Q1) as (_ & L2 & L3). unfold ret. cbn [fst snd]. split; [reflexivity|].
      split; [|exact L3]. cbn [arrival optList]. pose proof (rp_cap _ _ H1) as HC. unfold enqueue in L2.
      cbn [length] in HC. replace (Nat.ltb (length q) loopCap) with true in L2 by (unfold loopCap; lia). exact L2.
    + unfold ret. cbn [fst snd arrival optList]. rewrite app_nil_r. split; [reflexivity|]. split; [exact Q1|reflexivity].
Qed.
Lemma process_queued rd q w : c_loop cfg = true -> queued q w ->
  let w' := snd (step (OpProcess rd) w) in
  taken (effects w w') = optList (delivered rd q) /\ queued (queueAfter loopCap (OpProcess rd) (effects w w') q) w'.
Proof.
  intros HL Hq. cbv zeta. destruct (loopR_parts HL) as (_ & PD & PL & PE). cbn [step].
  set (w1 := set_out (OProcess :: w_out w) w). assert (Hq1 : queued q w1) by exact Hq.
  destruct (read_queued rd q w1 HL Hq1) as (R1 & R2 & R3). set (w2 := snd (tp_readMessage rd w1)) in *.
  set (w3 := snd (takeMessage (delivered rd q) w2)).
  assert (Hq3 : queued (arrival (OpProcess rd) q) w3) by (unfold w3; rewrite takeMessage_state; destruct (delivered rd q); exact R2).
  assert (O3 : w_out w3 = map ORx (optList (delivered rd q)) ++ OProcess :: w_out w).
  { unfold w3. rewrite takeMessage_state. destruct (delivered rd q); cbn [optList map app]; wsimp; rewrite R3; reflexivity. }
  assert (RR : loopR w3 (snd (dispatch (snd (prologue rd w))))).
  { apply (loopR_trans _ (snd (runEpoch (snd (runLogger w3))))); [eapply loopR_trans; [apply PL|apply PE]|].
    replace (snd (prologue rd w)) with (snd (runEpoch (snd (runLogger w3)))); [apply PD|].
    unfold prologue. rewrite bind_emit. fold w1. unfold bind, ret. cbn [fst snd]. fold w2. unfold w3.
    unfold received in R1. rewrite <- R1. reflexivity. }
  destruct RR as (d & O4 & T4 & K4). specialize (K4 _ Hq3).
  set (w4 := snd (dispatch (snd (prologue rd w)))) in *.
  assert (PS := process_state rd w). cbv zeta in PS. fold w4 in PS. set (b := match received rd w with Some _ => true | None => _ end) in PS.
  clearbody b. assert (SW : snd ((process rd ;; ret tt) w) = set_out (ORet b :: w_out w4) (set_rxv false w4)) by (unfold bind, ret; cbn [fst snd]; rewrite PS; reflexivity).
  rewrite SW. clear PS SW.
  assert (EF : effects w (set_out (ORet b :: w_out w4) (set_rxv false w4)) = OProcess :: map ORx (optList (delivered rd q)) ++ rev d ++ [ORet b]).
  { rewrite (effects_app w _ (ORet b :: d ++ map ORx (optList (delivered rd q)) ++ [OProcess])).
    - cbn [rev]. rewrite rev_app_distr, rev_app_distr. cbn [rev app]. destruct (delivered rd q); cbn [optList map rev app]; rewrite <- ?app_assoc; reflexivity.
    - wsimp. rewrite O4, O3. cbn [app]. rewrite <- !app_assoc. reflexivity. }
  rewrite EF. split.
  - change (OProcess :: map ORx (optList (delivered rd q)) ++ rev d ++ [ORet b]) with ([OProcess] ++ map ORx (optList (delivered rd q)) ++ rev d ++ [ORet b]).
    rewrite !taken_app, T4. cbn [taken flat_map app]. rewrite app_nil_r. destruct (delivered rd q); reflexivity.
  - unfold queueAfter. change (OProcess :: map ORx (optList (delivered rd q)) ++ rev d ++ [ORet b]) with ([OProcess] ++ map ORx (optList (delivered rd q)) ++ rev d ++ [ORet b]).
    rewrite !sentBack_app. replace (sentBack (map ORx (optList (delivered rd q)))) with (@nil Msg) by (destruct (delivered rd q); reflexivity).
    change (sentBack [OProcess]) with (@nil Msg). change (sentBack [ORet b]) with (@nil Msg). cbn [app]. rewrite app_nil_r. exact K4.
Qed.
Lemma effects_ext w w' d : w_out w' = d ++ w_out w -> effects w w' = rev d. Proof. apply effects_app. Qed.

(* initialisation *)
Definition quietR w w' : Prop := exists d, w_out w' = d ++ w_out w /\ frames (rev d) = [].
Lemma init_quiet w : quietR w (snd (core_init w)).
Proof.
  pose (R := quietR).
  assert (Rrefl : forall w, R w w) by (intros v; exists []; split; reflexivity).
  assert (Rtrans : forall a b c, R a b -> R b c -> R a c).
  { intros a b c (d1 & H1 & K1) (d2 & H2 & K2). exists (d2 ++ d1). split; [rewrite H2, H1, app_assoc; reflexivity|].
    rewrite rev_app_distr, frames_app, K1, K2. reflexivity. }
  assert (S : forall w w', w_out w' = w_out w -> R w w') by (intros v v' H; exists []; split; [exact H|reflexivity]).
  assert (He : forall o, frames [o] = [] -> rel R (emit o)) by (intros o H v; exists [o]; split; [reflexivity|exact H]).
  assert (Hp : forall a v, rel R (psWrite8 a v)).
  { intros a v. unfold psWrite8. apply rel_bind; [assumption|apply rel_upd; intros; apply S; reflexivity|intros _; apply He; reflexivity]. }
  revert w. change (rel R core_init). clearbody R.
  assert (Hpl : forall o, plainObs o = true -> rel R (emit o)) by (intros o Ho; apply He; destruct o; try reflexivity; discriminate Ho).
  assert (Hn : forall v, rel R (writeNicknameId v)) by (intros v; apply tr_writeNicknameId; auto; intros; apply S; reflexivity).
  apply tr_core_init; try assumption; try (intros; apply S; reflexivity); try (intros; apply He; reflexivity).
  - unfold tp_init. apply rel_if; [apply rel_upd; intros; apply S; reflexivity|apply rel_ret; assumption].
  - unfold dm_init. apply rel_if; [apply rel_upd; intros; apply S; reflexivity|apply rel_ret; assumption].
  - unfold ps_readNicknameId, psRead8. apply rel_bind; [assumption|apply rel_get; assumption|intros ?; apply rel_upd; intros; apply S; reflexivity].
  - intros i v w. apply S. reflexivity.
  - apply tr_restoreFactory; auto; try (apply He; reflexivity); intros; apply S; reflexivity.
  - apply tr_toError; try assumption; intros; apply S; reflexivity.
Qed.
Hypothesis VE : valid_env E.
Lemma init_queued ps0 w : c_loop cfg = true -> PreInv ps0 w -> queued [] (snd (core_init w)).
Proof.
  intros HL HP. rewrite core_init_eq.
  assert (HT : pres w_loop (@initTimers A E)) by (unfold initTimers, createTimer, timer_start; pres_tac; reflexivity).
  assert (HR : pres w_loop (@restoreFactory A E)).
  { intros v. rewrite (restore_pres w_loop), writeNick_state by (reflexivity || (unfold NICK_NOT_INIT; lia)). reflexivity. }
  assert (HE : forall b, pres w_loop (@initTail A E b)).
  { intros b. unfold initTail, getStartUpControl, changeToStateError, ps_readCtrl, psRead8. repeat first [pres_step | exact HR]. }
  unfold queued. rewrite (HE _ _), (HT _).
  assert (HH : w_loop (snd (initHead w)) = cbInit (cb_store (w_loop w)) (c_loop_num cfg * c_msg_size cfg) (c_msg_size cfg)).
  { unfold initHead, tp_init, dm_init, ps_readNicknameId, psRead8, emit, bind, upd, get. cbn [fst snd]. wsimp. rewrite HL.
    destruct (c_dm cfg), (c_dm_paged cfg); reflexivity. }
  rewrite HH. pose proof (j_loop _ w HP) as LL.
  destruct (v_loop cfg (ve_cfg E VE) HL) as (L1 & L2 & L3).
  replace (c_loop_num cfg) with (N.of_nat (length (cb_store (w_loop w)))) in * by lia.
  apply repr_init; try lia. destruct (cb_store (w_loop w)); cbn in *; [lia|discriminate].
Qed.
Lemma step_queued ps0 o q w : c_loop cfg = true -> op_wf o -> Inv ps0 w -> queued q w ->
  queued (queueAfter loopCap o (effects w (snd (step o w))) q) (snd (step o w)).
Proof.
  intros HL Ho HI Hq. destruct o as [rd|p|c|].
  - apply (process_queued rd q w HL Hq).
  - cbn [step]. set (w' := snd _). assert (EF : effects w w' = [OTick p]) by (apply (effects_app w w' [OTick p]); reflexivity).
    rewrite EF. exact Hq.
  - cbn [step]. destruct (loopR_parts HL) as (PA & _). destruct (PA c w) as (d & O & _ & K).
    rewrite (effects_app _ _ d O). apply K. exact Hq.
  - rewrite step_init. destruct (init_quiet w) as (d & O & F). rewrite (effects_app _ _ d O).
    unfold queueAfter, sentBack. rewrite F. cbn [map filter fold_left arrival]. apply (init_queued ps0); [exact HL|].
    apply inv_pre. exact HI.
Qed.
Lemma run_queued ps0 : c_loop cfg = true -> forall es w q, Forall event_wf es -> Inv ps0 w -> queued q w ->
  queued (pendingRun loopCap es w q) (run es w).
Proof.
  intros HL. induction es as [|e es IH]; intros w q HF HI Hq; [exact Hq|]. inversion HF as [|? ? He HF']; subst.
  unfold run in *. cbn [pendingRun fold_left]. cbv zeta. apply IH; [exact HF'|apply (inv_stepE ps0 VE e w He HI)|].
  destruct e as [o|o k a]; [apply (step_queued ps0); assumption|].
  destruct (crash_boot ps0 VE o k a w He HI) as (ps & out & ub & ngub & HP & _ & ->). apply (init_queued ps0); assumption.
Qed.
Lemma history_queued ps0 a wr es : c_loop cfg = true -> (forall x, ps0 x < 256) -> Forall event_wf es ->
  queued (pendingRun loopCap es (powerUp ps0 a wr) []) (run es (powerUp ps0 a wr)).
Proof.
  intros HL H HF. apply (run_queued ps0); [exact HL|exact HF|apply inv_powerUp; assumption|].
  apply (init_queued ps0); [exact HL|]. apply boot_pre; auto.
Qed.

(* ---- transmit errors ---- *)
Fixpoint queriesOK (l : list Obs) : Prop :=
  match l with
  | [] => True
  | OTxErrors n :: r => n = N.min 255 (failures r) /\ queriesOK r
  | _ :: r => queriesOK r
  end.
Definition errP w : Prop := w_txe w = N.min 255 (failures (w_out w)) /\ queriesOK (w_out w).
Lemma queriesOK_app l1 l2 : queriesOK (l1 ++ l2) -> queriesOK l2.
Proof. induction l1 as [|o l1 IH]; [auto|]. intros H. apply IH. destruct o; cbn [app queriesOK] in H; tauto. Qed.
Definition errR w w' : Prop := errP w -> errP w'.
Lemma errR_emit o : (match o with OTx _ false | OTxDrop _ | OTxErrors _ | OPower => False | _ => True end) -> rel errR (emit o).
Proof.
  intros Ho w [H1 H2]. unfold errP, emit, upd. cbn [snd]. wsimp. destruct o; try destruct ok; try contradiction Ho; cbn [failures queriesOK]; auto.
Qed.
Lemma err_step o : rel errR (step o).
Proof.
  pose (R := errR).
  assert (Rrefl : forall w, R w w) by (intros v H; exact H).
  assert (Rtrans : forall a b c, R a b -> R b c -> R a c) by (unfold R, errR; auto).
  assert (S : forall w w', w_out w' = w_out w -> w_txe w' = w_txe w -> R w w') by (intros v v' H1 H2 H; unfold errP; rewrite H1, H2; exact H).
  assert (X_emit : forall o, plainObs o = true -> rel R (emit o)) by (intros x Hx; apply errR_emit; destruct x; try exact Logic.I; discriminate Hx).
  assert (X_e : forall o, (match o with OTx _ false | OTxDrop _ | OTxErrors _ | OPower => False | _ => True end) -> rel R (emit o)) by exact errR_emit.
  assert (X_psW : forall a v, rel R (psWrite8 a v)).
  { intros a v. unfold psWrite8. apply rel_bind; [assumption|apply rel_upd; intros; apply S; reflexivity|intros _; apply X_e; exact Logic.I]. }
  assert (X_q : rel R (n <- tp_getTransmitErrors ;; emit (OTxErrors n))).
  { intros v [H1 H2]. unfold tp_getTransmitErrors, bind, emit, get, upd, ret. cbn [fst snd]. unfold errP. wsimp. cbn [failures queriesOK]. auto. }
  assert (X_tx : forall m, rel R (tp_writeMessage m)).
  { intros m v [H1 H2]. unfold tp_writeMessage.
    assert (G : forall (m : M A bool) w, (w_txe (snd (m w)) = w_txe w /\ queriesOK (w_out (snd (m w))) /\ failures (w_out (snd (m w))) = failures (w_out w) + if fst (m w) then 0 else 1) ->
       errP w -> errP (snd (bind m (fun status => (when negb status do upd (fun w => if w_txe w <? 255 then set_txe (w_txe w + 1) w else w)) ;; ret status) w))).
    { intros q u (G1 & G2 & G3) [K1 K2]. unfold bind, ret. cbn [fst snd]. destruct (fst (q u)); cbn [negb].
      - cbn [fst snd]. split; [|exact G2]. rewrite G1, G3, N.add_0_r. exact K1.
      - unfold upd. cbn [fst snd]. destruct (w_txe (snd (q u)) <? 255) eqn:Q; unfold errP; wsimp; rewrite ?G3; (split; [|exact G2]); rewrite G1 in *; lia. }
    apply G; [|split; assumption]. clear G.
    assert (GA : forall u, errP u -> w_txe (snd (adapterWrite m u)) = w_txe u /\ queriesOK (w_out (snd (adapterWrite m u))) /\
      failures (w_out (snd (adapterWrite m u))) = failures (w_out u) + if fst (adapterWrite m u) then 0 else 1).
    { intros u [U1 U2]. unfold adapterWrite, emit, bind, get, upd, ret. cbn [fst snd]. wsimp. split; [reflexivity|]. split; [exact U2|].
      destruct (hd true (w_wr u)); cbn [failures]; lia. }
    destruct (c_loop cfg); [|apply GA; split; assumption]. destruct (m_size m <=? L1_DATA_SIZE).
    - set (u := snd ((when negb (m_class m =? CLASS_PROTOCOL) && negb (m_class m =? CLASS_LOG) do loopWrite m) v)).
      unfold bind at 1 2 3 4. fold u.
      assert (U : w_txe u = w_txe v /\ w_out u = w_out v).
      { unfold u. destruct (_ && _); [|auto]. unfold loopWrite, bind, get. cbn [fst snd]. destruct (cbWrite (w_loop v) [m]) as [[? ?]|]; auto. }
      destruct U as [U1 U2]. rewrite <- U1, <- U2. apply GA. split; rewrite ?U1, ?U2; assumption.
    - unfold bind, emit, upd, ret. cbn [fst snd]. wsimp. cbn [failures queriesOK]. auto. }
  change (rel R (step o)). clearbody R.
  tr_step R ltac:(tr_leaf ltac:(first [apply X_e; exact Logic.I | apply X_q | apply S; reflexivity | intros ?; apply S; reflexivity])).
  apply t_step.
Qed.
Lemma reach_err w : reachable w -> errP w.
Proof.
  apply reach_trace.
  - intros. split; [reflexivity|exact Logic.I].
  - intros o v _ H. exact (err_step o v H).
  - intros v d out ps a wr ub ngub [_ H] HO. split; [reflexivity|]. unfold boot. wsimp. cbn [queriesOK]. rewrite HO in H. eapply queriesOK_app. exact H.
Qed.
Lemma queries_at l l1 n l2 : queriesOK l -> l = l1 ++ OTxErrors n :: l2 -> n = N.min 255 (failures l2).
Proof. intros H ->. apply queriesOK_app in H. apply H. Qed.
Lemma queued_bound q w : queued q w -> (length q <= N.to_nat (c_loop_num cfg) - 1)%nat.
Proof. intros [H1 H2]. pose proof (rp_cap _ _ H1) as H. rewrite H2 in H. lia. Qed.

(* a process call hands out what tp_readMessage returns *)
Definition takenR w w' : Prop := exists d, w_out w' = d ++ w_out w /\ taken (rev d) = [].
Lemma taken_parts : rel takenR dispatch /\ rel takenR runLogger /\ rel takenR runEpoch.
Proof.
  pose (R := takenR).
  assert (Rrefl : forall w, R w w) by (intros w; exists []; split; reflexivity).
  assert (Rtrans : forall a b c, R a b -> R b c -> R a c).
  { intros a b c (d1 & H1 & T1) (d2 & H2 & T2). exists (d2 ++ d1). split; [rewrite H2, H1, app_assoc; reflexivity|].
    rewrite rev_app_distr, taken_app, T1, T2. reflexivity. }
  assert (S : forall w w', w_out w' = w_out w -> R w w') by (intros w w' H; exists []; split; [exact H|reflexivity]).
  assert (X_e : forall o, (match o with ORx _ => False | _ => True end) -> rel R (emit o)).
  { intros o Ho w. exists [o]. split; [reflexivity|]. destruct o; try reflexivity. contradiction Ho. }
  assert (X_emit : forall o, plainObs o = true -> rel R (emit o)) by (intros o Ho; apply X_e; destruct o; try exact Logic.I; discriminate Ho).
  change (rel R dispatch /\ rel R runLogger /\ rel R runEpoch). clearbody R.
  tr_mid R ltac:(tr_leaf ltac:(first [apply X_e; exact Logic.I | apply S; reflexivity | intros ?; apply S; reflexivity])).
  split; [assumption|]. split.
  - unfold runLogger, log_handleEvent, ps_readLogId, psRead8. rel_tac; apply S; reflexivity.
  - unfold runEpoch, timer_running, timer_start. rel_tac; apply S; reflexivity.
Qed.
Lemma process_taken rd w : taken (effects w (snd (step (OpProcess rd) w))) = optList (received rd w).
Proof.
  destruct taken_parts as (PD & PL & PE). cbn [step].
  set (w1 := set_out (OProcess :: w_out w) w). set (w2 := snd (tp_readMessage rd w1)).
  assert (R1 : fst (tp_readMessage rd w1) = received rd w) by apply read_out_indep.
  assert (O2 : w_out w2 = OProcess :: w_out w) by (unfold w2; rewrite (read_pres w_out); reflexivity).
  set (w3 := snd (takeMessage (received rd w) w2)).
  assert (O3 : w_out w3 = map ORx (optList (received rd w)) ++ OProcess :: w_out w).
  { unfold w3. rewrite takeMessage_state. destruct (received rd w); cbn [optList map app]; wsimp; rewrite O2; reflexivity. }
  assert (RR : takenR w3 (snd (dispatch (snd (prologue rd w))))).
  { replace (snd (prologue rd w)) with (snd (runEpoch (snd (runLogger w3)))).
    - destruct (PL w3) as (d1 & Q1 & T1). destruct (PE (snd (runLogger w3))) as (d2 & Q2 & T2).
      destruct (PD (snd (runEpoch (snd (runLogger w3))))) as (d3 & Q3 & T3). exists (d3 ++ d2 ++ d1).
      split; [rewrite Q3, Q2, Q1, <- !app_assoc; reflexivity|]. rewrite !rev_app_distr, !taken_app, T1, T2, T3. reflexivity.
    - unfold prologue. rewrite bind_emit. fold w1. unfold bind, ret. cbn [fst snd]. fold w2. unfold w3. rewrite R1. reflexivity. }
  destruct RR as (d & O5 & T5). set (w5 := snd (dispatch (snd (prologue rd w)))) in *.
  assert (PS := process_state rd w). cbv zeta in PS. fold w5 in PS. set (b := match received rd w with Some _ => true | None => _ end) in PS.
  clearbody b. assert (SW : snd ((process rd ;; ret tt) w) = set_out (ORet b :: w_out w5) (set_rxv false w5)) by (unfold bind, ret; cbn [fst snd]; rewrite PS; reflexivity).
  rewrite SW. rewrite (effects_app w _ (ORet b :: d ++ map ORx (optList (received rd w)) ++ [OProcess])).
  - cbn [rev]. rewrite rev_app_distr, rev_app_distr. unfold taken in *.
    destruct (received rd w); cbn [optList map rev app flat_map]; rewrite !flat_map_app, ?T5; reflexivity.
  - wsimp. rewrite O5, O3. cbn [app]. rewrite <- !app_assoc. reflexivity.
Qed.
Lemma process_direct w rd : c_loop cfg = false -> taken (effects w (snd (step (OpProcess rd) w))) = optList rd.
Proof. intros HL. rewrite process_taken. unfold received, tp_readMessage. rewrite HL. reflexivity. Qed.
End T.
