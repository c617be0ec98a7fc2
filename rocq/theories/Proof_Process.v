(* Proof_Process.v - the parts of vscp_core_process *)
From Verif Require Export Proof_Init Traverse.

Section P.
Context {A : Type} {E : Env A}.
Implicit Type w : World A.

Definition takeMessage (r : option Msg) : M A unit :=
  match r with Some m => upd (set_rx m) ;; upd (set_rxv true) ;; emit (ORx m) | None => upd (set_rxv false) end.
Definition runLogger : M A unit := when c_logger cfg do (m <- get w_rx ;; log_handleEvent m).
Definition runEpoch : M A unit :=
  ep <- get w_tEp ;;
  running <- timer_running ep ;;
  when negb (ep =? TIMER_ID_INVALID) && negb running do
     (upd (fun w => set_epoch (u32 (w_epoch w + 1)) w) ;; timer_start ep 1000).
Definition prologue (rd : option Msg) : M A (option Msg) :=
  emit OProcess ;; r <- tp_readMessage rd ;; takeMessage r ;; runLogger ;; runEpoch ;; ret r.
Definition dispatch : M A bool :=
  s <- get w_st ;;
  match s with
  | STARTUP => stateStartup ;; ret false
  | INIT => stateInit ;; ret false
  | PREACTIVE => statePreActive ;; ret false
  | ACTIVE => stateActive
  | IDLE => ret false
  | RESET => stateReset ;; ret false
  | ERROR => ret false
  end.
Definition epilogue (r : option Msg) (a : bool) : M A bool :=
  upd (set_rxv false) ;;
  let b := match r with Some _ => true | None => a end in
  emit (ORet b) ;;
  ret b.
Lemma process_eq rd w : process rd w = (r <- prologue rd ;; a <- dispatch ;; epilogue r a) w.
Proof.
  unfold process, prologue. rewrite ?bind_assoc. apply bind_ext. intros [] w1. rewrite ?bind_assoc. apply bind_ext. intros r w2.
  rewrite ?bind_assoc. apply bind_ext. intros [] w3. rewrite ?bind_assoc. apply bind_ext. intros [] w4. unfold runEpoch. rewrite ?bind_assoc.
  apply bind_ext. intros ep w5. rewrite ?bind_assoc. apply bind_ext. intros ru w6. rewrite ?bind_assoc. apply bind_ext. intros [] w7.
  rewrite bind_ret. unfold dispatch. rewrite ?bind_assoc. apply bind_ext. intros s w8. reflexivity.
Qed.

(* what the part before the state machine leaves alone *)
Lemma pres_prologue {T} (f : World A -> T) rd :
  (forall v w, f (set_out v w) = f w) -> (forall v w, f (set_rx v w) = f w) -> (forall v w, f (set_rxv v w) = f w) ->
  (forall v w, f (set_loop v w) = f w) -> (forall v w, f (set_ub v w) = f w) -> (forall v w, f (set_logEn v w) = f w) ->
  (forall v w, f (set_logLvl v w) = f w) -> (forall v w, f (set_epoch v w) = f w) -> (forall v w, f (set_tm v w) = f w) ->
  pres f (prologue rd).
Proof.
  intros H1 H2 H3 H4 H5 H6 H7 H8 H9.
  unfold prologue, tp_readMessage, takeMessage, runLogger, runEpoch, log_handleEvent, ps_readLogId, psRead8, loopWrite, setUB, timer_running, timer_start.
  pres_tac; auto.
Qed.
(* the message taken in a cycle in which the adapter delivers rd: vscp_transport_readMessage *)
Lemma read_out_indep rd o w : fst (tp_readMessage rd (set_out o w)) = fst (tp_readMessage rd w).
Proof.
  unfold tp_readMessage, bind, get. destruct (c_loop cfg); [|reflexivity]. cbn [fst snd]. wsimp.
  destruct (cbRead (w_loop w) 1) as [[[|m l] b]|]; cbn [fst snd]; reflexivity.
Qed.
Lemma read_pres {T} (f : World A -> T) rd : (forall v w, f (set_loop v w) = f w) -> (forall v w, f (set_ub v w) = f w) -> pres f (tp_readMessage rd).
Proof. intros H1 H2. unfold tp_readMessage, loopWrite, setUB. pres_tac; auto. Qed.
Lemma logger_pres {T} (f : World A -> T) : (forall v w, f (set_logEn v w) = f w) -> (forall v w, f (set_logLvl v w) = f w) -> pres f runLogger.
Proof. intros H1 H2. unfold runLogger, log_handleEvent, ps_readLogId, psRead8. pres_tac; auto. Qed.
Lemma epoch_pres {T} (f : World A -> T) : (forall v w, f (set_epoch v w) = f w) -> (forall v w, f (set_tm v w) = f w) -> pres f runEpoch.
Proof. intros H1 H2. unfold runEpoch, timer_running, timer_start. pres_tac; auto. Qed.

Definition received (rd : option Msg) w : option Msg := fst (tp_readMessage rd w).
Lemma prologue_fst rd w : fst (prologue rd w) = received rd w.
Proof. unfold prologue. rewrite bind_emit. unfold bind, ret. cbn [fst snd]. apply read_out_indep. Qed.
Lemma takeMessage_state r w : snd (takeMessage r w) = match r with Some m => set_out (ORx m :: w_out w) (set_rxv true (set_rx m w)) | None => set_rxv false w end.
Proof. destruct r; reflexivity. Qed.
Lemma prologue_out rd w : w_out (snd (prologue rd w)) = (match received rd w with Some m => [ORx m] | None => [] end) ++ OProcess :: w_out w.
Proof.
  unfold prologue. rewrite bind_emit. set (w1 := set_out _ w). unfold bind at 1. rewrite (read_out_indep rd _ w : fst (tp_readMessage rd w1) = _).
  unfold bind, ret. cbn [fst snd]. rewrite (epoch_pres w_out), (logger_pres w_out) by reflexivity. rewrite takeMessage_state.
  fold (received rd w). assert (HO : w_out (snd (tp_readMessage rd w1)) = OProcess :: w_out w) by (rewrite (read_pres w_out); reflexivity).
  destruct (received rd w); wsimp; rewrite HO; reflexivity.
Qed.
Lemma prologue_rx rd w m : received rd w = Some m -> w_rx (snd (prologue rd w)) = m /\ w_rxv (snd (prologue rd w)) = true.
Proof.
  intros H. unfold prologue. rewrite bind_emit. set (w1 := set_out _ w). unfold bind at 1 5. rewrite (read_out_indep rd _ w : fst (tp_readMessage rd w1) = _).
  unfold bind, ret. cbn [fst snd].
  rewrite (epoch_pres w_rx), (logger_pres w_rx), (epoch_pres w_rxv), (logger_pres w_rxv) by reflexivity. rewrite takeMessage_state.
  fold (received rd w). rewrite H. split; reflexivity.
Qed.
Lemma prologue_norx rd w : received rd w = None -> w_rx (snd (prologue rd w)) = w_rx w /\ w_rxv (snd (prologue rd w)) = false.
Proof.
  intros H. unfold prologue. rewrite bind_emit. set (w1 := set_out _ w). unfold bind at 1 5. rewrite (read_out_indep rd _ w : fst (tp_readMessage rd w1) = _).
  unfold bind, ret. cbn [fst snd].
  rewrite (epoch_pres w_rx), (logger_pres w_rx), (epoch_pres w_rxv), (logger_pres w_rxv) by reflexivity. rewrite takeMessage_state.
  fold (received rd w). rewrite H. wsimp. rewrite (read_pres w_rx) by reflexivity. split; reflexivity.
Qed.
Lemma received_noloop rd w : c_loop cfg = false -> received rd w = rd.
Proof. intros H. unfold received, tp_readMessage. rewrite H. reflexivity. Qed.
(* the timers: only the one second timer is touched *)
Lemma prologue_tm rd w : w_tm (snd (prologue rd w)) = w_tm w \/
  (w_tEp w <> TIMER_ID_INVALID /\ timerRunning (w_tm w) (w_tEp w) = false /\ w_tm (snd (prologue rd w)) = timerStart (w_tm w) (w_tEp w) 1000).
Proof.
  set (w1 := set_out (OProcess :: w_out w) w).
  set (w3 := snd (runLogger (snd (takeMessage (fst (tp_readMessage rd w1)) (snd (tp_readMessage rd w1)))))).
  assert (HP : w_tm (snd (prologue rd w)) = w_tm (snd (runEpoch w3))) by reflexivity. rewrite HP.
  assert (H1 : w_tm w3 = w_tm w) by (unfold w3; rewrite (logger_pres w_tm), takeMessage_state by reflexivity;
    destruct (fst (tp_readMessage rd w1)); wsimp; rewrite (read_pres w_tm) by reflexivity; reflexivity).
  assert (H2 : w_tEp w3 = w_tEp w) by (unfold w3; rewrite (logger_pres w_tEp), takeMessage_state by reflexivity;
    destruct (fst (tp_readMessage rd w1)); wsimp; rewrite (read_pres w_tEp) by reflexivity; reflexivity).
  clearbody w3. unfold runEpoch, timer_running, timer_start. rewrite bind_get, bind_get. rewrite H1, H2.
  destruct (w_tEp w =? TIMER_ID_INVALID) eqn:X; cbn [negb andb]; [left; exact H1|].
  destruct (timerRunning (w_tm w) (w_tEp w)) eqn:Y; cbn [negb andb]; [left; exact H1|].
  right. unfold bind, upd. cbn [fst snd]. wsimp. rewrite H1. split; [lia|]. split; reflexivity.
Qed.
Lemma epilogue_state r a w : epilogue r a w =
  (match r with Some _ => true | None => a end,
   set_out (ORet (match r with Some _ => true | None => a end) :: w_out w) (set_rxv false w)).
Proof. reflexivity. Qed.
Lemma process_state rd w :
  let w1 := snd (prologue rd w) in let w2 := snd (dispatch w1) in let b := match received rd w with Some _ => true | None => fst (dispatch w1) end in
  process rd w = (b, set_out (ORet b :: w_out w2) (set_rxv false w2)).
Proof. cbv zeta. rewrite process_eq. unfold bind. rewrite epilogue_state, prologue_fst. reflexivity. Qed.
End P.
