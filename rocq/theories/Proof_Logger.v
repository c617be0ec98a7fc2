(* Proof_Logger.v - log messages, logger settings *)
From Verif Require Export Proof_Transport Spec_PS.

Section L.
Context {A : Type} {E : Env A}.
Implicit Type w : World A.

(* one transmission of a message with at most 8 bytes *)
Lemma tx_out m w : m_size m <= 8 -> exists ok, fst (tp_writeMessage m w) = ok /\ w_out (snd (tp_writeMessage m w)) = OTx m ok :: w_out w.
Proof.
  intros H. exists (hd true (w_wr w)).
  assert (GA : forall u : World A, fst (adapterWrite m u) = hd true (w_wr u) /\ w_out (snd (adapterWrite m u)) = OTx m (hd true (w_wr u)) :: w_out u).
  { intros u. split; reflexivity. }
  assert (GB : forall (q : M A bool) w, let r := bind q (fun status => (when negb status do upd (fun w => if w_txe w <? 255 then set_txe (w_txe w + 1) w else w)) ;; ret status) w in
     fst r = fst (q w) /\ w_out (snd r) = w_out (snd (q w))).
  { intros q u. cbv zeta. unfold bind, ret. cbn [fst snd]. split; [reflexivity|]. destruct (fst (q u)); cbn [negb]; [reflexivity|].
    unfold upd. cbn [fst snd]. destruct (_ <? 255); reflexivity. }
  unfold tp_writeMessage. match goal with |- fst (bind ?q _ _) = _ /\ _ => destruct (GB q w) as [G1 G2] end.
  rewrite G1, G2. clear G1 G2 GB. destruct (c_loop cfg); [|apply GA].
  replace (m_size m <=? L1_DATA_SIZE) with true by (unfold L1_DATA_SIZE; lia).
  set (u := snd ((when negb (m_class m =? CLASS_PROTOCOL) && negb (m_class m =? CLASS_LOG) do loopWrite m) w)).
  unfold bind at 1 2. fold u.
  assert (U : w_out u = w_out w /\ w_wr u = w_wr w).
  { unfold u. destruct (_ && _); [|auto]. unfold loopWrite, bind, get. cbn [fst snd]. destruct (cbWrite (w_loop w) [m]) as [[? ?]|]; auto. }
  destruct U as [U1 U2]. rewrite <- U1, <- U2. apply GA.
Qed.

Lemma chunk_eq l : log_chunk l = map (fun j => nth (N.to_nat j) l 0) [0; 1; 2; 3; 4].
Proof. unfold log_chunk. destruct l as [|a [|b [|c [|d [|e l]]]]]; reflexivity. Qed.
Lemma nth_skipn' {T} n (l : list T) i x : nth i (skipn n l) x = nth (n + i) l x.
Proof. revert l. induction n; intros l; [reflexivity|]. destruct l; [destruct i; reflexivity|]. apply IHn. Qed.
Lemma logFrame_is nick id lvl msg i : i < 256 ->
  isLogFrame nick id lvl msg i (mkTx CLASS_LOG LT_MESSAGE PRIO_3_NORMAL nick ([id; lvl; u8 i] ++ log_chunk (skipn (N.to_nat (5 * i)) msg))).
Proof.
  intros H. unfold isLogFrame, mkTx, payload. cbn [m_class m_type m_prio m_oaddr m_hard m_size m_data]. repeat (split; [reflexivity|]).
  rewrite (chunk_eq _). unfold logPayload. rewrite u8_small by exact H.
  replace (map (fun j => nth (N.to_nat j) (skipn (N.to_nat (5 * i)) msg) 0) [0; 1; 2; 3; 4]) with (map (fun j => nth (N.to_nat (5 * i + j)) msg 0) [0; 1; 2; 3; 4]).
  - reflexivity.
  - apply map_ext. intros j. rewrite nth_skipn'. f_equal. lia.
Qed.

(* the frames of a log message from index i on *)
Lemma log_loop_out fuel : forall i nick id lvl msg w, i < 256 -> 5 * N.of_nat (length msg) < 1276 -> (length msg <= 5 * N.to_nat i + 5 * S fuel)%nat ->
  (i = 0 \/ 5 * i < N.of_nat (length msg)) ->
  exists fr, w_out (snd (log_loop fuel nick id lvl i (skipn (N.to_nat (5 * i)) msg) w)) = rev (map (fun f => OTx (fst f) (snd f)) fr) ++ w_out w /\
    fr <> [] /\ N.of_nat (length fr) + i <= logFrames (N.of_nat (length msg)) /\
    (forall j m ok, nth_error fr j = Some (m, ok) -> isLogFrame nick id lvl msg (i + N.of_nat j) m /\
       (ok = true \/ S j = length fr) /\ (ok = true -> S j = length fr -> N.of_nat (length fr) + i = logFrames (N.of_nat (length msg)))).
Proof.
  induction fuel as [|f IH]; intros i nick id lvl msg w Hi Hl Hf Hn.
  all: set (m := mkTx CLASS_LOG LT_MESSAGE PRIO_3_NORMAL nick ([id; lvl; u8 i] ++ log_chunk (skipn (N.to_nat (5 * i)) msg))).
  all: assert (HF : isLogFrame nick id lvl msg i m) by (apply logFrame_is; exact Hi).
  all: assert (HS : m_size m <= 8) by (unfold m, mkTx; cbn [m_size]; rewrite chunk_eq; cbn; lia).
  all: destruct (tx_out m w HS) as (ok & K1 & K2).
  all: assert (LF : logFrames (N.of_nat (length msg)) = N.max 1 ((N.of_nat (length msg) + 4) / 5)) by reflexivity.
  all: cbn [log_loop]; fold m.
  - unfold bind, ret. cbn [fst snd]. exists [(m, ok)]. rewrite K2. split; [reflexivity|]. split; [discriminate|]. cbn [length]. split; [lia|].
    intros j m0 ok0 Hj. destruct j as [|j]; [|destruct j; discriminate Hj]. cbn in Hj. injection Hj as <- <-. rewrite N.add_0_r.
    split; [exact HF|]. split; [right; reflexivity|]. intros _ _. lia.
  - unfold bind, ret. rewrite K1. rewrite skipn_length.
    destruct (ok && (5 <? N.of_nat (length msg - N.to_nat (5 * i)))) eqn:Q.
    + apply andb_prop in Q. destruct Q as [-> Q].
      replace (skipn 5 (skipn (N.to_nat (5 * i)) msg)) with (skipn (N.to_nat (5 * (i + 1))) msg).
      2:{ replace (N.to_nat (5 * (i + 1))) with (5 + N.to_nat (5 * i))%nat by lia. generalize (N.to_nat (5 * i)) as n. clear. intros n. revert msg.
          induction n; intros msg; [reflexivity|]. destruct msg; [reflexivity|]. change (5 + S n)%nat with (S (5 + n)). cbn [skipn]. apply IHn. }
      destruct (IH (i + 1) nick id lvl msg (snd (tp_writeMessage m w)) ltac:(lia) Hl ltac:(lia) ltac:(lia)) as (fr & O & NE & LE & HFr).
      exists ((m, true) :: fr). split; [|split; [discriminate|]].
      * rewrite O, K2. cbn [map rev fst snd]. rewrite <- app_assoc. reflexivity.
      * split; [cbn [length]; lia|]. intros j m0 ok0 Hj. destruct j as [|j].
        -- cbn in Hj. injection Hj as <- <-. rewrite N.add_0_r. split; [exact HF|]. split; [left; reflexivity|].
           intros _ X. exfalso. destruct fr; [apply NE; reflexivity|discriminate X].
        -- cbn [nth_error] in Hj. destruct (HFr j m0 ok0 Hj) as (G1 & G2 & G3). split; [replace (i + N.of_nat (S j)) with (i + 1 + N.of_nat j) by lia; exact G1|].
           cbn [length]. split; [destruct G2; [left; assumption|right; lia]|]. intros X Y. specialize (G3 X ltac:(lia)). lia.
    + cbn [fst snd]. exists [(m, ok)]. rewrite K2. split; [reflexivity|]. split; [discriminate|]. cbn [length]. split; [lia|].
      intros j m0 ok0 Hj. destruct j as [|j]; [|destruct j; discriminate Hj]. cbn in Hj. injection Hj as <- <-. rewrite N.add_0_r.
      split; [exact HF|]. split; [right; reflexivity|]. intros -> _. cbn [andb] in Q. lia.
Qed.
Lemma frames_of_tx (fr : list (Msg * bool)) : frames (map (fun f => OTx (fst f) (snd f)) fr) = fr.
Proof. induction fr as [|[m b] fr IH]; [reflexivity|]. cbn [map frames flat_map fst snd app]. f_equal. exact IH. Qed.

(* a log call *)
Definition logCall (id lvl : N) (msg : list N) w : World A := snd (step (OpApi (ALog id lvl msg)) w).
Lemma map_u8_id l : bytes l -> map u8 l = l.
Proof. induction 1; [reflexivity|]. cbn [map]. f_equal; [apply u8_small; assumption|assumption]. Qed.
Lemma log_call id lvl msg w : c_logger cfg = true -> id < 256 -> lvl < 256 -> bytes msg -> (length msg <= 255)%nat ->
  let c := ALog id lvl msg in
  (w_logEn w && N.testbit (w_logLvl w) lvl = false -> effects w (logCall id lvl msg w) = [OApi c]) /\
  (w_logEn w && N.testbit (w_logLvl w) lvl = true -> exists fr,
     effects w (logCall id lvl msg w) = OApi c :: map (fun f => OTx (fst f) (snd f)) fr /\
     fr <> [] /\ N.of_nat (length fr) <= logFrames (N.of_nat (length msg)) /\
     forall j m ok, nth_error fr j = Some (m, ok) -> isLogFrame (readNicknameId w) id lvl msg (N.of_nat j) m /\
       (ok = true \/ S j = length fr) /\ (ok = true -> S j = length fr -> N.of_nat (length fr) = logFrames (N.of_nat (length msg)))).
Proof.
  intros HL Hid Hlv Hm Hlen. cbv zeta. unfold logCall. cbn [step].
  set (w1 := set_out (OApi (ALog id lvl msg) :: w_out w) w).
  assert (HD : snd (doApi (ALog id lvl msg) w) = snd (log_log id lvl msg w1)).
  { unfold doApi. rewrite bind_emit. fold w1. rewrite HL, !u8_small by assumption. rewrite firstn_all2 by lia. rewrite map_u8_id by assumption. reflexivity. }
  rewrite HD. unfold log_log. rewrite !bind_get. change (w_logEn w1) with (w_logEn w). change (w_logLvl w1) with (w_logLvl w). unfold bitset.
  split; intros Q; rewrite Q.
  - apply (effects_app w _ [OApi (ALog id lvl msg)]). reflexivity.
  - rewrite snd_then. unfold log_sendLogEvent. rewrite bind_get. change (w_nick w1) with (w_nick w).
    destruct (log_loop_out (length msg) 0 (w_nick w) id lvl msg w1 ltac:(lia) ltac:(lia) ltac:(lia) ltac:(left; reflexivity)) as (fr & O & NE & LE & HF).
    rewrite N.mul_0_r in O. cbn [N.to_nat skipn] in O. exists fr. split.
    + rewrite (effects_app w _ (rev (map (fun f => OTx (fst f) (snd f)) fr) ++ [OApi (ALog id lvl msg)])).
      * rewrite rev_app_distr, rev_involutive. reflexivity.
      * rewrite O. unfold w1. wsimp. rewrite <- app_assoc. reflexivity.
    + split; [exact NE|]. split; [lia|]. intros j m ok Hj. destruct (HF j m ok Hj) as (G1 & G2 & G3). rewrite N.add_0_l in G1.
      split; [exact G1|]. split; [exact G2|]. intros X Y. specialize (G3 X Y). lia.
Qed.
Lemma reassemble id lvl msg : let n := N.of_nat (length msg) in
  flat_map (fun i => skipn 3 (logPayload id lvl msg i)) (Nseq (logFrames n)) = msg ++ repeat 0 (N.to_nat (5 * logFrames n - n)).
Proof.
  cbv zeta. set (n := N.of_nat (length msg)).
  assert (G : forall k, flat_map (fun i => skipn 3 (logPayload id lvl msg i)) (map N.of_nat (seq 0 k)) = map (fun i => nth i msg 0) (seq 0 (5 * k))).
  { induction k; [reflexivity|]. rewrite seq_S, map_app, flat_map_app, IHk. replace (5 * S k)%nat with (5 * k + 5)%nat by lia.
    rewrite seq_app, map_app. f_equal. cbn [map flat_map app Nat.add]. unfold logPayload. cbn [skipn app map].
    cbn [seq map]. repeat (f_equal; try lia). }
  unfold Nseq. rewrite G. apply nth_ext with (d := 0) (d' := 0).
  - rewrite map_length, seq_length, app_length, repeat_length. unfold logFrames. lia.
  - intros i Hi. rewrite map_length, seq_length in Hi. rewrite nth_indep with (d' := nth 0 msg 0) by (rewrite map_length, seq_length; exact Hi).
    rewrite map_nth with (d := 0%nat), seq_nth by exact Hi. cbn [Nat.add].
    destruct (Nat.lt_ge_cases i (length msg)) as [L|L].
    + rewrite app_nth1 by exact L. reflexivity.
    + rewrite app_nth2 by exact L. rewrite nth_repeat. apply nth_overflow. exact L.
Qed.

(* ---- settings ---- *)
Definition setR w w' : Prop := exists d, w_out w' = d ++ w_out w /\ taken (rev d) = [] /\
  forall id, settings w' = fold_left (logObs id) (rev d) (settings w).
Lemma setR_refl w : setR w w. Proof. exists []. repeat split; reflexivity. Qed.
Lemma setR_trans a b c : setR a b -> setR b c -> setR a c.
Proof.
  intros (d1 & H1 & T1 & K1) (d2 & H2 & T2 & K2). exists (d2 ++ d1). split; [rewrite H2, H1, app_assoc; reflexivity|].
  split; [rewrite rev_app_distr, taken_app, T1, T2; reflexivity|].
  intros id. rewrite rev_app_distr, fold_left_app. rewrite <- (K1 id). apply K2.
Qed.
Lemma setR_same w w' : w_out w' = w_out w -> settings w' = settings w -> setR w w'.
Proof. intros H1 H2. exists []. repeat split; [exact H1|]. intros id. exact H2. Qed.
Lemma setR_emit o : taken [o] = [] -> (forall id s, logObs id s o = s) -> rel setR (emit o).
Proof. intros H K w. exists [o]. split; [reflexivity|]. split; [exact H|]. intros id. cbn [rev app fold_left]. rewrite K. reflexivity. Qed.
Lemma setR_leaves : c_logger cfg = true -> (forall c, rel setR (doApi c)) /\ rel setR dispatch /\ rel setR runEpoch /\ rel setR core_init.
Proof.
  intros HL. pose (R := setR). assert (Rrefl : forall w, R w w) by exact setR_refl. assert (Rtrans : forall a b c, R a b -> R b c -> R a c) by exact setR_trans.
  assert (S : forall w w', w_out w' = w_out w -> w_logEn w' = w_logEn w -> w_logLvl w' = w_logLvl w -> R w w').
  { intros w w' H1 H2 H3. apply setR_same; [exact H1|]. unfold settings. rewrite H2, H3. reflexivity. }
  assert (X_e : forall o, (match o with ORx _ | OApi (ALogEnable _) | OApi (ALogLevel _) => False | _ => True end) -> rel R (emit o)).
  { intros o Ho. apply setR_emit; [destruct o; try reflexivity; contradiction Ho|].
    intros id s. destruct o; try reflexivity; try contradiction Ho. destruct c; try reflexivity; contradiction Ho. }
  assert (X_emit : forall o, plainObs o = true -> rel R (emit o)) by (intros o Ho; apply X_e; destruct o; try exact Logic.I; discriminate Ho).
  assert (X_psW : forall a v, rel R (psWrite8 a v)).
  { intros a v. unfold psWrite8. apply rel_bind; [assumption|apply rel_upd; intros; apply S; reflexivity|intros _; apply X_e; exact Logic.I]. }
  assert (X_en : forall b w, R w (snd (doApi (ALogEnable b) w))).
  { intros b w. exists [OApi (ALogEnable b)]. unfold doApi. rewrite HL. split; [reflexivity|]. split; [reflexivity|]. intros id. reflexivity. }
  assert (X_lv : forall l w, R w (snd (doApi (ALogLevel l) w))).
  { intros l w. exists [OApi (ALogLevel l)]. unfold doApi. rewrite HL. split; [reflexivity|]. split; [reflexivity|]. intros id. reflexivity. }
  change ((forall c, rel R (doApi c)) /\ rel R dispatch /\ rel R runEpoch /\ rel R core_init). clearbody R.
  assert (X_tx : forall m, rel R (tp_writeMessage m)).
  { intros m. unfold tp_writeMessage, adapterWrite, loopWrite, setUB. rel_tac; try (apply S; reflexivity); try (apply X_e; exact Logic.I).
    destruct (w_txe _ <? 255); apply S; reflexivity. }
  assert (X_nick : forall v, rel R (writeNicknameId v)) by (intros v; apply tr_writeNicknameId; auto; intros; apply S; reflexivity).
  assert (X_init : forall b, rel R (changeToStateInit b)) by (intros b; apply tr_toInit; try assumption; intros; first [apply X_e; exact Logic.I | apply S; reflexivity]).
  assert (X_restore : rel R restoreFactory) by (apply tr_restoreFactory; auto; intros; apply S; reflexivity).
  assert (X_ap : forall c, rel R (doApi c)).
  { intros c. destruct c; try exact (X_en b); try exact (X_lv l).
    all: unfold doApi; apply rel_bind; [assumption|apply X_e; exact Logic.I|intros _].
    - rel_tac.
    - unfold setAlarm. rel_tac; apply S; reflexivity.
    - unfold setTimeSinceEpoch. rel_tac; apply S; reflexivity.
    - unfold enableHeartbeat. rel_tac; apply S; reflexivity.
    - unfold startNodeSegmentInit. rel_tac.
    - exact X_restore.
    - apply rel_if; [|rel_tac]. apply tr_log_log; assumption.
    - unfold ps_writeLogId. rel_tac.
    - unfold ps_writeZone. rel_tac.
    - unfold ps_writeSub. rel_tac.
    - unfold tp_getTransmitErrors. rel_tac; first [apply S; reflexivity | apply X_e; exact Logic.I]. }
  tr_mid R ltac:(tr_leaf ltac:(first [apply X_e; exact Logic.I | apply S; reflexivity | intros ?; apply S; reflexivity])).
  tr_coreinit R ltac:(tr_leaf ltac:(first [apply X_e; exact Logic.I | apply S; reflexivity | intros ?; apply S; reflexivity])).
  split; [assumption|]. split; [assumption|]. split; [|assumption].
  unfold runEpoch, timer_running, timer_start. rel_tac; apply S; reflexivity.
Qed.
(* the logger's reaction to the message in the receive buffer *)
Lemma runLogger_state w : c_logger cfg = true -> w_out (snd (runLogger w)) = w_out w /\
  settings (snd (runLogger w)) = logEvent (w_ps w (ps_log cfg)) (w_rx w) (settings w).
Proof.
  intros HL. unfold runLogger. rewrite HL. rewrite bind_get. unfold log_handleEvent, ps_readLogId, psRead8, logEvent.
  change CLASS_LOG with 509. change LT_START with 2. change LT_STOP with 3. change LT_LEVEL with 4.
  destruct (m_class (w_rx w) =? 509); cbn [andb]; [|split; reflexivity].
  destruct (m_type (w_rx w) =? 2); [destruct (m_size (w_rx w) =? 1); [|split; reflexivity]; unfold bind, get; cbn [fst snd]; unfold at0; cbn [N.to_nat];
    destruct (w_ps w (ps_log cfg) =? _); split; reflexivity|].
  destruct (m_type (w_rx w) =? 3); [destruct (m_size (w_rx w) =? 1); [|split; reflexivity]; unfold bind, get; cbn [fst snd]; unfold at0; cbn [N.to_nat];
    destruct (w_ps w (ps_log cfg) =? _); split; reflexivity|].
  destruct (m_type (w_rx w) =? 4); destruct (m_size (w_rx w) =? 1); split; reflexivity.
Qed.
Lemma stored_log w : stored w FLog 0 = w_ps w (ps_log cfg). Proof. reflexivity. Qed.
(* one process call; m is the message in the receive buffer while the logger runs *)
Lemma process_settings rd w : c_logger cfg = true ->
  let w' := snd (step (OpProcess rd) w) in
  let m := match received rd w with Some m => m | None => w_rx w end in
  exists d, effects w w' = OProcess :: map ORx (optList (received rd w)) ++ d ++ [ORet (fst (process rd w))] /\ taken d = [] /\ forall id, settings w' = fold_left (logObs id) d (logEvent (stored w FLog 0) m (settings w)).
Proof.
  intros HL. cbv zeta. destruct (setR_leaves HL) as (_ & PD & PE & _). cbn [step]. rewrite stored_log.
  set (w1 := set_out (OProcess :: w_out w) w). set (w2 := snd (tp_readMessage rd w1)).
  assert (R1 : fst (tp_readMessage rd w1) = received rd w) by apply read_out_indep.
  assert (O2 : w_out w2 = OProcess :: w_out w) by (unfold w2; rewrite (read_pres w_out); reflexivity).
  assert (P2 : w_ps w2 = w_ps w) by (unfold w2; rewrite (read_pres w_ps); reflexivity).
  assert (X2 : w_rx w2 = w_rx w) by (unfold w2; rewrite (read_pres w_rx); reflexivity).
  assert (S2 : settings w2 = settings w) by (unfold w2, settings; rewrite (read_pres w_logEn), (read_pres w_logLvl) by reflexivity; reflexivity).
  set (w3 := snd (takeMessage (received rd w) w2)).
  assert (O3 : w_out w3 = map ORx (optList (received rd w)) ++ OProcess :: w_out w).
  { unfold w3. rewrite takeMessage_state. destruct (received rd w); cbn [optList map app]; wsimp; rewrite O2; reflexivity. }
  assert (X3 : w_rx w3 = match received rd w with Some m => m | None => w_rx w end).
  { unfold w3. rewrite takeMessage_state. destruct (received rd w); wsimp; [reflexivity|exact X2]. }
  assert (P3 : w_ps w3 = w_ps w) by (unfold w3; rewrite takeMessage_state; destruct (received rd w); exact P2).
  assert (S3 : settings w3 = settings w) by (unfold w3; rewrite takeMessage_state; destruct (received rd w); exact S2).
  destruct (runLogger_state w3 HL) as [O4 S4]. rewrite P3, X3, S3 in S4. set (w4 := snd (runLogger w3)) in *.
  assert (RR : setR w4 (snd (dispatch (snd (prologue rd w))))).
  { replace (snd (prologue rd w)) with (snd (runEpoch w4)); [eapply setR_trans; [apply PE|apply PD]|].
    unfold prologue. rewrite bind_emit. fold w1. unfold bind, ret. cbn [fst snd]. fold w2. unfold w4, w3. rewrite R1. reflexivity. }
  destruct RR as (d & O5 & T5 & K5). set (w5 := snd (dispatch (snd (prologue rd w)))) in *.
  assert (PS := process_state rd w). cbv zeta in PS. fold w5 in PS. set (b := match received rd w with Some _ => true | None => _ end) in PS.
  clearbody b. rewrite PS. cbn [fst]. assert (SW : snd ((process rd ;; ret tt) w) = set_out (ORet b :: w_out w5) (set_rxv false w5)) by (unfold bind, ret; cbn [fst snd]; rewrite PS; reflexivity).
  rewrite SW. clear PS SW. exists (rev d). split; [|split; [exact T5|]].
  - rewrite (effects_app w _ (ORet b :: d ++ map ORx (optList (received rd w)) ++ [OProcess])).
    + cbn [rev]. rewrite rev_app_distr, rev_app_distr. cbn [rev app]. destruct (received rd w); cbn [optList map rev app]; rewrite <- ?app_assoc; reflexivity.
    + wsimp. rewrite O5, O4, O3. cbn [app]. rewrite <- !app_assoc. reflexivity.
  - intros id. rewrite <- S4. apply K5.
Qed.

(* the receive buffer holds the last received message *)
Definition lastP w : Prop := match lastRx (w_out w) with Some m => w_rx w = m | None => m_class (w_rx w) = 0 end.
Definition lastR w w' : Prop := lastP w -> lastP w'.
Lemma last_leaves : (forall rd, rel lastR (process rd)) /\ (forall c, rel lastR (doApi c)) /\ rel lastR restoreFactory /\ rel lastR changeToStateError /\
  (forall p, rel lastR (emit (OTick p))).
Proof.
  pose (R := lastR).
  assert (Rrefl : forall w, R w w) by (intros v H; exact H).
  assert (Rtrans : forall a b c, R a b -> R b c -> R a c) by (unfold R, lastR; auto).
  assert (S : forall w w', w_out w' = w_out w -> w_rx w' = w_rx w -> R w w') by (intros v v' H1 H2 H; unfold lastP; rewrite H1, H2; exact H).
  assert (X_e : forall o, (match o with ORx _ | OInit | OPower => False | _ => True end) -> rel R (emit o)).
  { intros o Ho w H. unfold lastP, emit, upd. cbn [snd]. wsimp. destruct o; try contradiction Ho; exact H. }
  assert (X_emit : forall o, plainObs o = true -> rel R (emit o)) by (intros o Ho; apply X_e; destruct o; try exact Logic.I; discriminate Ho).
  assert (X_psW : forall a v, rel R (psWrite8 a v)).
  { intros a v. unfold psWrite8. apply rel_bind; [assumption|apply rel_upd; intros; apply S; reflexivity|intros _; apply X_e; exact Logic.I]. }
  assert (X_take : forall m, rel R (upd (set_rx m) ;; upd (set_rxv true) ;; emit (ORx m))) by (intros m w _; unfold lastP; reflexivity).
  change ((forall rd, rel R (process rd)) /\ (forall c, rel R (doApi c)) /\ rel R restoreFactory /\ rel R changeToStateError /\ (forall p, rel R (emit (OTick p)))).
  clearbody R.
  tr_all R ltac:(tr_leaf ltac:(first [apply X_e; exact Logic.I | apply S; reflexivity | intros ?; apply S; reflexivity])).
  split; [assumption|]. split; [assumption|]. split; [assumption|]. split; [assumption|]. intros p. apply X_e. exact Logic.I.
Qed.
Lemma last_init w : lastP (snd (core_init w)).
Proof.
  rewrite core_init_eq. destruct last_leaves as (_ & _ & PR & PE & _).
  assert (HT : pres w_out (@initTimers A E) /\ pres w_rx (@initTimers A E)) by (split; unfold initTimers, createTimer, timer_start; pres_tac; reflexivity).
  assert (HE : forall b, rel lastR (@initTail A E b)).
  { intros b. unfold initTail, getStartUpControl, ps_readCtrl, psRead8.
    assert (Rtrans : forall a b c : World A, lastR a b -> lastR b c -> lastR a c) by (unfold lastR; auto).
    assert (Rrefl : forall w : World A, lastR w w) by (unfold lastR; auto). rel_tac. }
  apply HE. unfold lastP. destruct HT as [T1 T2]. rewrite (T1 _), (T2 _).
  unfold initHead, tp_init, dm_init, ps_readNicknameId, psRead8, emit, bind, upd, get. cbn [fst snd]. wsimp.
  destruct (c_loop cfg), (c_dm cfg), (c_dm_paged cfg); reflexivity.
Qed.
Lemma reach_last w : reachable w -> lastP w.
Proof.
  destruct last_leaves as (PP & PA & _ & _ & PT). apply reach_trace.
  - intros. reflexivity.
  - intros o v _ H. destruct o as [rd|p|c|].
    + cbn [step]. rewrite snd_then. apply PP. exact H.
    + cbn [step]. unfold bind. pose proof (PT p v H) as K. exact K.
    + apply PA. exact H.
    + rewrite step_init. apply last_init.
  - intros. reflexivity.
Qed.
(* settings of the logger after any operation *)
Lemma step_settings o w : c_logger cfg = true -> reachable w ->
  (forall rd, o = OpProcess rd -> received rd w = None -> forall m, lastRx (w_out w) = Some m -> m_class m <> 509) ->
  settings (snd (step o w)) = fold_left (logObs (stored w FLog 0)) (effects w (snd (step o w))) (settings w).
Proof.
  intros HL HR HO. destruct (setR_leaves HL) as (PA & _ & _ & PC). destruct o as [rd|p|c|].
  - destruct (process_settings rd w HL) as (d & EF & _ & K). rewrite EF, (K (stored w FLog 0)).
    cbn [fold_left logObs]. rewrite !fold_left_app. cbn [fold_left logObs]. f_equal.
    destruct (received rd w) as [m|] eqn:Q; cbn [optList map fold_left logObs]; [reflexivity|].
    pose proof (reach_last w HR) as HP. unfold lastP in HP. specialize (HO rd eq_refl Q).
    unfold logEvent. destruct (lastRx (w_out w)) as [m|]; [specialize (HO m eq_refl); rewrite <- HP in HO|].
    + replace (m_class (w_rx w) =? 509) with false by lia. reflexivity.
    + rewrite HP. reflexivity.
  - cbn [step]. set (w' := snd _). assert (EF : effects w w' = [OTick p]) by (apply (effects_app w w' [OTick p]); reflexivity).
    rewrite EF. reflexivity.
  - cbn [step]. destruct (PA c w) as (d & O & _ & K). rewrite (effects_app _ _ d O). apply K.
  - rewrite step_init. destruct (PC w) as (d & O & _ & K). rewrite (effects_app _ _ d O). apply K.
Qed.
End L.
