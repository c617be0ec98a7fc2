(* Proof_Bound.v - bound of the number of frames of a call *)
From Verif Require Export Spec_Bound Own Proof_Heartbeat Proof_Epoch.

Section B.
Context {A : Type} {E : Env A}.
Implicit Types w : World A.

Lemma frames_app2 l1 l2 : frames (l1 ++ l2) = frames l1 ++ frames l2. Proof. apply frames_app. Qed.
Lemma sent_app l1 l2 : sent (l1 ++ l2) = sent l1 + sent l2. Proof. unfold sent. rewrite frames_app, app_length. lia. Qed.
Lemma allow_app l1 : forall l2, allowances (l1 ++ l2) = allowances l1 + allowances l2.
Proof. induction l1 as [|o l1 IH]; intros l2; [reflexivity|]. cbn [app allowances]. destruct o; rewrite ?IH; lia. Qed.
Definition RC (k : N) w w' : Prop := exists l, w_out w' = l ++ w_out w /\ sent l <= k + allowances l.
Lemma RC_comp i j (a b c : World A) : RC i a b -> RC j b c -> RC (i + j) a c.
Proof. intros (l1 & O1 & H1) (l2 & O2 & H2). exists (l2 ++ l1). split; [rewrite O2, O1, app_assoc; reflexivity|]. rewrite sent_app, allow_app. lia. Qed.
Lemma RC_weak i j w w' : i <= j -> RC i w w' -> RC j w w'.
Proof. intros H (l & O & K). exists l. split; [exact O|lia]. Qed.
Lemma RC_refl w : RC 0 w w. Proof. exists []. split; [reflexivity|]. cbn. lia. Qed.
Lemma RC_trans (a b c : World A) : RC 0 a b -> RC 0 b c -> RC 0 a c. Proof. exact (RC_comp 0 0 a b c). Qed.
Lemma c_bind {T U} i j k (m : M A T) (f : T -> M A U) : i + j <= k -> rel (RC i) m -> (forall x, rel (RC j) (f x)) -> rel (RC k) (bind m f).
Proof. intros L H1 H2 w. rewrite snd_bind. apply (RC_weak (i + j)); [exact L|]. exact (RC_comp _ _ _ _ _ (H1 w) (H2 _ _)). Qed.
Lemma c_0 {T} k (m : M A T) : rel (RC 0) m -> rel (RC k) m. Proof. intros H w. apply (RC_weak 0); [lia|apply H]. Qed.
Lemma c_weak {T} i k (m : M A T) : i <= k -> rel (RC i) m -> rel (RC k) m. Proof. intros L H w. apply (RC_weak i); [lia|apply H]. Qed.
Lemma c_tx m : rel (RC 1) (tp_writeMessage m).
Proof. intros w. destruct (tx_any m w) as (o & OO & HO & _). exists [o]. split; [exact HO|]. destruct OO as [->|[ok ->]]; cbn; lia. Qed.
Lemma c_if {T} k (b : bool) (m1 m2 : M A T) : rel (RC k) m1 -> rel (RC k) m2 -> rel (RC k) (if b then m1 else m2). Proof. destruct b; auto. Qed.
Lemma c_sp ty prio d : rel (RC 1) (sendProt ty prio d).
Proof. unfold sendProt. apply (c_bind 0 1); [lia|apply rel_get, RC_refl|intros; apply c_tx]. Qed.
Lemma c_log f : forall n i l e d, (length d <= f)%nat -> rel (RC (N.max 1 ((N.of_nat (length d) + 4) / 5))) (log_loop f n i l e d).
Proof.
  induction f as [|f IH]; intros n i l e d L; cbn [log_loop].
  - apply (c_bind 1 0); [lia|apply c_tx|intros; apply rel_ret, RC_refl].
  - destruct (5 <? N.of_nat (length d)) eqn:LD.
    + apply (c_bind 1 ((N.of_nat (length d) - 5 + 4) / 5)); [lia|apply c_tx|]. intros b. rewrite andb_true_r. apply c_if; [|apply c_0, rel_ret, RC_refl].
      eapply c_weak; [|apply IH; rewrite skipn_length; lia]. rewrite skipn_length. lia.
    + apply (c_bind 1 0); [lia|apply c_tx|]. intros b. rewrite andb_false_r. apply rel_ret, RC_refl.
Qed.
Lemma c_api c : rel (RC 0) (doApi c).
Proof.
  intros w. unfold doApi. rewrite bind_emit.
  assert (G : forall (m : M A unit) v, rel (RC (allowance c)) m -> w_out v = OApi c :: w_out w -> RC 0 w (snd (m v))).
  { intros m v H O. destruct (H v) as (l & O1 & K). exists (l ++ [OApi c]). split; [rewrite O1, O, <- app_assoc; reflexivity|]. rewrite sent_app, allow_app. cbn [sent allowances frames length]. unfold sent at 2. cbn. lia. }
  apply G; [|reflexivity]. clear G.
  assert (Rrefl := RC_refl). assert (Rtrans := RC_trans).
  assert (S : forall w w', w_out w' = w_out w -> RC 0 w w') by (intros v v' H; exists []; split; [exact H|cbn; lia]).
  assert (X_e : forall o, match o with OTx _ _ => false | _ => true end = true -> rel (RC 0) (@emit A o)).
  { intros o H v. exists [o]. split; [reflexivity|]. destruct o; try discriminate H; cbn; lia. }
  assert (PW : forall a v, rel (RC 0) (psWrite8 a v)) by (intros; unfold psWrite8; rel_tac; first [apply X_e; reflexivity|apply S; reflexivity]).
  destruct c; cbn [allowance].
  - apply (c_bind 1 0); [lia|apply c_tx|intros; apply rel_ret; assumption].
  - apply rel_upd. intros. apply S. reflexivity.
  - apply rel_upd. intros. apply S. reflexivity.
  - unfold enableHeartbeat. rel_tac; apply S; reflexivity.
  - unfold startNodeSegmentInit, changeToStateInit. rel_tac; first [apply X_e; reflexivity | unfold timer_start, timer_stop; apply rel_upd; intros; apply S; reflexivity | apply S; reflexivity].
  - apply tr_restoreFactory; auto; try (intros; apply X_e; match goal with H : plainObs ?o = true |- _ => destruct o; try reflexivity; discriminate H end).
    intros v. apply tr_writeNicknameId; auto.
  - unfold log_enable. rel_tac; apply S; reflexivity.
  - unfold log_setLevel. rel_tac; apply S; reflexivity.
  - apply c_if; [|apply c_0, rel_ret; assumption]. unfold log_log, log_sendLogEvent. set (D := map u8 (firstn 255 data)).
    assert (LD : N.of_nat (length D) = N.min 255 (N.of_nat (length data))) by (unfold D; rewrite map_length, firstn_length; lia). rewrite <- LD. clearbody D.
    eapply c_bind with (i := 0); [|apply rel_get; assumption|intros ?]; [apply N.le_refl|]. eapply c_bind with (i := 0); [|apply rel_get; assumption|intros ?]; [apply N.le_refl|].
    apply c_if; [|apply c_0, rel_ret; assumption]. eapply c_bind with (j := 0); [|eapply c_bind with (i := 0); [|apply rel_get; assumption|intros n; apply c_log; lia]|intros; apply rel_ret; assumption].
    + rewrite N.add_0_r. apply N.le_refl. + lia.
  - pose proof (tr_writeLog (RC 0)). rel_tac; apply H; auto.
  - pose proof (tr_writeZone (RC 0)). rel_tac; apply H; auto.
  - pose proof (tr_writeSub (RC 0)). rel_tac; apply H; auto.
  - unfold tp_getTransmitErrors. rel_tac; first [apply X_e; reflexivity|apply S; reflexivity].
Qed.

(* the parts that send nothing by themselves *)
Lemma c_parts : (forall p a, rel (RC 0) (readRegister p a)) /\ (forall p a v, rel (RC 0) (writeRegister p a v)) /\ (forall m, rel (RC 0) (dm_executeActions actionExecute m)) /\
  (forall m, rel (RC 0) (ng_executeActions actionExecute m)) /\ (forall m, rel (RC 0) (provideEvent m)) /\ (forall m, rel (RC 0) (provideProtocolEvent m)) /\ rel (RC 0) (customHeartbeat) /\
  rel (RC 0) (handleHeartbeat) /\ rel (RC 0) (handleGuidDrop) /\ rel (RC 0) (handleDropNickname) /\ rel (RC 0) (changeToStateIdle) /\ (forall t, rel (RC 0) (changeToStateReset t)) /\
  (forall b, rel (RC 0) (changeToStateInit b)) /\ (forall v, rel (RC 0) (writeNicknameId v)) /\ rel (RC 0) (getStartUpControl) /\ rel (RC 0) (stateReset) /\ (forall rd, rel (RC 0) (prologue rd)) /\
  (forall i, rel (RC 0) (dd_getGUID i)) /\ (forall i, rel (RC 0) (dd_getMdf i)) /\ rel (RC 0) (dd_getZone) /\ rel (RC 0) (dd_getSubZone) /\ (c_boot cfg = true -> forall v, rel (RC 0) (ps_writeBootFlag v)) /\
  (forall d v, rel (RC 0) (push d v)).
Proof.
  assert (X_e : forall o, match o with OTx _ _ => false | _ => true end = true -> rel (RC 0) (@emit A o)).
  { intros o H v. exists [o]. split; [reflexivity|]. destruct o; try discriminate H; cbn; lia. }
  assert (s_api := c_api). set (R := RC 0) in *. assert (Rrefl : forall w, R w w) by exact RC_refl. assert (Rtrans : forall a b c, R a b -> R b c -> R a c) by exact RC_trans.
  assert (S : forall w w', w_out w' = w_out w -> R w w') by (intros v v' H; exists []; split; [exact H|cbn; lia]). clearbody R.
  Ltac lf2 S X_e := intros; try (unfold setUB, setNgUB, timer_start, timer_stop); first [apply X_e; reflexivity | apply X_e; match goal with H : plainObs ?o = true |- _ => destruct o; try reflexivity; try discriminate H end | apply rel_upd; intros; apply S; reflexivity | apply S; reflexivity].
  assert (s_psW : forall a v, a <> ps_nick cfg -> rel R (psWrite8 a v)) by (intros; unfold psWrite8; rel_tac; lf2 S X_e). assert (s_psN : forall v, rel R (psWrite8 (ps_nick cfg) v)) by (intros; unfold psWrite8; rel_tac; lf2 S X_e).
  assert (s_emit : forall o, plainObs o = true -> rel R (@emit A o)) by (lf2 S X_e).
  assert (s_ub : rel R setUB) by (lf2 S X_e). assert (s_ngub : rel R setNgUB) by (lf2 S X_e). assert (s_app : forall v w, R w (set_app v w)) by (lf2 S X_e).
  assert (s_ts : forall i v, rel R (timer_start i v)) by (lf2 S X_e). assert (s_tp : forall i, rel R (timer_stop i)) by (lf2 S X_e).
  assert (s_nick : forall v, rel R (writeNicknameId v)) by (intros; apply tr_writeNicknameId; tr_fill ltac:(lf2 S X_e)).
  assert (s_init : forall b, rel R (changeToStateInit b)) by (intros; apply tr_toInit; tr_fill ltac:(lf2 S X_e)).
  assert (s_idle : rel R changeToStateIdle) by (apply tr_toIdle; tr_fill ltac:(lf2 S X_e)).
  assert (s_reset : forall t, rel R (changeToStateReset t)) by (intros; unfold changeToStateReset; rel_tac; lf2 S X_e).
  assert (s_restore : rel R restoreFactory) by (apply tr_restoreFactory; tr_fill ltac:(lf2 S X_e)).
  assert (s_page : forall v w, R w (set_page v w)) by (lf2 S X_e).
  assert (s_al : rel R (v <- get w_alarm ;; upd (set_alarm 0) ;; ret v)) by (rel_tac; lf2 S X_e).
  assert (s_wv : forall a v, rel R (writeVscpRegister a v)) by (intros; apply tr_writeVscpRegister; tr_fill ltac:(lf2 S X_e)).
  assert (s_dmw : forall p a v, rel R (dm_writeRegister p a v)) by (intros; apply tr_dm_writeRegister; tr_fill ltac:(lf2 S X_e)).
  assert (s_rr : forall p a, rel R (readRegister p a)) by (intros; apply tr_readRegister; tr_fill ltac:(lf2 S X_e)).
  assert (s_wr : forall p a v, rel R (writeRegister p a v)) by (intros; apply tr_writeRegister; tr_fill ltac:(lf2 S X_e)).
  assert (s_act : forall a p m, rel R (emit (OAction a p m))) by (lf2 S X_e).
  repeat match goal with |- _ /\ _ => split end; try assumption; intros.
  - apply tr_dm_executeActions; tr_fill ltac:(lf2 S X_e).
  - apply tr_ng_executeActions; tr_fill ltac:(lf2 S X_e).
  - apply tr_provideEvent; tr_fill ltac:(lf2 S X_e).
  - apply tr_provideProtocolEvent; tr_fill ltac:(lf2 S X_e).
  - unfold customHeartbeat; rel_tac; lf2 S X_e.
  - apply tr_handleHeartbeat; tr_fill ltac:(lf2 S X_e).
  - apply tr_handleGuidDrop; tr_fill ltac:(lf2 S X_e).
  - apply ts_handleDropNickname; tr_fill ltac:(lf2 S X_e).
  - unfold stateReset, timer_running; rel_tac; lf2 S X_e.
  - unfold prologue, tp_readMessage, takeMessage, runLogger, runEpoch, log_handleEvent, timer_running, loopWrite, ps_readLogId, psRead8; rel_tac; lf2 S X_e.
  - apply tr_getGUID; tr_fill ltac:(lf2 S X_e).
  - apply tr_getMdf; tr_fill ltac:(lf2 S X_e).
  - apply tr_getZone; tr_fill ltac:(lf2 S X_e).
  - apply tr_getSub; tr_fill ltac:(lf2 S X_e).
  - apply tr_writeBoot; tr_fill ltac:(lf2 S X_e).
  - apply tr_push; tr_fill ltac:(lf2 S X_e).
Qed.

Lemma c_push d v : (length d < 8)%nat -> @push A d v = ret (d ++ [v]).
Proof. intros H. unfold push, L1_DATA_SIZE. replace (N.of_nat (length d) <? 8) with true by lia. reflexivity. Qed.
Lemma rel_ext {T} k (m m' : M A T) : m = m' -> rel (RC k) m' -> rel (RC k) m. Proof. intros ->. auto. Qed.
Lemma bind_ret {T U} (x : T) (f : T -> M A U) : bind (ret x) f = f x. Proof. reflexivity. Qed.
Lemma c_pageReadLoop n : forall nick a d, (1 <= length d <= 7)%nat -> rel (RC ((N.of_nat n + N.of_nat (length d) - 1) / 7)) (pageReadLoop n nick a d).
Proof.
  destruct c_parts as (s_rr & _). induction n as [|n IH]; intros nick a d L; cbn [pageReadLoop]; [apply c_0, rel_ret, RC_refl|].
  eapply c_bind with (i := 0); [apply N.le_refl|apply rel_get, RC_refl|intros pg]. eapply c_bind with (i := 0); [apply N.le_refl|apply s_rr|intros v].
  rewrite c_push by lia. rewrite bind_ret. rewrite app_length. cbn [length]. unfold L1_DATA_SIZE. rewrite Nat2N.inj_add. destruct (8 <=? _) eqn:L8.
  - apply (c_bind 1 ((N.of_nat n + 1 - 1) / 7)); [lia|apply c_tx|intros b]. exact (IH nick (a + 1) [_] ltac:(cbn; lia)).
  - eapply c_weak; [|apply IH; rewrite app_length; cbn [length]; lia]. rewrite app_length. cbn [length]. lia.
Qed.
Lemma c_whoLoop l : (forall x, In x l -> rel (RC 0) x) -> forall nick r d, (1 <= length d <= 7)%nat -> rel (RC ((N.of_nat (length l) + N.of_nat (length d) - 1) / 7)) (whoLoop l nick r d).
Proof.
  induction l as [|x l IH]; intros HL nick r d L; cbn [whoLoop]; [apply c_0, rel_ret, RC_refl|]. assert (IH' := IH (fun y H => HL y (or_intror H))).
  eapply c_bind with (i := 0); [apply N.le_refl|apply HL; left; reflexivity|intros v].
  rewrite c_push by lia. rewrite bind_ret. rewrite app_length. cbn [length]. unfold L1_DATA_SIZE. rewrite Nat2N.inj_add. destruct (8 <=? _) eqn:L8.
  - apply (c_bind 1 ((N.of_nat (length l) + 1 - 1) / 7)); [lia|apply c_tx|intros b]. exact (IH' nick (u8 (r + 1)) [_] ltac:(cbn; lia)).
  - eapply c_weak; [|apply IH'; rewrite app_length; cbn [length]; lia]. rewrite app_length. cbn [length]. lia.
Qed.
Ltac c0 := first [solve [auto] | solve [rel_tac]].
Ltac cstep :=
  lazymatch goal with
  | |- rel _ (if _ then _ else _) => apply c_if
  | |- rel _ (bind _ _) => first [apply (c_bind 1 0); [lia|solve [auto]|intros ?; c0] | eapply c_bind with (i := 0); [apply N.le_refl|c0|intros ?]]
  | |- rel _ (match ?x with _ => _ end) => destruct x
  end.
Ltac ct := repeat (cbv beta zeta; first [solve [auto] | solve [apply c_0; c0] | cstep]).
Lemma c_handlers : forall w, bytes (m_data (w_rx w)) -> RC 37 w (snd (handleProtocolClassType w)).
Proof.
  destruct c_parts as (s_rr & s_wr & _ & _ & _ & _ & _ & s_hb & s_gd & s_dn & s_idle & _ & s_init & s_nick & _ & _ & _ & s_guid & s_mdf & _ & _ & s_boot & s_push).
  assert (Rrefl := RC_refl). assert (Rtrans := RC_trans). assert (s_tx := c_tx). assert (s_sp := c_sp).
  assert (S : forall w w', w_out w' = w_out w -> RC 0 w w') by (intros v v' H; exists []; split; [exact H|cbn; lia]).
  assert (X_b : rel (RC 0) (@emit A OBootRequest)) by (intros v; exists [OBootRequest]; split; [reflexivity|cbn; lia]).
  assert (s_loop : forall n p a i d, rel (RC 0) p -> rel (RC 0) (writeLoop n p a i d)) by (induction n; intros; cbn [writeLoop]; unfold rxdv; rel_tac; apply rel_upd; intros; apply S; reflexivity).
  assert (s_eloop : forall n p a c d, rel (RC 0) (extReadLoop n p a c d)) by (induction n; intros; cbn [extReadLoop]; rel_tac; apply rel_upd; intros; apply S; reflexivity).
  assert (s_g0 : forall T (g : World A -> T), rel (RC 0) (get g)) by (intros; apply rel_get; assumption).
  assert (s_r0 : forall T (x : T), rel (RC 0) (@ret A T x)) by (intros; apply rel_ret; assumption).
  assert (s_u : forall v, rel (RC 0) (@upd A (set_xpage v)) /\ rel (RC 0) (@upd A (set_xaddr v)) /\ rel (RC 0) (@upd A (set_xcount v)) /\ rel (RC 0) (@upd A (set_xseq v))) by (intros; repeat split; apply rel_upd; intros; apply S; reflexivity).
  assert (u1 := fun v => proj1 (s_u v)). assert (u2 := fun v => proj1 (proj2 (s_u v))). assert (u3 := fun v => proj1 (proj2 (proj2 (s_u v)))). assert (u4 := fun v => proj2 (proj2 (proj2 (s_u v)))). clear s_u.
  assert (X1 : rel (RC 1) handleNewNodeOnline) by (unfold handleNewNodeOnline, rxSize, rxForMe, rxd; ct).
  assert (X2 : rel (RC 1) handleProbeAck) by (unfold handleProbeAck, rxSize, rxForMe, rxd; ct).
  assert (X3 : rel (RC 1) handleSetNickname) by (unfold handleSetNickname, rxSize, rxForMe, rxd; ct).
  assert (X4 : rel (RC 1) handleReadRegister) by (unfold handleReadRegister, sendRWRsp, rxSize, rxForMe, rxd; ct).
  assert (X5 : rel (RC 1) handleWriteRegister) by (unfold handleWriteRegister, sendRWRsp, rxSize, rxForMe, rxd; ct).
  assert (X6 : rel (RC 1) handleEnterBootLoader) by (unfold handleEnterBootLoader, rxSize, rxForMe, rxd; destruct (c_boot cfg) eqn:B; ct).
  assert (X7 : forall d, rel (RC 1) (handleIncDec d)) by (intros; unfold handleIncDec, sendRWRsp, rxSize, rxForMe, rxd; ct).
  assert (X8 : rel (RC 1) handleGetMatrixInfo) by (unfold handleGetMatrixInfo, rxSize, rxForMe, rxd; ct).
  assert (X9 : rel (RC 1) handlePageWrite) by (unfold handlePageWrite, rxSize, rxForMe, rxd; ct).
  assert (X10 : rel (RC 1) handleExtPageWrite) by (unfold handleExtPageWrite, rxSize, rxForMe, rxd; ct).
  assert (X11 : rel (RC 1) extendedPageRead) by (unfold extendedPageRead; ct).
  assert (X12 : rel (RC 1) handleExtPageRead) by (unfold handleExtPageRead, rxSize, rxForMe, rxd; ct).
  assert (X13 : forall w, bytes (m_data (w_rx w)) -> RC 37 w (snd (handlePageRead w))).
  { intros w B. unfold handlePageRead, rxSize, rxForMe, rxd. rewrite !bind_get. match goal with |- context [if ?b then _ else _] => destruct b end; [|apply (RC_weak 0); [lia|apply RC_refl]].
    rewrite !bind_get. set (n := clampNum _ _). assert (NB : n <= 255). { unfold n, clampNum. assert (at0 (m_data (w_rx w)) 2 < 256) by (apply (at0_byte (fun _ => 0)); exact B). destruct (_ <? _); lia. } clearbody n.
    rewrite snd_bind. apply (RC_comp 36 1 _ (snd (pageReadLoop (N.to_nat n) (w_nick w) (at0 (m_data (w_rx w)) 1) [0] w))).
    - refine (RC_weak _ _ _ _ _ (c_pageReadLoop (N.to_nat n) (w_nick w) _ [0] _ w)); cbn [length]; lia.
    - set (d := fst _). clearbody d. match goal with |- context [snd (pageReadLoop ?a ?b ?c ?e ?f)] => generalize (snd (pageReadLoop a b c e f)) end. intros u.
      match goal with |- RC 1 u (snd (?m u)) => enough (Q : rel (RC 1) m) by apply Q end. ct. }
  assert (X14 : rel (RC 7) handleWhoIsThere).
  { unfold handleWhoIsThere, rxSize, rxForMe, rxd. do 3 (eapply c_bind with (i := 0); [apply N.le_refl|c0|intros ?]). apply c_if; [|apply c_0; c0].
    eapply c_bind with (i := 0); [apply N.le_refl|c0|intros n]. apply (c_bind 6 1); [lia| |intros d; ct].
    eapply c_weak; [|apply c_whoLoop; [|cbn [length]; lia]]; [vm_compute; discriminate|]. intros zz HH. apply in_app_or in HH. destruct HH as [HH|HH]; apply in_map_iff in HH; destruct HH as (yy & <- & _); auto. }
  intros w B. unfold handleProtocolClassType. rewrite bind_get.
  assert (G : forall i (m : M A unit), i <= 37 -> rel (RC i) m -> RC 37 w (snd (m w))) by (intros i m L H; exact (c_weak i 37 m L H w)).
  repeat match goal with |- context [if ?b then _ else _] => destruct b end;
    first [exact (X13 w B) | solve [apply (G 0); [lia|c0]] | solve [apply (G 1); [lia|auto]] | solve [apply (G 7); [lia|auto]]].
Qed.
Lemma c_ext : rel (RC 1) extendedPageRead.
Proof.
  destruct c_parts as (s_rr & _ & _ & _ & _ & _ & _ & _ & _ & _ & _ & _ & _ & _ & _ & _ & _ & _ & _ & _ & _ & _ & s_push).
  assert (Rrefl := RC_refl). assert (Rtrans := RC_trans). assert (s_tx := c_tx).
  assert (S : forall w w', w_out w' = w_out w -> RC 0 w w') by (intros v v' H; exists []; split; [exact H|cbn; lia]).
  assert (s_eloop : forall n p a c d, rel (RC 0) (extReadLoop n p a c d)) by (induction n; intros; cbn [extReadLoop]; rel_tac; apply rel_upd; intros; apply S; reflexivity).
  unfold extendedPageRead; ct.
Qed.
Lemma c_active w : bytes (m_data (w_rx w)) -> RC 39 w (snd (stateActive w)).
Proof.
  intros B. destruct c_parts as (_ & _ & s_dm & s_ng & s_ev & s_pe & s_chb & _ & _ & _ & _ & _ & _ & _ & _ & _ & _ & _ & _ & s_z & s_sz & _).
  assert (Rrefl := RC_refl). assert (Rtrans := RC_trans). assert (s_tx := c_tx). assert (s_ext := c_ext).
  assert (S : forall w w', w_out w' = w_out w -> RC 0 w w') by (intros v v' H; exists []; split; [exact H|cbn; lia]).
  assert (H1 : RC 37 w (snd (activeMessage w))).
  { unfold activeMessage. rewrite bind_get. destruct (w_rxv w); [|apply (RC_weak 0); [lia|apply RC_refl]]. rewrite bind_get, snd_bind.
    set (h := if m_class (w_rx w) =? CLASS_PROTOCOL then _ else _).
    assert (H0 : RC 37 w (snd (h w))).
    { unfold h. destruct (m_class (w_rx w) =? CLASS_PROTOCOL); [|exact (c_weak 0 37 _ ltac:(lia) (s_ev (w_rx w)) w)]. destruct (c_prot_ev cfg); [|apply c_handlers; exact B].
      rewrite snd_bind. apply (RC_comp 0 37 _ (snd (provideProtocolEvent (w_rx w) w))); [apply s_pe|].
      assert (RX : w_rx (snd (provideProtocolEvent (w_rx w) w)) = w_rx w) by (destruct RE_parts as (_ & _ & _ & _ & _ & _ & _ & _ & _ & P10 & _); destruct (P10 (w_rx w) w) as (_ & _ & _ & X); exact X).
      set (b := fst (provideProtocolEvent (w_rx w) w)). clearbody b. destruct b; [apply (RC_weak 0); [lia|apply RC_refl]|]. apply c_handlers. rewrite RX. exact B. }
    apply (RC_comp 37 0 _ (snd (h w))); [exact H0|]. generalize (snd (h w)). intros u. match goal with |- RC 0 u (snd (?m u)) => enough (Q : rel (RC 0) m) by apply Q end. rel_tac. }
  unfold stateActive. rewrite snd_bind. apply (RC_comp 37 2 _ (snd (activeMessage w))); [exact H1|]. generalize (snd (activeMessage w)), (fst (activeMessage w)). intros u ha.
  assert (X_t : forall i v, rel (RC 0) (@timer_start A i v)) by (intros; apply rel_upd; intros; apply S; reflexivity).
  match goal with |- RC 2 u (snd (?m u)) => enough (Q : rel (RC 2) m) by apply Q end. apply (c_bind 1 1); [lia| |intros []; ct].
  assert (s_nhb : rel (RC 1) sendNodeHeartbeat) by (unfold sendNodeHeartbeat; ct). unfold activeHeartbeat, timer_running.
  apply c_if; [|apply c_0; c0]. do 3 (eapply c_bind with (i := 0); [apply N.le_refl|c0|intros ?]). apply c_if; [|apply c_0; c0].
  apply (c_bind 1 0); [lia| |intros; apply X_t]. ct.
Qed.
Lemma c_dispatch w : bytes (m_data (w_rx w)) -> RC 39 w (snd (dispatch w)).
Proof.
  intros B. destruct c_parts as (_ & _ & _ & _ & _ & _ & _ & _ & s_gd & _ & s_idle & s_reset & s_init & s_nick & s_su & s_sr & _).
  assert (Rrefl := RC_refl). assert (Rtrans := RC_trans). assert (s_tx := c_tx). assert (s_sp := c_sp).
  assert (S : forall w w', w_out w' = w_out w -> RC 0 w w') by (intros v v' H; exists []; split; [exact H|cbn; lia]).
  assert (X_t : forall i v, rel (RC 0) (@timer_start A i v)) by (intros; apply rel_upd; intros; apply S; reflexivity).
  assert (X_p : forall i, rel (RC 0) (@timer_stop A i)) by (intros; apply rel_upd; intros; apply S; reflexivity).
  assert (X_l : rel (RC 0) (@emit A (OLamp LampOn))) by (intros v; exists [OLamp LampOn]; split; [reflexivity|cbn; lia]).
  assert (U : forall f : World A -> World A, (forall w, w_out (f w) = w_out w) -> rel (RC 0) (upd f)) by (intros f H; apply rel_upd; intros; apply S, H).
  assert (u1 : forall v, rel (RC 0) (@upd A (set_st v))) by (intros; apply U; reflexivity). assert (u2 : forall v, rel (RC 0) (@upd A (set_ist v))) by (intros; apply U; reflexivity). assert (u3 : forall v, rel (RC 0) (@upd A (set_probe v))) by (intros; apply U; reflexivity).
  assert (s_act : rel (RC 1) changeToStateActive) by (unfold changeToStateActive; ct).
  assert (s_su1 : rel (RC 1) stateStartup) by (unfold stateStartup; ct).
  assert (s_si : rel (RC 1) stateInit).
  { unfold stateInit, timer_running, rxIsProt, changeToStatePreActive. do 2 (eapply c_bind with (i := 0); [apply N.le_refl|c0|intros ?]). destruct x; ct. }
  assert (s_pre : rel (RC 2) statePreActive).
  { unfold statePreActive, timer_running, rxIsProt, rxd. do 2 (eapply c_bind with (i := 0); [apply N.le_refl|c0|intros ?]). apply c_if; [apply c_0; c0|].
    do 4 (eapply c_bind with (i := 0); [apply N.le_refl|c0|intros ?]). apply c_if; [|apply c_0; c0]. do 2 (eapply c_bind with (i := 0); [apply N.le_refl|c0|intros ?]). apply (c_bind 1 1); [lia|auto|intros; auto]. }
  unfold dispatch. rewrite bind_get.
  assert (G : forall i T (m : M A T), i <= 39 -> rel (RC i) m -> RC 39 w (snd (m w))) by (intros i T m L H; exact (c_weak i 39 m L H w)).
  destruct (w_st w).
  - apply (G 1); [lia|]. apply (c_bind 1 0); [lia|auto|intros; c0].
  - apply (G 1); [lia|]. apply (c_bind 1 0); [lia|auto|intros; c0].
  - apply (G 2); [lia|]. apply (c_bind 2 0); [lia|auto|intros; c0].
  - apply c_active. exact B.
  - apply (G 0); [lia|c0].
  - apply (G 0); [lia|c0].
  - apply (G 0); [lia|c0].
Qed.
Lemma c_process rd w : bytes (m_data (w_rx (snd (prologue rd w)))) -> RC 39 w (snd (process rd w)).
Proof.
  intros B. destruct c_parts as (_ & _ & _ & _ & _ & _ & _ & _ & _ & _ & _ & _ & _ & _ & _ & _ & s_p & _). rewrite process_eq, snd_bind.
  apply (RC_comp 0 39 _ (snd (prologue rd w))); [apply s_p|]. generalize dependent (snd (prologue rd w)). intros u B. rewrite snd_bind. apply (RC_comp 39 0 _ (snd (dispatch u))); [apply c_dispatch; exact B|].
  generalize (snd (dispatch u)), (fst (dispatch u)). intros v b. exists [ORet (match fst (prologue rd w) with Some _ => true | None => b end)]. split; [reflexivity|cbn; lia].
Qed.
End B.
