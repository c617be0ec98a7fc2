(* Proof_Protect.v - writes to protected registers happen only while the protection is off *)
From Verif Require Export Spec_Protect Own Proof_Heartbeat Proof_Restore.

Section P.
Context {A : Type} {E : Env A}.
Implicit Types w : World A.

Definition open (ps : N -> N) : Prop := N.testbit (ps (ps_ctrl cfg)) 5 = true.
Definition guard (ps : N -> N) (o : Obs) : Prop := match o with OAppWrite _ _ _ => open ps | OPs a _ => ps_dm cfg <= a -> open ps | _ => True end.
Fixpoint guarded (ps : N -> N) (l : list Obs) : Prop := match l with [] => True | o :: r => guard ps o /\ guarded (memAfter ps [o]) r end.
Lemma mem_app l1 : forall ps l2, memAfter ps (l1 ++ l2) = memAfter (memAfter ps l1) l2.
Proof. induction l1 as [|o l1 IH]; intros ps l2; [reflexivity|]. cbn [app memAfter]. destruct o; apply IH. Qed.
Lemma mem_ext l : forall ps ps', (forall x, ps x = ps' x) -> forall x, memAfter ps l x = memAfter ps' l x.
Proof. induction l as [|o l IH]; intros ps ps' H x; [apply H|]. cbn [memAfter]. destruct o; apply IH; auto. intros y. destruct (y =? a); auto. Qed.
Lemma guarded_app l1 : forall ps l2, guarded ps (l1 ++ l2) <-> guarded ps l1 /\ guarded (memAfter ps l1) l2.
Proof. induction l1 as [|o l1 IH]; intros ps l2; cbn [app guarded]; [tauto|]. rewrite IH, <- mem_app. tauto. Qed.
Lemma guarded_ext l : forall ps ps', (forall x, ps x = ps' x) -> guarded ps l -> guarded ps' l.
Proof.
  induction l as [|o l IH]; intros ps ps' H G; [exact I|]. destruct G as [G1 G2]. split.
  - unfold guard, open in *. rewrite <- H. exact G1.
  - apply (IH (memAfter ps [o])); [apply mem_ext; exact H|exact G2].
Qed.
(* the row index of the paged matrix is protected as well *)
Definition RG w w' : Prop := exists l, w_out w' = rev l ++ w_out w /\ (forall x, w_ps w' x = memAfter (w_ps w) l x) /\ guarded (w_ps w) l /\
  (w_dmIdx w' <> w_dmIdx w -> exists l1 l2, l = l1 ++ l2 /\ open (memAfter (w_ps w) l1)).
Lemma RG_refl w : RG w w. Proof. exists []. repeat split; try reflexivity. congruence. Qed.
Lemma open_ext ps ps' : (forall x, ps x = ps' x) -> open ps -> open ps'. Proof. unfold open. intros ->. auto. Qed.
Lemma RG_trans (a b c : World A) : RG a b -> RG b c -> RG a c.
Proof.
  intros (l1 & O1 & P1 & G1 & D1) (l2 & O2 & P2 & G2 & D2). exists (l1 ++ l2). rewrite O2, O1, rev_app_distr, app_assoc. split; [reflexivity|].
  split; [intros x; rewrite P2, mem_app; apply mem_ext; exact P1|]. split; [apply guarded_app; split; [exact G1|apply (guarded_ext l2 (w_ps b)); assumption]|].
  intros D. destruct (N.eq_dec (w_dmIdx b) (w_dmIdx a)) as [Q|Q].
  - destruct (D2 ltac:(congruence)) as (k1 & k2 & -> & OP). exists (l1 ++ k1), k2. split; [rewrite app_assoc; reflexivity|]. rewrite mem_app. apply (open_ext (memAfter (w_ps b) k1)); [|exact OP]. apply mem_ext. exact P1.
  - destruct (D1 Q) as (k1 & k2 & -> & OP). exists k1, (k2 ++ l2). split; [rewrite app_assoc; reflexivity|exact OP].
Qed.
Lemma RG_same w w' : w_out w' = w_out w -> w_ps w' = w_ps w -> w_dmIdx w' = w_dmIdx w -> RG w w'.
Proof. intros H1 H2 H3. exists []. split; [exact H1|]. split; [intros x; rewrite H2; reflexivity|]. split; [exact I|congruence]. Qed.
Lemma RG_emit o : (match o with OAppWrite _ _ _ | OPs _ _ => false | _ => true end) = true -> rel RG (@emit A o).
Proof. intros H w. exists [o]. split; [reflexivity|]. destruct o; try discriminate H; (split; [intros x; reflexivity|]; split; [split; exact I|intros D; exfalso; apply D; reflexivity]). Qed.
Lemma RG_ps a v : a < ps_dm cfg -> rel RG (psWrite8 a v).
Proof.
  intros H w. exists [OPs a (u8 v)]. split; [reflexivity|]. split; [intros x; reflexivity|]. split; [split; [cbn; lia|exact I]|]. intros D. exfalso. apply D. reflexivity.
Qed.
Lemma RG_tx m : rel RG (tp_writeMessage m).
Proof.
  intros w. destruct (tx_any m w) as (o & O & HO & (K & _)). exists [o]. split; [exact HO|]. unfold visible in K.
  assert (w_ps (snd (tp_writeMessage m w)) = w_ps w /\ w_dmIdx (snd (tp_writeMessage m w)) = w_dmIdx w) as [K1 K2] by (injection K; intros; split; assumption).
  split; [intros x; rewrite K1; destruct O as [->|[ok ->]]; reflexivity|]. split; [destruct O as [->|[ok ->]]; split; exact I|congruence].
Qed.
(* while the protection is off *)
Definition RW w w' : Prop := open (w_ps w) -> RG w w' /\ open (w_ps w').
Lemma RW_refl w : RW w w. Proof. intros H. split; [apply RG_refl|exact H]. Qed.
Lemma RW_trans (a b c : World A) : RW a b -> RW b c -> RW a c.
Proof. intros H1 H2 O. destruct (H1 O) as [G1 O1]. destruct (H2 O1) as [G2 O2]. split; [exact (RG_trans _ _ _ G1 G2)|exact O2]. Qed.
Lemma RW_ps a v : a <> ps_ctrl cfg -> rel RW (psWrite8 a v).
Proof.
  intros NE w OP. assert (Q : open (w_ps (snd (psWrite8 a v w)))).
  { unfold open in *. unfold psWrite8, emit, bind, upd. cbn [snd]. wsimp. unfold fupd. destruct (N.eqb_spec (ps_ctrl cfg) a); [congruence|exact OP]. }
  split; [|exact Q]. exists [OPs a (u8 v)]. split; [reflexivity|]. split; [intros x; reflexivity|]. split; [split; [intros _; exact OP|exact I]|]. intros D. exfalso. apply D. reflexivity.
Qed.
Lemma RW_idx a s i v : ps_ctrl cfg < a -> rel RW (psWriteIdx a s i v).
Proof. intros H. unfold psWriteIdx. apply rel_if; [apply RW_ps; lia|apply rel_ret; exact RW_refl]. Qed.
Lemma RW_mul l : forall a, ps_ctrl cfg < a -> rel RW (psWriteMultiple a l).
Proof. induction l as [|v l IH]; intros a H; cbn [psWriteMultiple]; [apply rel_ret; exact RW_refl|]. apply rel_bind; [exact RW_trans|apply RW_ps; lia|intros _; apply IH; lia]. Qed.
Ltac ps_hi := unfold ps_next, ps_ng, ps_dmx, ps_dm, ps_log, ps_type, ps_fam, ps_mdf, ps_msub, ps_mdev, ps_sub, ps_zone, ps_guid, ps_user, sz_ctrl; lia.
Lemma RW_restores : rel RW (@dd_restore A E) /\ rel RW (@dm_restore A E) /\ rel RW (@ng_restore A E) /\ (forall i v, rel RW (@ps_writeUserId A E i v)).
Proof.
  assert (Rrefl := RW_refl). assert (Rtrans := RW_trans). assert (X1 := RW_ps). assert (X2 := RW_idx). assert (X3 := RW_mul).
  unfold dd_restore, dm_restore, ng_restore, ps_writeDMMultiple, ps_writeDMExtMultiple, ps_writeNG, ps_writeGUID, ps_writeZone, ps_writeSub, ps_writeMDev, ps_writeMSub, ps_writeMdf, ps_writeFam, ps_writeType, ps_writeUserId.
  assert (NE : forall a, ps_ctrl cfg < a -> a <> ps_ctrl cfg) by (intros; lia).
  repeat match goal with |- _ /\ _ => split end; rel_tac; first [apply X2; ps_hi | apply X3; ps_hi | apply X1; apply NE; ps_hi].
Qed.
Ltac ps_lo := unfold ps_dm, ps_log, ps_type, ps_fam, ps_mdf, ps_msub, ps_mdev, ps_sub, ps_zone, ps_guid, ps_user, ps_ctrl, ps_crc, sz_ctrl, sz_nick; lia.
Lemma RG_low : (rel RG (writeNicknameId NICK_NOT_INIT)) /\ (forall v, rel RG (@ps_writeCRC A E v)).
Proof.
  assert (Rrefl := RG_refl). assert (Rtrans := RG_trans). assert (X1 := RG_ps). split.
  - unfold writeNicknameId, ps_writeNicknameId, ps_readNicknameId, psRead8. rel_tac; first [apply RG_same; reflexivity | apply X1; ps_lo].
  - intros v. apply X1. destruct (ps_lowWrites cfg) as (_ & (_ & H) & _). exact H.
Qed.
Lemma RG_restore : rel RG (@restoreFactory A E).
Proof.
  assert (Rrefl := RG_refl). assert (Rtrans := RG_trans). destruct RW_restores as (Z1 & Z2 & Z3 & Z4). destruct RG_low as (N1 & N2).
  unfold restoreFactory.
  do 8 (apply rel_bind; [exact RG_trans|first [exact N1 | apply rel_if; [apply N2|apply rel_ret; exact RG_refl] | apply rel_upd; intros; apply RG_same; reflexivity]|intros _]).
  intros w. rewrite snd_bind. apply (RG_trans _ (snd (ps_writeCtrl NODE_CONTROL_FLAGS_DEFAULT w))); [apply RG_ps; apply (ps_lowWrites cfg)|].
  assert (OP : open (w_ps (snd (ps_writeCtrl NODE_CONTROL_FLAGS_DEFAULT w)))).
  { unfold open, ps_writeCtrl, psWrite8, emit, bind, upd. cbn [snd]. wsimp. unfold fupd. rewrite N.eqb_refl. reflexivity. }
  generalize dependent (snd (ps_writeCtrl NODE_CONTROL_FLAGS_DEFAULT w)). intros u OP. clear w.
  match goal with |- RG u (snd (?m u)) => enough (Q : rel RW m) by (apply (Q u OP)) end.
  assert (RWrefl := RW_refl). assert (RWtrans := RW_trans).
  assert (UR : forall f : World A -> World A, (forall w, w_out (f w) = w_out w /\ w_ps (f w) = w_ps w /\ w_dmIdx (f w) = w_dmIdx w) -> rel RW (upd f)).
  { intros f H v O. destruct (H v) as (H1 & H2 & H3). split; [apply RG_same; assumption|]. change (snd (upd f v)) with (f v). rewrite H2. exact O. }
  assert (XE : rel RW (@emit A OAppRestore)) by (intros v O; split; [apply RG_emit; reflexivity|exact O]).
  rel_tac.
Qed.
Lemma open_land f : N.land (N.shiftr f 5) 1 <> 0 -> N.testbit f 5 = true.
Proof.
  intros H. change 1 with (N.ones 1) in H. rewrite N.land_ones, N.shiftr_div_pow2 in H.
  rewrite N.testbit_eqb. change (2 ^ 1) with 2 in H. apply N.eqb_eq. lia.
Qed.
Lemma RG_all : (forall rd, rel RG (@process A E rd)) /\ (forall c, rel RG (@doApi A E c)).
Proof.
  assert (s_restore := RG_restore). destruct RG_low as (_ & s_crc).
  assert (s_app0 : (forall c, rel RG (@doApi A E c)) -> forall p a v w, open (w_ps w) -> RG w (snd (appWrite p a v w))).
  { intros HA p a v w OP. unfold appWrite. rewrite snd_bind. apply (RG_trans _ (snd (emit (OAppWrite p a v) w))).
    - exists [OAppWrite p a v]. split; [reflexivity|]. split; [intros x; reflexivity|]. split; [split; [exact OP|exact I]|]. intros D. exfalso. apply D. reflexivity.
    - generalize (snd (emit (OAppWrite p a v) w)). match goal with |- forall u, RG u (snd (?m u)) => change (rel RG m) end.
      assert (Rrefl := RG_refl). assert (Rtrans := RG_trans). rel_tac. }
  assert (s_dm0 : forall p a v, rel RW (@dm_writeRegister A E p a v)).
  { assert (RWrefl := RW_refl). assert (RWtrans := RW_trans). intros. unfold dm_writeRegister, dm_writePaged, dm_writeStd, ps_writeDM, ps_readDM, psReadIdx, psRead8.
    assert (UD : forall x, rel RW (upd (set_dmIdx x))).
    { intros x w OP. split; [|exact OP]. exists []. split; [reflexivity|]. split; [intros y; reflexivity|]. split; [exact I|]. intros _. exists [], []. split; [reflexivity|exact OP]. }
    assert (X2 := RW_idx). rel_tac. all: try (apply X2; ps_hi). all: try (intros u OP; split; [apply RG_same; reflexivity|exact OP]). }
  assert (s_ng0 : forall p a v, rel RW (@ng_writeRegister A E p a v)).
  { assert (RWrefl := RW_refl). assert (RWtrans := RW_trans). intros. unfold ng_writeRegister, ps_writeNG, ps_readNG, psReadIdx, psRead8. assert (X2 := RW_idx). rel_tac. all: try (apply X2; ps_hi). }
  assert (s_wr0 : (forall c, rel RG (@doApi A E c)) -> (forall a v, rel RG (@writeVscpRegister A E a v)) -> forall p a v, rel RG (writeRegister p a v)).
  { intros HA HV p a v. unfold writeRegister. apply rel_if; [apply HV|]. intros w. unfold getRegAppWriteProtect, ps_readCtrl, psRead8. rewrite bind_assoc, bind_get, bind_ret.
    destruct (N.eqb_spec (N.land (N.shiftr (w_ps w (ps_ctrl cfg)) 5) 1) 0) as [Q|Q]; cbn [negb]; [apply RG_refl|]. apply open_land in Q. fold (open (w_ps w)) in Q.
    rewrite snd_bind. cbn [ret snd]. destruct (_ && _); [apply s_dm0; exact Q|]. destruct (_ && _); [apply s_ng0; exact Q|]. apply s_app0; assumption. }
  assert (s_wl : c_logger cfg = true -> forall v, rel RG (@ps_writeLogId A E v)) by (intros HL v; apply RG_ps; unfold ps_dm, sz_log; rewrite HL; cbn [b2n]; lia).
  assert (s_wz : d_zone_ps cfg = true -> forall v, rel RG (@ps_writeZone A E v)) by (intros HL v; apply RG_ps; unfold ps_dm, ps_log, ps_type, ps_fam, ps_mdf, ps_msub, ps_mdev, ps_sub, sz_zone; rewrite HL; cbn [b2n]; lia).
  assert (s_ws : d_sub_ps cfg = true -> forall v, rel RG (@ps_writeSub A E v)) by (intros HL v; apply RG_ps; unfold ps_dm, ps_log, ps_type, ps_fam, ps_mdf, ps_msub, ps_mdev, sz_sub; rewrite HL; cbn [b2n]; lia).
  assert (s_tx := RG_tx).
  assert (X_e : forall o, (match o with OAppWrite _ _ _ | OPs _ _ => false | _ => true end) = true -> rel RG (@emit A o)) by exact RG_emit.
  assert (s_psW : forall a v, a <> ps_nick cfg -> a < ps_dm cfg -> rel RG (psWrite8 a v)) by (intros a v _ L; apply RG_ps; exact L).
  assert (s_psN : forall v, rel RG (psWrite8 (ps_nick cfg) v)) by (intros v; apply RG_ps; ps_lo).
  clear s_app0 s_dm0 s_ng0.
  assert (S : forall w w', w_out w' = w_out w -> w_ps w' = w_ps w -> w_dmIdx w' = w_dmIdx w -> RG w w') by exact RG_same.
  assert (s_logl : forall f n i l e d, rel RG (@log_loop A E f n i l e d)).
  { assert (Rrefl := RG_refl). assert (Rtrans := RG_trans). induction f as [|f IH]; intros; cbn [log_loop]; rel_tac. }
  set (R := RG) in *. assert (Rrefl : forall w, R w w) by exact RG_refl. assert (Rtrans : forall a b c, R a b -> R b c -> R a c) by exact RG_trans.
  clearbody R.
  Ltac lfp S X_e := intros; try (unfold setUB, setNgUB, timer_start, timer_stop); first [apply X_e; reflexivity | apply X_e; match goal with H : plainObs ?o = true |- _ => destruct o; try reflexivity; try discriminate H end | apply rel_upd; intros; apply S; reflexivity | apply S; reflexivity].
  assert (s_ub : rel R setUB) by (lfp S X_e). assert (s_ngub : rel R setNgUB) by (lfp S X_e). assert (s_app : forall v w, R w (set_app v w)) by (lfp S X_e).
  assert (s_emit : forall o, plainObs o = true -> rel R (@emit A o)) by (lfp S X_e).
  assert (s_nick : forall v, rel R (writeNicknameId v)) by (intros; apply tr_writeNicknameId; tr_fill ltac:(lfp S X_e)).
  assert (s_api : forall c, rel R (doApi c)).
  { intros c. destruct c; unfold doApi; (apply rel_bind; [exact Rtrans|apply X_e; reflexivity|intros _]).
    all: unfold setAlarm, setTimeSinceEpoch, enableHeartbeat, log_enable, log_setLevel, tp_getTransmitErrors, startNodeSegmentInit, changeToStateInit, log_log, log_sendLogEvent.
    10: destruct (c_logger cfg) eqn:HL; [apply s_wl; reflexivity|apply rel_ret, Rrefl].
    10: destruct (d_zone_ps cfg) eqn:HL; [apply s_wz; reflexivity|apply rel_ret, Rrefl].
    10: destruct (d_sub_ps cfg) eqn:HL; [apply s_ws; reflexivity|apply rel_ret, Rrefl].
    all: rel_tac; lfp S X_e. }
  assert (s_chb : rel R customHeartbeat) by (unfold customHeartbeat; rel_tac; lfp S X_e).
  assert (s_gz : rel R dd_getZone) by (apply tr_getZone; tr_fill ltac:(lfp S X_e)). assert (s_gs : rel R dd_getSubZone) by (apply tr_getSub; tr_fill ltac:(lfp S X_e)).
  assert (s_ah : rel R activeHeartbeat) by (unfold activeHeartbeat, timer_running, sendNodeHeartbeat; rel_tac; lfp S X_e).
  assert (s_std : forall cls ty prio nick d, stdFrame cls ty prio = true -> cls <> CLASS_INFORMATION -> rel R (tp_writeMessage (mkTx cls ty prio nick d))) by (intros; apply s_tx).
  assert (s_page : forall v w, R w (set_page v w)) by (lfp S X_e).
  assert (s_162 : forall v, rel R (writeVscpRegister REG_RESTORE v)).
  { intros v. unfold writeVscpRegister. match goal with |- rel R ?x => change (rel R (id <- get w_t162 ;; running <- timer_running id ;;
      (if (v =? 85) && negb running then timer_start id (c_t_multi cfg) else when (v =? 170) && running do (timer_stop id ;; restoreFactory)) ;; ret (0, false))) end. unfold timer_running. rel_tac; lfp S X_e. }
  assert (s_wv : forall a v, rel R (writeVscpRegister a v)) by (intros a v; apply ts_writeVscpRegister; tr_fill ltac:(lfp S X_e)).
  assert (s_wr : forall p a v, rel R (writeRegister p a v)) by (apply s_wr0; assumption). clear s_wr0.
  tr_own R ltac:(lfp S X_e). tr_ownTop R ltac:(lfp S X_e). tr_ownProcess R ltac:(lfp S X_e).
  split; assumption.
Qed.
(* a whole history *)
Definition RM w w' : Prop := exists l, w_out w' = rev l ++ w_out w /\ (forall x, w_ps w' x = memAfter (w_ps w) l x) /\ guarded (w_ps w) l.
Lemma RG_RM w w' : RG w w' -> RM w w'. Proof. intros (l & O & P & G & _). exists l. auto. Qed.
Lemma RM_init : rel RM (@core_init A E).
Proof.
  assert (s_restore : rel RM (@restoreFactory A E)) by (intros w; apply RG_RM, RG_restore).
  assert (S : forall w w', w_out w' = w_out w -> w_ps w' = w_ps w -> RM w w').
  { intros w w' H1 H2. exists []. split; [exact H1|]. split; [intros x; rewrite H2; reflexivity|exact I]. }
  assert (X_e : forall o, (match o with OAppWrite _ _ _ | OPs _ _ => false | _ => true end) = true -> rel RM (@emit A o)) by (intros o H w; apply RG_RM, RG_emit, H).
  assert (Rrefl : forall w, RM w w) by (intros w; apply RG_RM, RG_refl).
  assert (Rtrans : forall a b c, RM a b -> RM b c -> RM a c).
  { intros a b c (l1 & O1 & P1 & G1) (l2 & O2 & P2 & G2). exists (l1 ++ l2). rewrite O2, O1, rev_app_distr, app_assoc. split; [reflexivity|].
    split; [intros x; rewrite P2, mem_app; apply mem_ext; exact P1|]. apply guarded_app. split; [exact G1|apply (guarded_ext l2 (w_ps b)); assumption]. }
  set (R := RM) in *. clearbody R.
  Ltac lfm S X_e := intros; try (unfold setUB, setNgUB, timer_start, timer_stop); first [apply X_e; reflexivity | apply rel_upd; intros; apply S; reflexivity | apply S; reflexivity].
  apply tr_core_init; tr_fill ltac:(lfm S X_e). all: unfold tp_init, dm_init, ps_readNicknameId, psRead8, changeToStateError; rel_tac; lfm S X_e.
Qed.
Lemma RM_step o w : RM w (snd (step o w)).
Proof.
  destruct RG_all as [RP RA]. destruct o as [rd|p|c|].
  - apply RG_RM, RP.
  - exists [OTick p]. split; [reflexivity|]. split; [intros x; reflexivity|repeat split].
  - apply RG_RM, RA.
  - rewrite step_init. apply RM_init.
Qed.
Lemma history_guarded ps0 w : valid_env E -> reachableFrom ps0 w -> guarded ps0 (history w) /\ (forall x, w_ps w x = memAfter ps0 (history w) x).
Proof.
  intros VE (a & wr & es & H1 & H2 & ->).
  assert (MEM : forall v, Inv ps0 v -> forall x, w_ps v x = memAfter ps0 (history v) x).
  { intros v IV x. unfold history. rewrite <- replay_memAfter, rev_involutive. apply (i_replay ps0 v IV). }
  assert (MEMr : forall v : World A, (forall x, w_ps v x = replay ps0 (w_out v) x) -> forall x, w_ps v x = memAfter ps0 (history v) x).
  { intros v H x. unfold history. rewrite <- replay_memAfter, rev_involutive. apply H. }
  assert (ST : forall v v', (forall x, w_ps v x = memAfter ps0 (history v) x) -> RM v v' -> guarded ps0 (history v) -> guarded ps0 (history v')).
  { intros v v' MV (l & O & _ & G) GV. unfold history in *. rewrite O, rev_app_distr, rev_involutive. apply guarded_app. split; [exact GV|]. apply (guarded_ext l (w_ps v)); assumption. }
  assert (Q : forall v, Forall event_wf es -> Inv ps0 v -> guarded ps0 (history v) -> Inv ps0 (run es v) /\ guarded ps0 (history (run es v))).
  { clear H2. induction es as [|e es IH]; intros v WF IV GV; [auto|]. inversion WF; subst. cbn [run fold_left]. apply IH; [assumption|apply inv_stepE; assumption|].
    destruct e as [o|o k b].
    - apply (ST v); [apply MEM, IV|apply RM_step|exact GV].
    - destruct (crash_boot ps0 VE o k b v H2 IV) as (ps & out & ub & ngub & HP & (d & d' & O1 & O2) & ->).
      apply (ST (boot ps b (w_wr (snd (step o v))) (OPower :: out) ub ngub)); [apply MEMr, (j_replay ps0 _ HP)|apply RM_init|].
      assert (GS : guarded ps0 (history (snd (step o v)))) by (apply (ST v); [apply MEM, IV|apply RM_step|exact GV]).
      unfold history in *. rewrite O2, rev_app_distr in GS. apply guarded_app in GS. cbn [boot w_out rev]. apply guarded_app. split; [apply GS|repeat split]. }
  assert (IP := inv_powerUp ps0 VE a wr H1). destruct (Q (powerUp ps0 a wr)) as [I1 G1]; [exact H2|exact IP| |split; [exact G1|apply MEM, I1]].
  unfold powerUp. apply (ST (boot ps0 a wr [] false false)); [intros x; reflexivity|apply RM_init|exact I].
Qed.
Lemma guarded_at ps l1 x l2 : guarded ps (l1 ++ x :: l2) -> guard (memAfter ps l1) x.
Proof. intros H. apply guarded_app in H. destruct H as [_ [H _]]. exact H. Qed.
Lemma logic_high f i : logicField f -> ps_dm cfg <= fieldBase cfg f + i.
Proof. intros [<-|[<-|[<-|[]]]]; cbn [fieldBase]; unfold ps_ng, ps_dmx; lia. Qed.
End P.
