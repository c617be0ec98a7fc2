(* Proof_Frames.v - class, type, priority and originating address of the frames of the framework *)
From Verif Require Export Spec_Frames Own Proof_Heartbeat.

Section F.
Context {A : Type} {E : Env A}.
Implicit Types w : World A.

Definition frRun (s : FrState) (l : list Obs) : FrState := fold_left frStep l s.
Lemma framesOk_app l1 : forall s l2, framesOk s (l1 ++ l2) <-> framesOk s l1 /\ framesOk (frRun s l1) l2.
Proof. induction l1 as [|o l1 IH]; intros s l2; cbn [app framesOk frRun fold_left]; [tauto|]. rewrite IH. unfold frRun. tauto. Qed.
Definition RF w w' : Prop := exists l, w_out w' = l ++ w_out w /\
  forall T, framesOk (w_nick w :: T, None) (rev l) /\ exists T', frRun (w_nick w :: T, None) (rev l) = (w_nick w' :: T', None) /\ incl (w_nick w :: T) (w_nick w' :: T').
Lemma RF_refl w : RF w w.
Proof. exists []. split; [reflexivity|]. intros T. split; [exact I|]. exists T. split; [reflexivity|apply incl_refl]. Qed.
Lemma RF_trans (a b c : World A) : RF a b -> RF b c -> RF a c.
Proof.
  intros (l1 & O1 & H1) (l2 & O2 & H2). exists (l2 ++ l1). split; [rewrite O2, O1, app_assoc; reflexivity|]. intros T.
  destruct (H1 T) as (K1 & T1 & X1 & I1). destruct (H2 T1) as (K2 & T2 & X2 & I2). rewrite rev_app_distr. split; [apply framesOk_app; rewrite X1; auto|].
  exists T2. unfold frRun in *. rewrite fold_left_app, X1. split; [exact X2|]. apply (incl_tran I1 I2).
Qed.
Definition still2 (o : Obs) : bool := match o with OTx _ _ | OPs _ _ | OApi (ASend _) => false | _ => true end.
Lemma RF_same w w' : w_out w' = w_out w -> w_nick w' = w_nick w -> RF w w'.
Proof. intros H1 H2. exists []. split; [exact H1|]. rewrite H2. intros T. split; [exact I|]. exists T. split; [reflexivity|apply incl_refl]. Qed.
Lemma RF_emit o : still2 o = true -> rel RF (@emit A o).
Proof.
  intros H w. exists [o]. split; [reflexivity|]. intros T. change (w_nick (snd (emit o w))) with (w_nick w).
  destruct o; try discriminate H; try (split; [repeat split|exists T; split; [reflexivity|apply incl_refl]]). destruct c; try discriminate H; (split; [repeat split|exists T; split; [reflexivity|apply incl_refl]]).
Qed.
Lemma RF_ps a v : a <> ps_nick cfg -> rel RF (psWrite8 a v).
Proof.
  intros H w. exists [OPs a (u8 v)]. split; [reflexivity|]. intros T. split; [repeat split|]. exists T. split; [|apply incl_refl]. cbn. replace (a =? ps_nick cfg) with false by lia. reflexivity.
Qed.
Lemma RF_nick v : rel RF (writeNicknameId v).
Proof.
  intros w. exists [OPs (ps_nick cfg) (u8 v)]. split; [reflexivity|]. intros T. split; [repeat split|]. exists (w_nick w :: T). split; [|apply incl_tl, incl_refl].
  unfold writeNicknameId, ps_writeNicknameId, ps_readNicknameId, psRead8, psWrite8, emit, bind, upd, get. cbn [fst snd]. wsimp. cbn [rev app frRun fold_left frStep fst]. rewrite N.eqb_refl. unfold fupd. rewrite N.eqb_refl. reflexivity.
Qed.
Lemma std_doc cls ty prio : stdFrame cls ty prio = true -> In (cls, ty, prio) documented.
Proof.
  unfold stdFrame, documented, CLASS_INFORMATION, IT_NODE_HEARTBEAT, CLASS_LOG, LT_MESSAGE. intros H.
  assert (X : (cls = 0 /\ ((ty = 2 /\ (prio = 0 \/ prio = 7)) \/ (ty = 3 /\ prio = 0) \/ (ty = 7 /\ prio = 7) \/ ((ty = 10 \/ ty = 14 \/ ty = 26 \/ ty = 32 \/ ty = 34) /\ prio = 3) \/ (ty = 39 /\ (prio = 3 \/ prio = 7))))
    \/ (cls = 20 /\ ty = 9 /\ prio = 3) \/ (cls = 509 /\ ty = 1 /\ prio = 3)) by lia.
  clear H. cbn [In]. destruct X as [(-> & [(-> & [->| ->])|[(-> & ->)|[(-> & ->)|[([->|[->|[->|[->| ->]]]] & ->)|(-> & [->| ->])]]]])|[(-> & -> & ->)|(-> & -> & ->)]]; tauto.
Qed.
(* ---- while the nickname does not change ---- *)
Definition quiet (n : N) (o : Obs) : Prop :=
  match o with
  | OTx m _ => In (m_class m, m_type m, m_prio m) documented /\ m_hard m = c_hard cfg /\ m_oaddr m = n
  | OPs _ _ | OApi (ASend _) => False
  | _ => True
  end.
Definition RQ n w w' : Prop := exists l, w_out w' = l ++ w_out w /\ Forall (quiet n) l /\ w_nick w' = w_nick w.
Lemma RQ_refl n w : RQ n w w. Proof. exists []. repeat split; constructor. Qed.
Lemma RQ_trans n (a b c : World A) : RQ n a b -> RQ n b c -> RQ n a c.
Proof. intros (l1 & O1 & H1 & N1) (l2 & O2 & H2 & N2). exists (l2 ++ l1). split; [rewrite O2, O1, app_assoc; reflexivity|]. split; [apply Forall_app; auto|congruence]. Qed.
Lemma RQ_RF w w' : RQ (w_nick w) w w' -> RF w w'.
Proof.
  intros (l & O & H & NK). exists l. split; [exact O|]. rewrite NK. intros T.
  assert (G : forall k, Forall (quiet (w_nick w)) k -> framesOk (w_nick w :: T, None) k /\ frRun (w_nick w :: T, None) k = (w_nick w :: T, None)).
  { induction k as [|o k IH]; intros HF; [split; [exact I|reflexivity]|]. inversion HF as [|? ? Q1 Q2]; subst. destruct (IH Q2) as [I1 I2].
    assert (ST : frameOk (w_nick w :: T, None) o /\ frStep (w_nick w :: T, None) o = (w_nick w :: T, None)).
    { destruct o; try (split; [exact I|reflexivity]); try destruct Q1.
      - destruct c; try (split; [exact I|reflexivity]). destruct Q1.
      - split; [|reflexivity]. destruct H1 as [H1 H2]. split; [assumption|]. split; [exact H1|left; exact H2]. }
    destruct ST as [S1 S2]. unfold frRun in *. cbn [framesOk fold_left]. rewrite S2. auto. }
  destruct (G (rev l)) as [G1 G2]; [apply Forall_rev; exact H|]. split; [exact G1|]. exists T. split; [exact G2|apply incl_refl].
Qed.
Lemma RQ_tx n cls ty prio d : stdFrame cls ty prio = true -> rel (RQ n) (tp_writeMessage (mkTx cls ty prio n d)).
Proof.
  intros HS w. destruct (tx_any (mkTx cls ty prio n d) w) as (o & O & HO & K). exists [o]. split; [exact HO|]. split; [|destruct K as (K & _); unfold visible in K; injection K; intros; assumption].
  constructor; [|constructor]. destruct O as [->|[ok ->]]; [exact I|]. cbn. split; [apply std_doc; exact HS|]. auto.
Qed.
Lemma RQ_parts n : (forall p a, rel (RQ n) (@readRegister A E p a)) /\ (forall k a d, rel (RQ n) (pageReadLoop k n a d)) /\ (forall k p a c d, rel (RQ n) (extReadLoop k p a c d)) /\
  (forall k i l e d, rel (RQ n) (log_loop k n i l e d)) /\ (forall r d, rel (RQ n) (whoLoop (map (fun i => dd_getGUID (15 - i)) (Nseq 16) ++ map dd_getMdf (Nseq 32)) n r d)) /\
  (rel (RQ n) (@dd_getZone A E) /\ rel (RQ n) (@dd_getSubZone A E)).
Proof.
  set (R := RQ n). assert (Rrefl : forall w, R w w) by apply RQ_refl. assert (Rtrans : forall a b c, R a b -> R b c -> R a c) by apply RQ_trans.
  assert (S : forall w w', w_out w' = w_out w -> w_nick w' = w_nick w -> R w w') by (intros w w' H1 H2; exists []; auto).
  assert (X_e : forall o, quiet n o -> rel R (@emit A o)) by (intros o H w; exists [o]; split; [reflexivity|]; split; [constructor; [exact H|constructor]|reflexivity]).
  assert (s_tx : forall cls ty prio d, stdFrame cls ty prio = true -> rel R (tp_writeMessage (mkTx cls ty prio n d))) by (intros; apply RQ_tx; assumption).
  clearbody R.
  assert (s_ub : rel R setUB) by (apply rel_upd; intros; apply S; reflexivity). assert (s_ngub : rel R setNgUB) by (apply rel_upd; intros; apply S; reflexivity).
  assert (s_app : forall v w, R w (set_app v w)) by (intros; apply S; reflexivity).
  assert (s_emit : forall o, plainObs o = true -> rel R (@emit A o)) by (intros o H; apply X_e; destruct o; try exact I; try discriminate H).
  assert (s_al : rel R (v <- get w_alarm ;; upd (set_alarm 0) ;; ret v)) by (rel_tac; apply S; reflexivity).
  assert (s_rr : forall p a, rel R (readRegister p a)) by (intros; apply tr_readRegister; assumption).
  assert (s_push : forall d v, rel R (push d v)) by (intros; apply tr_push; assumption).
  split; [exact s_rr|].
  split; [induction k; intros; cbn [pageReadLoop]; rel_tac|]. split; [induction k; intros; cbn [extReadLoop]; rel_tac|]. split; [induction k; intros; cbn [log_loop]; rel_tac|].
  assert (s_g : forall i, rel R (dd_getGUID i)) by (intros; apply tr_getGUID; assumption). assert (s_m : forall i, rel R (dd_getMdf i)) by (intros; apply tr_getMdf; assumption).
  split. { set (L := map _ (Nseq 16) ++ _). assert (HL : forall x, In x L -> rel R x).
    { intros x H. unfold L in H. apply in_app_or in H. destruct H as [H|H]; apply in_map_iff in H; destruct H as (y & <- & _); auto. }
    clearbody L. induction L as [|x L IH]; intros r d; cbn [whoLoop]; [rel_tac|].
    assert (rel R x) by (apply HL; left; reflexivity). assert (forall r d, rel R (whoLoop L n r d)) by (apply IH; intros y Hy; apply HL; right; exact Hy). rel_tac. }
  split; [apply tr_getZone; assumption|apply tr_getSub; assumption].
Qed.
Lemma RF_bind_nick {T} (k : N -> M A T) : (forall n, rel (RQ n) (k n)) -> rel RF (bind (get w_nick) k).
Proof. intros H w. rewrite bind_get. apply RQ_RF. apply H. Qed.
Lemma RF_sendProt ty prio d : stdFrame CLASS_PROTOCOL ty prio = true -> rel RF (sendProt ty prio d).
Proof. intros H. unfold sendProt. apply RF_bind_nick. intros n. apply RQ_tx. exact H. Qed.
(* a page response with a nickname taken earlier *)
Lemma RF_late {T} (m : M A T) (f : T -> list N) ty w : rel RF m -> ty = 26 \/ ty = 39 ->
  RF w (snd ((d <- m ;; tp_writeMessage (mkTx CLASS_PROTOCOL ty PRIO_3_NORMAL (w_nick w) (f d)) ;; ret tt) w)).
Proof.
  intros HM HT. rewrite snd_bind. destruct (HM w) as (l & O & H). set (u := snd (m w)) in *. clearbody u. set (fr := mkTx _ _ _ _ _).
  destruct (tx_any fr u) as (o & OO & HO & K). assert (NK : w_nick (snd (tp_writeMessage fr u)) = w_nick u) by (destruct K as (K & _); unfold visible in K; injection K; intros; assumption).
  rewrite snd_bind. cbn [ret snd]. set (v := snd (tp_writeMessage fr u)) in *. clearbody v.
  exists (o :: l). split; [rewrite HO, O; reflexivity|]. intros T0. destruct (H T0) as (K1 & T1 & X1 & I1). cbn [rev]. rewrite framesOk_app, X1, NK.
  assert (FR : frRun (w_nick w :: T0, None) (rev l ++ [o]) = (w_nick u :: T1, None)) by (unfold frRun in *; rewrite fold_left_app, X1; destruct OO as [->|[ok ->]]; reflexivity).
  rewrite FR. split; [|exists T1; split; [reflexivity|exact I1]]. split; [exact K1|]. cbn [framesOk]. split; [|exact I].
  destruct OO as [->|[ok ->]]; [exact I|]. unfold fr. cbn. split; [|split; [reflexivity|right]].
  - destruct HT as [-> | ->]; cbn; tauto.
  - split; [|apply I1; left; reflexivity]. split; [reflexivity|]. split; [exact HT|reflexivity].
Qed.
Lemma RF_all : (forall rd, rel RF (@process A E rd)) /\ (forall c, rel RF (@doApi A E c)).
Proof.
  assert (s_epr : rel RF (@extendedPageRead A E)).
  { unfold extendedPageRead. assert (Q : forall n, let R := RQ n in forall w w', w_out w' = w_out w -> w_nick w' = w_nick w -> R w w') by (intros n R w w' H1 H2; exists []; auto).
    apply rel_bind; [exact RF_trans|apply rel_get, RF_refl|intros c]. apply rel_if; [|apply rel_ret, RF_refl].
    do 3 (apply rel_bind; [exact RF_trans|apply rel_get, RF_refl|intros ?]). apply RF_bind_nick. intros n. destruct (RQ_parts n) as (_ & _ & P3 & _).
    pose proof (RQ_refl n) as Rrefl. pose proof (RQ_trans n) as Rtrans. apply rel_bind; [exact Rtrans|apply P3|]. intros [[[d a'] c'] np].
    apply rel_bind; [exact Rtrans|apply RQ_tx; reflexivity|intros ok]. destruct ok, np; rel_tac; apply Q; reflexivity. }
  assert (s_who : rel RF (@handleWhoIsThere A E)).
  { unfold handleWhoIsThere, rxSize, rxForMe, rxd. do 3 (apply rel_bind; [exact RF_trans|apply rel_get, RF_refl|intros ?]). apply rel_if; [|apply rel_ret, RF_refl].
    apply RF_bind_nick. intros n. destruct (RQ_parts n) as (_ & _ & _ & _ & P5 & _). pose proof (RQ_refl n) as Rrefl. pose proof (RQ_trans n) as Rtrans.
    apply rel_bind; [exact Rtrans|apply P5|intros d]. apply rel_bind; [exact Rtrans|apply RQ_tx; reflexivity|intros ok]. apply rel_ret. exact Rrefl. }
  assert (s_pr : rel RF (@handlePageRead A E)).
  { unfold handlePageRead, rxSize, rxForMe, rxd. do 2 (apply rel_bind; [exact RF_trans|apply rel_get, RF_refl|intros ?]). apply rel_if; [|apply rel_ret, RF_refl].
    do 2 (apply rel_bind; [exact RF_trans|apply rel_get, RF_refl|intros ?]).
    apply RF_bind_nick. intros n. destruct (RQ_parts n) as (_ & P2 & _). pose proof (RQ_refl n) as Rrefl. pose proof (RQ_trans n) as Rtrans.
    apply rel_bind; [exact Rtrans|apply P2|intros d]. apply rel_if; [|apply rel_ret; exact Rrefl]. apply rel_bind; [exact Rtrans|apply RQ_tx; reflexivity|intros ok]. apply rel_ret. exact Rrefl. }
  assert (s_nhb : rel RF (@sendNodeHeartbeat A E)).
  { unfold sendNodeHeartbeat. intros w. apply RQ_RF. destruct (RQ_parts (w_nick w)) as (_ & _ & _ & _ & _ & P6 & P7). rewrite snd_bind. apply (RQ_trans _ _ (snd (dd_getZone w))); [apply P6|].
    set (u := snd (dd_getZone w)). assert (NU : w_nick u = w_nick w) by (destruct (P6 w) as (_ & _ & _ & X); exact X). rewrite snd_bind. apply (RQ_trans _ _ (snd (dd_getSubZone u))); [apply P7|].
    set (v := snd (dd_getSubZone u)). assert (NV : w_nick v = w_nick w) by (destruct (P7 u) as (_ & _ & _ & X); transitivity (w_nick u); [exact X|exact NU]). rewrite bind_get, NV. rewrite snd_bind. cbn [ret snd]. apply RQ_tx. reflexivity. }
  assert (s_log : forall i l d, rel RF (@log_log A E i l d)).
  { intros i l d. unfold log_log, log_sendLogEvent. do 2 (apply rel_bind; [exact RF_trans|apply rel_get, RF_refl|intros ?]). apply rel_if; [|apply rel_ret, RF_refl].
    apply rel_bind; [exact RF_trans| |intros ?; apply rel_ret, RF_refl]. apply RF_bind_nick. intros n. destruct (RQ_parts n) as (_ & _ & _ & P4 & _). apply P4. }
  assert (s_late : forall (m : M A (list N)) ty w, rel RF m -> ty = 26 \/ ty = 39 -> RF w (snd ((d <- m ;; tp_writeMessage (mkTx CLASS_PROTOCOL ty PRIO_3_NORMAL (w_nick w) d) ;; ret tt) w))).
  { intros m ty w HM HT. apply (RF_late m (fun d => d) ty w HM HT). }
  assert (s_snd : forall m, rel RF (@doApi A E (ASend m))).
  { intros m w. unfold doApi. rewrite bind_emit, snd_bind. cbn [ret snd]. destruct (tx_any m (set_out (OApi (ASend m) :: w_out w) w)) as (o & OO & HO & K).
    assert (NK : w_nick (snd (tp_writeMessage m (set_out (OApi (ASend m) :: w_out w) w))) = w_nick w) by (destruct K as (K & _); unfold visible in K; injection K; intros; assumption).
    exists [o; OApi (ASend m)]. split; [exact HO|]. rewrite NK. intros T. destruct OO as [->|[ok ->]]; cbn; (split; [intuition auto|exists T; split; [reflexivity|apply incl_refl]]). }
  set (R := RF) in *. assert (Rrefl : forall w, R w w) by exact RF_refl. assert (Rtrans : forall a b c, R a b -> R b c -> R a c) by exact RF_trans.
  assert (S : forall w w', w_out w' = w_out w -> w_nick w' = w_nick w -> R w w') by exact RF_same.
  assert (X_e : forall o, still2 o = true -> rel R (@emit A o)) by exact RF_emit.
  assert (s_psW : forall a v, a <> ps_nick cfg -> rel R (psWrite8 a v)) by exact RF_ps.
  assert (s_nick : forall v, rel R (writeNicknameId v)) by exact RF_nick.
  assert (s_sp : forall ty prio d, stdFrame CLASS_PROTOCOL ty prio = true -> rel R (sendProt ty prio d)) by exact RF_sendProt.
  clearbody R.
  Ltac lf S X_e := intros; try (unfold setUB, setNgUB, timer_start, timer_stop); first [apply X_e; reflexivity | apply X_e; match goal with H : plainObs ?o = true |- _ => destruct o; try reflexivity; try discriminate H end | apply rel_upd; intros; apply S; reflexivity | apply S; reflexivity].
  assert (s_ub : rel R setUB) by (lf S X_e). assert (s_ngub : rel R setNgUB) by (lf S X_e). assert (s_app : forall v w, R w (set_app v w)) by (lf S X_e).
  assert (s_restore : rel R restoreFactory) by (apply tr_restoreFactory; tr_fill ltac:(lf S X_e)).
  assert (s_wl : forall v, rel R (ps_writeLogId v)) by (intros; apply tr_writeLog; auto).
  assert (s_wz : forall v, rel R (ps_writeZone v)) by (intros; apply tr_writeZone; auto). assert (s_ws : forall v, rel R (ps_writeSub v)) by (intros; apply tr_writeSub; auto).
  assert (s_api : forall c, rel R (doApi c)).
  { intros c. destruct c; [apply s_snd|..]; unfold doApi; (apply rel_bind; [exact Rtrans|apply X_e; reflexivity|intros _]).
    all: unfold setAlarm, setTimeSinceEpoch, enableHeartbeat, log_enable, log_setLevel, tp_getTransmitErrors, startNodeSegmentInit, changeToStateInit.
    all: rel_tac; lf S X_e. }
  assert (s_chb : rel R customHeartbeat) by (unfold customHeartbeat; rel_tac; lf S X_e).
  assert (s_ah : rel R activeHeartbeat) by (unfold activeHeartbeat, timer_running; rel_tac; lf S X_e).
  assert (s_init : forall b, rel R (changeToStateInit b)) by (intros; unfold changeToStateInit; rel_tac; lf S X_e).
  assert (s_page : forall v w, R w (set_page v w)) by (lf S X_e).
  assert (s_162 : forall v, rel R (writeVscpRegister REG_RESTORE v)).
  { intros v. unfold writeVscpRegister. match goal with |- rel R ?x => change (rel R (id <- get w_t162 ;; running <- timer_running id ;;
      (if (v =? 85) && negb running then timer_start id (c_t_multi cfg) else when (v =? 170) && running do (timer_stop id ;; restoreFactory)) ;; ret (0, false))) end. unfold timer_running. rel_tac; lf S X_e. }
  assert (s_emit : forall o, plainObs o = true -> rel R (@emit A o)) by (lf S X_e).
  assert (s_wv : forall a v, rel R (writeVscpRegister a v)) by (intros a v; apply ts_writeVscpRegister; tr_fill ltac:(lf S X_e)).
  assert (s_dmw : forall p a v, rel R (dm_writeRegister p a v)) by (intros; apply tr_dm_writeRegister; tr_fill ltac:(lf S X_e)).
  assert (s_wr : forall p a v, rel R (writeRegister p a v)) by (intros; apply tr_writeRegister; tr_fill ltac:(lf S X_e)).
  assert (s_wloop : forall n pg, rel R pg -> forall a i d, rel R (writeLoop n pg a i d)).
  { intros n pg HP. assert (s_push : forall d v, rel R (push d v)) by (intros; apply tr_push; assumption). induction n; intros; cbn [writeLoop]; unfold rxdv; rel_tac. }
  assert (s_pw : rel R handlePageWrite).
  { unfold handlePageWrite, rxSize, rxForMe, rxd. do 2 (apply rel_bind; [exact Rtrans|apply rel_get, Rrefl|intros ?]). apply rel_if; [|apply rel_ret, Rrefl].
    apply rel_bind; [exact Rtrans|apply rel_get, Rrefl|intros ?]. intros w. rewrite bind_get. apply s_late; [apply s_wloop, rel_get, Rrefl|left; reflexivity]. }
  assert (s_hew : rel R handleExtPageWrite).
  { unfold handleExtPageWrite, rxSize, rxForMe, rxd. do 2 (apply rel_bind; [exact Rtrans|apply rel_get, Rrefl|intros ?]). apply rel_if; [|apply rel_ret, Rrefl].
    do 3 (apply rel_bind; [exact Rtrans|apply rel_get, Rrefl|intros ?]). intros w. rewrite bind_get. cbv zeta. apply s_late; [apply s_wloop, rel_ret, Rrefl|right; reflexivity]. }
  tr_own R ltac:(lf S X_e). tr_ownTop R ltac:(lf S X_e). tr_ownProcess R ltac:(lf S X_e).
  split; assumption.
Qed.
Lemma frames_nil l : frames l = [] -> forall s, framesOk s l.
Proof. induction l as [|o l IH]; intros H s; [exact I|]. cbn [framesOk]. destruct o; try (split; [exact I|apply IH; exact H]). discriminate H. Qed.
Lemma RF_step o w : framesOk ([w_nick w], None) (effects w (snd (step o w))).
Proof.
  assert (G : forall l (v : World A), w_out v = l ++ w_out w -> framesOk ([w_nick w], None) (rev l) -> framesOk ([w_nick w], None) (effects w v)) by (intros l v O H; rewrite (effects_app w v l O); exact H).
  destruct RF_all as [RP RA]. destruct o as [rd|p|c|].
  - destruct (RP rd w) as (l & O & H). apply (G l); [exact O|apply (H [])].
  - apply (G [OTick p]); [reflexivity|repeat split].
  - destruct (RA c w) as (l & O & H). apply (G l); [exact O|apply (H [])].
  - rewrite step_init. destruct (init_quiet w) as (l & O & H). apply (G l); [exact O|]. apply frames_nil, H.
Qed.
End F.
