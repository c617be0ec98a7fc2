(* Proof_ArmHb.v - heartbeats of the ARM example in real time *)
From Verif Require Import Spec_ArmMain Spec_HbRun Proof_AvrMain Proof_ArmMain Proof_HbRun Proof_Heartbeat.
From Verif Require Import Walk Proof_NGP Proof_Protect Proof_AvrHb.
From Coq Require Import Lia.
Notation World := (World.World unit).
Notation rel := (@Traverse.rel unit _).

(* ---- the operations of the main loop neither restart the node nor switch the heartbeats off ---- *)
Definition URC (w v : World) : Prop := exists l, w_out v = l ++ w_out w /\ Forall calm l.
Lemma URC_refl w : URC w w. Proof. exists []. auto. Qed.
Lemma URC_trans a b c : URC a b -> URC b c -> URC a c.
Proof. intros (l1 & O1 & F1) (l2 & O2 & F2). exists (l2 ++ l1). rewrite O2, O1, app_assoc, Forall_app. auto. Qed.
Lemma URC_same (w v : World) : w_out v = w_out w -> URC w v. Proof. intros H. exists []. auto. Qed.
Lemma URC_set f : neutral f -> forall w, URC w (f w). Proof. intros H w. apply URC_same, H. Qed.
Lemma URC_emit o : calm o -> rel URC (@emit unit o). Proof. intros H w. exists [o]. auto. Qed.
Lemma URC_walk o : walkObs o = true -> rel URC (@emit unit o).
Proof. intros H. apply URC_emit. destruct o; try exact Logic.I; discriminate H. Qed.
Lemma URC_upd g : (forall w, w_out (g w) = w_out w) -> rel URC (upd g). Proof. intros H w. apply URC_same, H. Qed.
Lemma URC_ps a x : rel URC (psWrite8 a x). Proof. intros w. exists [OPs a (u8 x)]. split; [reflexivity|repeat constructor]. Qed.
Lemma URC_tx f : rel URC (tp_writeMessage f).
Proof. intros w. destruct (tx_any f w) as (o & H1 & H2 & _). exists [o]. split; [exact H2|]. constructor; [|constructor]. destruct H1 as [->|[ok ->]]; exact Logic.I. Qed.
Ltac urc := repeat first [assumption | match goal with
  | |- rel _ (psWrite8 _ _) => apply URC_ps | |- rel _ (tp_writeMessage _) => apply URC_tx | |- rel _ (emit _) => apply URC_emit; exact Logic.I
  | |- rel _ (upd _) => apply URC_upd; intros; reflexivity | |- rel _ (get _) => apply rel_get, URC_refl | |- rel _ (ret _) => apply rel_ret, URC_refl
  | |- rel _ (bind _ _) => apply rel_bind; [exact URC_trans| |intros] | H : forall b, rel URC (?f b) |- rel _ (?f _) => apply H
  | |- rel _ (if ?b then _ else _) => destruct b | |- rel _ (match ?b with _ => _ end) => destruct b end
  | progress unfold writeNicknameId, ps_writeNicknameId, ps_readNicknameId, psRead8, sendProt, timer_start, timer_stop, timer_running, rxIsProt, rxd].
Lemma UC_init b : rel URC (changeToStateInit b). Proof. unfold changeToStateInit. urc. Qed.
Lemma UC_active : rel URC changeToStateActive. Proof. unfold changeToStateActive. urc. Qed.
Lemma UC_idle : rel URC changeToStateIdle. Proof. unfold changeToStateIdle. urc. Qed.
Lemma UC_reset t : rel URC (changeToStateReset t). Proof. unfold changeToStateReset. urc. Qed.
Lemma UC_error : rel URC changeToStateError. Proof. unfold changeToStateError. urc. Qed.
Lemma UC_stateInit : rel URC stateInit. Proof. unfold stateInit, changeToStatePreActive. assert (X := UC_idle). assert (Y := UC_active). urc. Qed.
Lemma UC_statePre : rel URC statePreActive. Proof. unfold statePreActive. assert (X := UC_init). assert (Y := UC_active). urc. Qed.
Lemma UC_restore : rel URC restoreFactory.
Proof. apply wk_restoreFactory; auto using URC_refl, URC_set, URC_walk, URC_ps, URC_tx; try exact URC_trans. urc. Qed.
Lemma UC_body c : rel URC (apiBody c).
Proof. apply wk_apiBody; auto using URC_refl, URC_set, URC_walk, URC_ps, URC_tx, UC_init, UC_active, UC_idle, UC_reset, UC_restore. exact URC_trans. Qed.
Lemma UC_api c : (forall b, c <> AHeartbeat b) -> rel URC (doApi c).
Proof.
  intros H. rewrite doApi_body. apply rel_bind; [exact URC_trans| |intros _; apply UC_body]. apply URC_emit. destruct c; try exact Logic.I. exact (H b eq_refl).
Qed.
Lemma UC_forM l : Forall (fun c => forall b, c <> AHeartbeat b) l -> rel URC (forM l doApi).
Proof. induction 1; cbn [forM]. apply rel_ret, URC_refl. apply rel_bind; [exact URC_trans|apply UC_api; assumption|intros; assumption]. Qed.
Ltac uckids := constructor.
Lemma UC_process rd : rel URC (process rd).
Proof.
  apply walk_process; auto using URC_refl, URC_set, URC_walk, URC_ps, URC_tx, UC_init, UC_active, UC_idle, UC_reset, UC_restore; try exact URC_trans.
  - intros w _. apply UC_statePre.
  - intros w _. apply UC_stateInit.
  - intros p a. unfold appRead. urc.
  - intros p a x. unfold appWrite. apply rel_bind; [exact URC_trans|apply URC_emit; exact Logic.I|intros _].
    intros w. rewrite bind_get, bind_upd. match goal with |- URC w (snd (bind _ _ ?v)) => apply (URC_trans _ v); [apply URC_same; reflexivity|] end.
    match goal with |- URC ?v (snd (?m ?v)) => enough (rel URC m) by auto end. apply rel_bind; [exact URC_trans|apply UC_forM|intros; apply rel_ret, URC_refl]. uckids.
  - intros a p m. unfold actionExecute. apply rel_bind; [exact URC_trans|apply URC_emit; exact Logic.I|intros _].
    intros w. rewrite bind_get, bind_upd. match goal with |- URC w (snd (_ ?v)) => apply (URC_trans _ v); [apply URC_same; reflexivity|] end.
    match goal with |- URC ?v (snd (?m ?v)) => enough (rel URC m) by auto end. apply UC_forM. uckids.
  - intros m. unfold provideEvent. apply rel_bind; [exact URC_trans|apply URC_emit; exact Logic.I|intros _].
    intros w. rewrite bind_get, bind_upd. apply URC_same. reflexivity.
  - intros m. unfold provideProtocolEvent. apply rel_bind; [exact URC_trans|apply URC_emit; exact Logic.I|intros _].
    intros w. rewrite bind_get, bind_upd. apply URC_same. reflexivity.
  - unfold customHeartbeat. apply rel_bind; [exact URC_trans|apply URC_emit; exact Logic.I|intros _].
    intros w. rewrite bind_get, bind_upd. apply URC_same. reflexivity.
Qed.
(* ---- neither does the initialisation switch the heartbeats off ---- *)
Definition URN (w v : World) : Prop := exists l, w_out v = l ++ w_out w /\ Forall noHb l.
Lemma URN_refl w : URN w w. Proof. exists []. auto. Qed.
Lemma URN_trans a b c : URN a b -> URN b c -> URN a c.
Proof. intros (l1 & O1 & F1) (l2 & O2 & F2). exists (l2 ++ l1). rewrite O2, O1, app_assoc, Forall_app. auto. Qed.
Lemma URN_same (w v : World) : w_out v = w_out w -> URN w v. Proof. intros H. exists []. auto. Qed.
Lemma URN_set f : neutral f -> forall w, URN w (f w). Proof. intros H w. apply URN_same, H. Qed.
Lemma URN_emit o : noHb o -> rel URN (@emit unit o). Proof. intros H w. exists [o]. auto. Qed.
Lemma URN_walk o : walkObs o = true -> rel URN (@emit unit o).
Proof. intros H. apply URN_emit. destruct o; try exact Logic.I; discriminate H. Qed.
Lemma URN_upd g : (forall w, w_out (g w) = w_out w) -> rel URN (upd g). Proof. intros H w. apply URN_same, H. Qed.
Lemma URN_ps a x : rel URN (psWrite8 a x). Proof. intros w. exists [OPs a (u8 x)]. split; [reflexivity|repeat constructor]. Qed.
Lemma URN_tx f : rel URN (tp_writeMessage f).
Proof. intros w. destruct (tx_any f w) as (o & H1 & H2 & _). exists [o]. split; [exact H2|]. constructor; [|constructor]. destruct H1 as [->|[ok ->]]; exact Logic.I. Qed.
Ltac urn := repeat first [assumption | match goal with
  | |- rel _ (psWrite8 _ _) => apply URN_ps | |- rel _ (tp_writeMessage _) => apply URN_tx | |- rel _ (emit _) => apply URN_emit; exact Logic.I
  | |- rel _ (upd _) => apply URN_upd; intros; reflexivity | |- rel _ (get _) => apply rel_get, URN_refl | |- rel _ (ret _) => apply rel_ret, URN_refl
  | |- rel _ (bind _ _) => apply rel_bind; [exact URN_trans| |intros] | H : forall b, rel URN (?f b) |- rel _ (?f _) => apply H
  | |- rel _ (if ?b then _ else _) => destruct b | |- rel _ (match ?b with _ => _ end) => destruct b end
  | progress unfold writeNicknameId, ps_writeNicknameId, ps_readNicknameId, psRead8, sendProt, timer_start, timer_stop, timer_running, rxIsProt, rxd].
Lemma UN_init b : rel URN (changeToStateInit b). Proof. unfold changeToStateInit. urn. Qed.
Lemma UN_active : rel URN changeToStateActive. Proof. unfold changeToStateActive. urn. Qed.
Lemma UN_idle : rel URN changeToStateIdle. Proof. unfold changeToStateIdle. urn. Qed.
Lemma UN_reset t : rel URN (changeToStateReset t). Proof. unfold changeToStateReset. urn. Qed.
Lemma UN_error : rel URN changeToStateError. Proof. unfold changeToStateError. urn. Qed.
Lemma UN_stateInit : rel URN stateInit. Proof. unfold stateInit, changeToStatePreActive. assert (X := UN_idle). assert (Y := UN_active). urn. Qed.
Lemma UN_statePre : rel URN statePreActive. Proof. unfold statePreActive. assert (X := UN_init). assert (Y := UN_active). urn. Qed.
Lemma UN_restore : rel URN restoreFactory.
Proof. apply wk_restoreFactory; auto using URN_refl, URN_set, URN_walk, URN_ps, URN_tx; try exact URN_trans. urn. Qed.
Lemma UN_core_init : rel URN core_init.
Proof.
  intros w. rewrite core_init_eq. assert (H1 : rel URN initTimers).
  { apply wk_initTimers; auto using URN_refl, URN_set, URN_walk. exact URN_trans. }
  assert (H2 : forall b, rel URN (initTail b)).
  { intros. apply wk_initTail; auto using URN_refl, URN_set, URN_walk, UN_error, UN_restore. exact URN_trans. }
  assert (H3 : rel URN initHead). { unfold initHead, tp_init, dm_init. urn. }
  eapply URN_trans; [apply H3|]. eapply URN_trans; [apply H1|]. apply H2.
Qed.


Lemma upower_en ps wr : hb_en (hbState (history (powerUp ps tt wr))) = true.
Proof.
  unfold powerUp. destruct (UN_core_init (boot ps tt wr [] false false)) as (l & O & F). revert O. generalize (core_init (boot ps tt wr [] false false)).
  intros r O. unfold history. rewrite O. change (w_out (boot ps tt wr [] false false)) with (@nil Obs). rewrite app_nil_r. unfold hbState.
  apply noHb_en; [apply Forall_rev, F|reflexivity].
Qed.
Lemma URC_step o w : mainOp o -> URC w (snd (step o w)).
Proof.
  intros M. destruct M as [rd| |].
  - cbn [step]. assert (X : rel URC (process rd ;; ret tt)) by (apply rel_bind; [exact URC_trans|apply UC_process|intros; apply rel_ret, URC_refl]). apply X.
  - cbn [step]. apply (UC_api AStartInit). discriminate.
  - exists [OTick 250]. split; [reflexivity|repeat constructor].
Qed.
Lemma URC_run os : forall w, Forall mainOp os -> URC w (run (map EOp os) w).
Proof.
  induction os as [|o os IH]; intros w H; [apply URC_refl|]. inversion H as [|? ? H1 H2]; subst.
  change (run (map EOp (o :: os)) w) with (run (map EOp os) (snd (step o w))). eapply URC_trans; [apply URC_step, H1|apply IH, H2].
Qed.
Lemma URC_effects w v : URC w v -> Forall calm (effects w v) /\ history v = history w ++ effects w v.
Proof. intros (l & O & F). rewrite (effects_app w v l O). split; [apply Forall_rev, F|]. unfold history. rewrite O, rev_app_distr. reflexivity. Qed.
Lemma uheart_mono (w v : World) : history v = history w ++ effects w v -> heartbeats w <= heartbeats v.
Proof. intros H. unfold heartbeats. rewrite H, hb_app. apply count_mono. Qed.
Lemma arm_timersNeeded : timersNeeded (@cfg unit armEnv) <= c_timers (@cfg unit armEnv). Proof. vm_compute. discriminate. Qed.

Lemma arm_valid : valid_env armEnv.
Proof.
  constructor.
  - constructor; cbn; try lia; try discriminate; try (intros; reflexivity); try tauto; try (intros [? ?]; discriminate); repeat constructor.
  - intros; constructor.
  - intros; constructor.
  - intros; constructor.
  - intros; constructor.
  - intros; constructor.
Qed.

(* a stretch of turns: the operations and the time told in it *)
Lemma arm_stretch ps wr y0 ts1 ts2 : armStart ps wr = Some y0 ->
  let y1 := armMain ts1 y0 in let y2 := armMain ts2 y1 in
  exists os k, Forall mainOp os /\ reads os = map u_rd ts2 /\ a_node y2 = run (map EOp os) (a_node y1) /\
    toldMs (effects (a_node y1) (a_node y2)) = 250 * k /\ 250 * k <= armMs ts2 + 250 /\
    (forall g, 1 <= g -> armPaced g ts2 -> armMs ts2 <= 250 * k + 249 + (g - 1) * k).
Proof.
  intros HS y1 y2. destruct (armStart_all ps wr y0 HS) as (S1 & _ & S3 & _).
  destruct (armMain_all ts1 250 0 0 y0 [] btnInit S1 ltac:(lia) S3 ltac:(lia)) as (_ & v & _ & _ & _ & _ & P4 & P5 & _). cbv zeta in P4. fold y1 in P4.
  destruct (armMain_all ts2 v (250 - v) 0 y1 [] (a_btn y1) P4 P5 eq_refl ltac:(lia)) as (os & v' & k & Q1 & Q2 & Q3 & _ & Q5 & Q6 & _ & Q9 & Q10).
  cbv zeta in *. fold y2 in Q3. exists os, k. split; [exact Q1|]. split; [exact Q2|]. split; [exact Q3|]. split.
  - destruct (URC_effects _ _ (URC_run os (a_node y1) Q1)) as [_ H]. rewrite <- Q3 in H.
    destruct (urun_counts os (a_node y1) Q1) as [R _]. rewrite <- Q3, H, told_app in R. fold (sumOf tickOf os) in R. lia.
  - split; [lia|]. intros g G1 G2. specialize (Q10 g G1 G2 ltac:(lia)). rewrite N.add_0_l in Q10. lia.
Qed.
