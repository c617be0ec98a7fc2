(* Proof_AvrHb.v - heartbeats of the AVR example in real time *)
From Verif Require Import Spec_AvrMain Spec_HbRun Proof_AvrMain Proof_HbRun Proof_Heartbeat Proof_ExampleAvr.
From Verif Require Import Walk Proof_NGP Proof_Protect.
From Coq Require Import Lia.
Notation World := (World.World bool).
Notation rel := (@Traverse.rel bool _).

(* ---- the operations of the main loop neither restart the node nor switch the heartbeats off ---- *)
Definition calm (o : Obs) : Prop := match o with OInit | OPower | OApi (AHeartbeat _) => False | _ => True end.
Definition RC (w v : World) : Prop := exists l, w_out v = l ++ w_out w /\ Forall calm l.
Lemma RC_refl w : RC w w. Proof. exists []. auto. Qed.
Lemma RC_trans a b c : RC a b -> RC b c -> RC a c.
Proof. intros (l1 & O1 & F1) (l2 & O2 & F2). exists (l2 ++ l1). rewrite O2, O1, app_assoc, Forall_app. auto. Qed.
Lemma RC_same (w v : World) : w_out v = w_out w -> RC w v. Proof. intros H. exists []. auto. Qed.
Lemma RC_set f : neutral f -> forall w, RC w (f w). Proof. intros H w. apply RC_same, H. Qed.
Lemma RC_emit o : calm o -> rel RC (@emit bool o). Proof. intros H w. exists [o]. auto. Qed.
Lemma RC_walk o : walkObs o = true -> rel RC (@emit bool o).
Proof. intros H. apply RC_emit. destruct o; try exact Logic.I; discriminate H. Qed.
Lemma RC_upd g : (forall w, w_out (g w) = w_out w) -> rel RC (upd g). Proof. intros H w. apply RC_same, H. Qed.
Lemma RC_ps a x : rel RC (psWrite8 a x). Proof. intros w. exists [OPs a (u8 x)]. split; [reflexivity|repeat constructor]. Qed.
Lemma RC_tx f : rel RC (tp_writeMessage f).
Proof. intros w. destruct (tx_any f w) as (o & H1 & H2 & _). exists [o]. split; [exact H2|]. constructor; [|constructor]. destruct H1 as [->|[ok ->]]; exact Logic.I. Qed.
Ltac rc := repeat first [assumption | match goal with
  | |- rel _ (psWrite8 _ _) => apply RC_ps | |- rel _ (tp_writeMessage _) => apply RC_tx | |- rel _ (emit _) => apply RC_emit; exact Logic.I
  | |- rel _ (upd _) => apply RC_upd; intros; reflexivity | |- rel _ (get _) => apply rel_get, RC_refl | |- rel _ (ret _) => apply rel_ret, RC_refl
  | |- rel _ (bind _ _) => apply rel_bind; [exact RC_trans| |intros] | H : forall b, rel RC (?f b) |- rel _ (?f _) => apply H
  | |- rel _ (if ?b then _ else _) => destruct b | |- rel _ (match ?b with _ => _ end) => destruct b end
  | progress unfold writeNicknameId, ps_writeNicknameId, ps_readNicknameId, psRead8, sendProt, timer_start, timer_stop, timer_running, rxIsProt, rxd].
Lemma C_init b : rel RC (changeToStateInit b). Proof. unfold changeToStateInit. rc. Qed.
Lemma C_active : rel RC changeToStateActive. Proof. unfold changeToStateActive. rc. Qed.
Lemma C_idle : rel RC changeToStateIdle. Proof. unfold changeToStateIdle. rc. Qed.
Lemma C_reset t : rel RC (changeToStateReset t). Proof. unfold changeToStateReset. rc. Qed.
Lemma C_error : rel RC changeToStateError. Proof. unfold changeToStateError. rc. Qed.
Lemma C_stateInit : rel RC stateInit. Proof. unfold stateInit, changeToStatePreActive. assert (X := C_idle). assert (Y := C_active). rc. Qed.
Lemma C_statePre : rel RC statePreActive. Proof. unfold statePreActive. assert (X := C_init). assert (Y := C_active). rc. Qed.
Lemma C_restore : rel RC restoreFactory.
Proof. apply wk_restoreFactory; auto using RC_refl, RC_set, RC_walk, RC_ps, RC_tx; try exact RC_trans. rc. Qed.
Lemma C_body c : rel RC (apiBody c).
Proof. apply wk_apiBody; auto using RC_refl, RC_set, RC_walk, RC_ps, RC_tx, C_init, C_active, C_idle, C_reset, C_restore. exact RC_trans. Qed.
Lemma C_api c : (forall b, c <> AHeartbeat b) -> rel RC (doApi c).
Proof.
  intros H. rewrite doApi_body. apply rel_bind; [exact RC_trans| |intros _; apply C_body]. apply RC_emit. destruct c; try exact Logic.I. exact (H b eq_refl).
Qed.
Lemma C_forM l : Forall (fun c => forall b, c <> AHeartbeat b) l -> rel RC (forM l doApi).
Proof. induction 1; cbn [forM]. apply rel_ret, RC_refl. apply rel_bind; [exact RC_trans|apply C_api; assumption|intros; assumption]. Qed.
Ltac ckids := cbn [app_write app_action avrEnv]; unfold avrWrite, avrAction; repeat match goal with |- context [if ?b then _ else _] => destruct b end; cbn [fst snd]; repeat (constructor; [intros ?; discriminate|]); constructor.
Lemma C_process rd : rel RC (process rd).
Proof.
  apply walk_process; auto using RC_refl, RC_set, RC_walk, RC_ps, RC_tx, C_init, C_active, C_idle, C_reset, C_restore; try exact RC_trans.
  - intros w _. apply C_statePre.
  - intros w _. apply C_stateInit.
  - intros p a. unfold appRead. rc.
  - intros p a x. unfold appWrite. apply rel_bind; [exact RC_trans|apply RC_emit; exact Logic.I|intros _].
    intros w. rewrite bind_get, bind_upd. match goal with |- RC w (snd (bind _ _ ?v)) => apply (RC_trans _ v); [apply RC_same; reflexivity|] end.
    match goal with |- RC ?v (snd (?m ?v)) => enough (rel RC m) by auto end. apply rel_bind; [exact RC_trans|apply C_forM|intros; apply rel_ret, RC_refl]. ckids.
  - intros a p m. unfold actionExecute. apply rel_bind; [exact RC_trans|apply RC_emit; exact Logic.I|intros _].
    intros w. rewrite bind_get, bind_upd. match goal with |- RC w (snd (_ ?v)) => apply (RC_trans _ v); [apply RC_same; reflexivity|] end.
    match goal with |- RC ?v (snd (?m ?v)) => enough (rel RC m) by auto end. apply C_forM. ckids.
  - intros m. unfold provideEvent. apply rel_bind; [exact RC_trans|apply RC_emit; exact Logic.I|intros _].
    intros w. rewrite bind_get, bind_upd. apply RC_same. reflexivity.
  - intros m. unfold provideProtocolEvent. apply rel_bind; [exact RC_trans|apply RC_emit; exact Logic.I|intros _].
    intros w. rewrite bind_get, bind_upd. apply RC_same. reflexivity.
  - unfold customHeartbeat. apply rel_bind; [exact RC_trans|apply RC_emit; exact Logic.I|intros _].
    intros w. rewrite bind_get, bind_upd. apply RC_same. reflexivity.
Qed.
(* ---- neither does the initialisation switch the heartbeats off ---- *)
Definition noHb (o : Obs) : Prop := match o with OApi (AHeartbeat _) => False | _ => True end.
Definition RN (w v : World) : Prop := exists l, w_out v = l ++ w_out w /\ Forall noHb l.
Lemma RN_refl w : RN w w. Proof. exists []. auto. Qed.
Lemma RN_trans a b c : RN a b -> RN b c -> RN a c.
Proof. intros (l1 & O1 & F1) (l2 & O2 & F2). exists (l2 ++ l1). rewrite O2, O1, app_assoc, Forall_app. auto. Qed.
Lemma RN_same (w v : World) : w_out v = w_out w -> RN w v. Proof. intros H. exists []. auto. Qed.
Lemma RN_set f : neutral f -> forall w, RN w (f w). Proof. intros H w. apply RN_same, H. Qed.
Lemma RN_emit o : noHb o -> rel RN (@emit bool o). Proof. intros H w. exists [o]. auto. Qed.
Lemma RN_walk o : walkObs o = true -> rel RN (@emit bool o).
Proof. intros H. apply RN_emit. destruct o; try exact Logic.I; discriminate H. Qed.
Lemma RN_upd g : (forall w, w_out (g w) = w_out w) -> rel RN (upd g). Proof. intros H w. apply RN_same, H. Qed.
Lemma RN_ps a x : rel RN (psWrite8 a x). Proof. intros w. exists [OPs a (u8 x)]. split; [reflexivity|repeat constructor]. Qed.
Lemma RN_tx f : rel RN (tp_writeMessage f).
Proof. intros w. destruct (tx_any f w) as (o & H1 & H2 & _). exists [o]. split; [exact H2|]. constructor; [|constructor]. destruct H1 as [->|[ok ->]]; exact Logic.I. Qed.
Ltac rn := repeat first [assumption | match goal with
  | |- rel _ (psWrite8 _ _) => apply RN_ps | |- rel _ (tp_writeMessage _) => apply RN_tx | |- rel _ (emit _) => apply RN_emit; exact Logic.I
  | |- rel _ (upd _) => apply RN_upd; intros; reflexivity | |- rel _ (get _) => apply rel_get, RN_refl | |- rel _ (ret _) => apply rel_ret, RN_refl
  | |- rel _ (bind _ _) => apply rel_bind; [exact RN_trans| |intros] | H : forall b, rel RN (?f b) |- rel _ (?f _) => apply H
  | |- rel _ (if ?b then _ else _) => destruct b | |- rel _ (match ?b with _ => _ end) => destruct b end
  | progress unfold writeNicknameId, ps_writeNicknameId, ps_readNicknameId, psRead8, sendProt, timer_start, timer_stop, timer_running, rxIsProt, rxd].
Lemma N_init b : rel RN (changeToStateInit b). Proof. unfold changeToStateInit. rn. Qed.
Lemma N_active : rel RN changeToStateActive. Proof. unfold changeToStateActive. rn. Qed.
Lemma N_idle : rel RN changeToStateIdle. Proof. unfold changeToStateIdle. rn. Qed.
Lemma N_reset t : rel RN (changeToStateReset t). Proof. unfold changeToStateReset. rn. Qed.
Lemma N_error : rel RN changeToStateError. Proof. unfold changeToStateError. rn. Qed.
Lemma N_stateInit : rel RN stateInit. Proof. unfold stateInit, changeToStatePreActive. assert (X := N_idle). assert (Y := N_active). rn. Qed.
Lemma N_statePre : rel RN statePreActive. Proof. unfold statePreActive. assert (X := N_init). assert (Y := N_active). rn. Qed.
Lemma N_restore : rel RN restoreFactory.
Proof. apply wk_restoreFactory; auto using RN_refl, RN_set, RN_walk, RN_ps, RN_tx; try exact RN_trans. rn. Qed.
Lemma N_core_init : rel RN core_init.
Proof.
  intros w. rewrite core_init_eq. assert (H1 : rel RN initTimers).
  { apply wk_initTimers; auto using RN_refl, RN_set, RN_walk. exact RN_trans. }
  assert (H2 : forall b, rel RN (initTail b)).
  { intros. apply wk_initTail; auto using RN_refl, RN_set, RN_walk, N_error, N_restore. exact RN_trans. }
  assert (H3 : rel RN initHead). { unfold initHead, tp_init, dm_init. rn. }
  eapply RN_trans; [apply H3|]. eapply RN_trans; [apply H1|]. apply H2.
Qed.


Lemma noHb_en {A} {E : Env A} l : forall s, Forall noHb l -> hb_en s = true -> hb_en (fold_left hbStep l s) = true.
Proof.
  induction l as [|o l IH]; intros s H HE; [exact HE|]. inversion H as [|? ? H1 H2]; subst. cbn [fold_left]. apply IH; [exact H2|].
  destruct o; cbn [hbStep hb_en]; try exact HE; try reflexivity.
  - destruct c; cbn [hb_en]; try exact HE. contradiction.
  - destruct (_ && _); exact HE.
  - destruct l0; exact HE.
Qed.
Lemma power_en ps wr : hb_en (hbState (history (powerUp ps false wr))) = true.
Proof.
  unfold powerUp. destruct (N_core_init (boot ps false wr [] false false)) as (l & O & F). revert O. generalize (core_init (boot ps false wr [] false false)).
  intros r O. unfold history. rewrite O. change (w_out (boot ps false wr [] false false)) with (@nil Obs). rewrite app_nil_r. unfold hbState.
  apply noHb_en; [apply Forall_rev, F|reflexivity].
Qed.
Lemma calm_noHb o : calm o -> noHb o. Proof. destruct o; cbn; auto. Qed.
Lemma RC_step o w : mainOp o -> RC w (snd (step o w)).
Proof.
  intros M. destruct M as [rd| |].
  - cbn [step]. assert (X : rel RC (process rd ;; ret tt)) by (apply rel_bind; [exact RC_trans|apply C_process|intros; apply rel_ret, RC_refl]). apply X.
  - cbn [step]. apply (C_api AStartInit). discriminate.
  - exists [OTick 250]. split; [reflexivity|repeat constructor].
Qed.
Lemma RC_run os : forall w, Forall mainOp os -> RC w (run (map EOp os) w).
Proof.
  induction os as [|o os IH]; intros w H; [apply RC_refl|]. inversion H as [|? ? H1 H2]; subst.
  change (run (map EOp (o :: os)) w) with (run (map EOp os) (snd (step o w))). eapply RC_trans; [apply RC_step, H1|apply IH, H2].
Qed.
Lemma RC_effects w v : RC w v -> Forall calm (effects w v) /\ history v = history w ++ effects w v.
Proof. intros (l & O & F). rewrite (effects_app w v l O). split; [apply Forall_rev, F|]. unfold history. rewrite O, rev_app_distr. reflexivity. Qed.
Lemma calm_not l : Forall calm l -> ~ In OInit l /\ ~ In OPower l.
Proof. intros H. rewrite Forall_forall in H. split; intros X; exact (H _ X). Qed.
Lemma told_elapsed l : toldMs l = Spec_States.elapsed l.
Proof. induction l as [|o l IH]; [reflexivity|]. destruct o; cbn [toldMs Spec_States.elapsed]; congruence. Qed.
Lemma heart_mono (w v : World) : history v = history w ++ effects w v -> heartbeats w <= heartbeats v.
Proof. intros H. unfold heartbeats. rewrite H, hb_app. apply count_mono. Qed.
Lemma avr_timersNeeded : timersNeeded (@cfg bool avrEnv) <= c_timers (@cfg bool avrEnv). Proof. vm_compute. discriminate. Qed.

Lemma shift_div n0 n z : n0 mod 10 = n mod 10 -> (n0 + z) / 10 + n / 10 = (n + z) / 10 + n0 / 10 /\ (n0 + z) mod 10 = (n + z) mod 10.
Proof.
  intros D1. pose proof (N.div_mod n 10 ltac:(lia)) as DN. pose proof (N.div_mod n0 10 ltac:(lia)) as DN0. rewrite D1 in DN0.
  replace (n0 + z) with (n mod 10 + z + n0 / 10 * 10) by lia. replace (n + z) with (n mod 10 + z + n / 10 * 10) by lia.
  rewrite !N.div_add, !N.mod_add by lia. lia.
Qed.
Lemma paced_shift g : forall ts n n0, n0 mod 10 = n mod 10 -> paced g n ts -> paced g n0 ts.
Proof.
  induction ts as [|t ts IH]; intros n n0 H P; [exact Logic.I|]. destruct P as [P1 P2]. destruct (shift_div n0 n (N.of_nat (length (interrupts t))) H) as [X Y].
  split; [cbv zeta in *; lia|]. exact (IH _ _ Y P2).
Qed.
(* a stretch of turns: the operations and the time told in it *)
Lemma stretch_all ps wr y0 ts1 ts2 : avrStart ps wr = Some y0 ->
  let y1 := avrMain ts1 y0 in let y2 := avrMain ts2 y1 in
  exists os k, Forall mainOp os /\ reads os = map u_rd ts2 /\ y_node y2 = run (map EOp os) (y_node y1) /\
    toldMs (effects (y_node y1) (y_node y2)) = 250 * k /\ 250 * k <= msIn (ts1 ++ ts2) - msIn ts1 + 250 /\
    (forall g, 1 <= g -> paced g (overflowsIn ts1) ts2 -> msIn (ts1 ++ ts2) - msIn ts1 <= 250 * k + 249 + (g - 1) * k).
Proof.
  intros HS y1 y2. destruct (start_all ps wr y0 HS) as (S1 & _ & S3 & _).
  destruct (main_all ts1 0 250 0 y0 [] btnInit S1 ltac:(lia) S3 ltac:(cbn; lia)) as (_ & v & _ & _ & _ & _ & P4 & P5 & _). cbv zeta in P4. fold y1 in P4.
  rewrite N.add_0_l in P4. set (n := overflowsIn ts1) in *. pose proof (N.mod_lt n 10 ltac:(lia)) as L.
  set (n0 := n mod 10 + 10 * (250 - v)).
  assert (D0 : n0 / 10 = 250 - v /\ n0 mod 10 = n mod 10).
  { unfold n0. rewrite (N.mul_comm 10). rewrite N.div_add, N.mod_add, N.div_small, N.mod_mod by lia. split; lia. }
  destruct D0 as [D0 D1].
  assert (T0 : Tm n0 v y1) by (unfold Tm in *; rewrite D1; exact P4).
  destruct (main_all ts2 n0 v 0 y1 [] (y_btn y1) T0 ltac:(lia) eq_refl ltac:(lia)) as (os & v' & k & Q1 & Q2 & Q3 & _ & Q5 & Q6 & _ & _ & Q9 & Q10).
  cbv zeta in *. fold y2 in Q3. exists os, k. split; [exact Q1|]. split; [exact Q2|]. split; [exact Q3|]. split.
  - destruct (RC_effects _ _ (RC_run os (y_node y1) Q1)) as [_ H]. rewrite <- Q3 in H.
    destruct (run_counts os (y_node y1) Q1) as [R _]. rewrite <- Q3, H, told_app in R. fold (sumOf tickOf os) in R. lia.
  - assert (M : overflowsIn (ts1 ++ ts2) = n + overflowsIn ts2) by (unfold overflowsIn, n; rewrite flat_map_app, app_length; unfold overflowsIn; lia).
    unfold msIn. rewrite M. fold n. destruct (shift_div n0 n (overflowsIn ts2) D1) as [X _]. rewrite D0 in X. split; [lia|].
    intros g G1 G2. specialize (Q10 g G1 (paced_shift g ts2 n n0 D1 G2) ltac:(lia)). rewrite N.add_0_l in Q10. lia.
Qed.
