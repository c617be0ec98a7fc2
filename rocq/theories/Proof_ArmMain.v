(* Proof_ArmMain.v - proofs about the whole program of the ARM example *)
From Verif Require Import Spec_ArmMain Proof_AvrMain Proof_SwTimer.
From Verif Require Import Walk Proof_NGP Proof_Protect.
From Coq Require Import Lia.
Notation World := (World.World unit).
Notation rel := (@Traverse.rel unit _).

(* ---- neither process nor the initialisation tells the time or starts the segment initialisation ---- *)
Definition RU (w v : World) : Prop := exists l, w_out v = l ++ w_out w /\ Forall tame l.
Lemma RU_refl w : RU w w. Proof. exists []. auto. Qed.
Lemma RU_trans a b c : RU a b -> RU b c -> RU a c.
Proof. intros (l1 & O1 & F1) (l2 & O2 & F2). exists (l2 ++ l1). rewrite O2, O1, app_assoc, Forall_app. auto. Qed.
Lemma RU_same (w v : World) : w_out v = w_out w -> RU w v. Proof. intros H. exists []. auto. Qed.
Lemma RU_set f : neutral f -> forall w, RU w (f w). Proof. intros H w. apply RU_same, H. Qed.
Lemma RU_emit o : tame o -> rel RU (@emit unit o). Proof. intros H w. exists [o]. auto. Qed.
Lemma RU_walk o : walkObs o = true -> rel RU (@emit unit o).
Proof. intros H. apply RU_emit. destruct o; try exact Logic.I; discriminate H. Qed.
Lemma RU_upd g : (forall w, w_out (g w) = w_out w) -> rel RU (upd g). Proof. intros H w. apply RU_same, H. Qed.
Lemma RU_ps a x : rel RU (psWrite8 a x). Proof. intros w. exists [OPs a (u8 x)]. split; [reflexivity|repeat constructor]. Qed.
Lemma RU_tx f : rel RU (tp_writeMessage f).
Proof. intros w. destruct (tx_any f w) as (o & H1 & H2 & _). exists [o]. split; [exact H2|]. constructor; [|constructor]. destruct H1 as [->|[ok ->]]; exact Logic.I. Qed.
Ltac ru := repeat first [assumption | match goal with
  | |- rel _ (psWrite8 _ _) => apply RU_ps | |- rel _ (tp_writeMessage _) => apply RU_tx | |- rel _ (emit _) => apply RU_emit; exact Logic.I
  | |- rel _ (upd _) => apply RU_upd; intros; reflexivity | |- rel _ (get _) => apply rel_get, RU_refl | |- rel _ (ret _) => apply rel_ret, RU_refl
  | |- rel _ (bind _ _) => apply rel_bind; [exact RU_trans| |intros] | H : forall b, rel RU (?f b) |- rel _ (?f _) => apply H
  | |- rel _ (if ?b then _ else _) => destruct b | |- rel _ (match ?b with _ => _ end) => destruct b end
  | progress unfold writeNicknameId, ps_writeNicknameId, ps_readNicknameId, psRead8, sendProt, timer_start, timer_stop, timer_running, rxIsProt, rxd].
Lemma U_init b : rel RU (changeToStateInit b). Proof. unfold changeToStateInit. ru. Qed.
Lemma U_active : rel RU changeToStateActive. Proof. unfold changeToStateActive. ru. Qed.
Lemma U_idle : rel RU changeToStateIdle. Proof. unfold changeToStateIdle. ru. Qed.
Lemma U_reset t : rel RU (changeToStateReset t). Proof. unfold changeToStateReset. ru. Qed.
Lemma U_error : rel RU changeToStateError. Proof. unfold changeToStateError. ru. Qed.
Lemma U_stateInit : rel RU stateInit. Proof. unfold stateInit, changeToStatePreActive. assert (X := U_idle). assert (Y := U_active). ru. Qed.
Lemma U_statePre : rel RU statePreActive. Proof. unfold statePreActive. assert (X := U_init). assert (Y := U_active). ru. Qed.
Lemma U_restore : rel RU restoreFactory.
Proof. apply wk_restoreFactory; auto using RU_refl, RU_set, RU_walk, RU_ps, RU_tx; try exact RU_trans. ru. Qed.
Lemma U_body c : rel RU (apiBody c).
Proof. apply wk_apiBody; auto using RU_refl, RU_set, RU_walk, RU_ps, RU_tx, U_init, U_active, U_idle, U_reset, U_restore. exact RU_trans. Qed.
Lemma U_api c : c <> AStartInit -> rel RU (doApi c).
Proof.
  intros H. rewrite doApi_body. apply rel_bind; [exact RU_trans| |intros _; apply U_body]. apply RU_emit. destruct c; try exact Logic.I. congruence.
Qed.
Lemma U_forM l : Forall (fun c => c <> AStartInit) l -> rel RU (forM l doApi).
Proof. induction 1; cbn [forM]. apply rel_ret, RU_refl. apply rel_bind; [exact RU_trans|apply U_api; assumption|intros; assumption]. Qed.
Ltac ukids := constructor.
Lemma U_process rd : rel RU (process rd).
Proof.
  apply walk_process; auto using RU_refl, RU_set, RU_walk, RU_ps, RU_tx, U_init, U_active, U_idle, U_reset, U_restore; try exact RU_trans.
  - intros w _. apply U_statePre.
  - intros w _. apply U_stateInit.
  - intros p a. unfold appRead. ru.
  - intros p a x. unfold appWrite. apply rel_bind; [exact RU_trans|apply RU_emit; exact Logic.I|intros _].
    intros w. rewrite bind_get, bind_upd. match goal with |- RU w (snd (bind _ _ ?v)) => apply (RU_trans _ v); [apply RU_same; reflexivity|] end.
    match goal with |- RU ?v (snd (?m ?v)) => enough (rel RU m) by auto end. apply rel_bind; [exact RU_trans|apply U_forM|intros; apply rel_ret, RU_refl]. ukids.
  - intros a p m. unfold actionExecute. apply rel_bind; [exact RU_trans|apply RU_emit; exact Logic.I|intros _].
    intros w. rewrite bind_get, bind_upd. match goal with |- RU w (snd (_ ?v)) => apply (RU_trans _ v); [apply RU_same; reflexivity|] end.
    match goal with |- RU ?v (snd (?m ?v)) => enough (rel RU m) by auto end. apply U_forM. ukids.
  - intros m. unfold provideEvent. apply rel_bind; [exact RU_trans|apply RU_emit; exact Logic.I|intros _].
    intros w. rewrite bind_get, bind_upd. apply RU_same. reflexivity.
  - intros m. unfold provideProtocolEvent. apply rel_bind; [exact RU_trans|apply RU_emit; exact Logic.I|intros _].
    intros w. rewrite bind_get, bind_upd. apply RU_same. reflexivity.
  - unfold customHeartbeat. apply rel_bind; [exact RU_trans|apply RU_emit; exact Logic.I|intros _].
    intros w. rewrite bind_get, bind_upd. apply RU_same. reflexivity.
Qed.
Lemma U_core_init : rel RU core_init.
Proof.
  intros w. rewrite core_init_eq. assert (H1 : rel RU initTimers).
  { apply wk_initTimers; auto using RU_refl, RU_set, RU_walk. exact RU_trans. }
  assert (H2 : forall b, rel RU (initTail b)).
  { intros. apply wk_initTail; auto using RU_refl, RU_set, RU_walk, U_error, U_restore. exact RU_trans. }
  assert (H3 : rel RU initHead). { unfold initHead, tp_init, dm_init. ru. }
  eapply RU_trans; [apply H3|]. eapply RU_trans; [apply H1|]. apply H2.
Qed.

Lemma RU_counts w v : RU w v -> toldMs (history v) = toldMs (history w) /\ initCalls (history v) = initCalls (history w).
Proof.
  intros (l & O & F). unfold history. rewrite O, rev_app_distr, told_app, calls_app.
  apply Forall_rev in F. destruct (told_tame _ F) as [-> ->]. lia.
Qed.
Lemma ustep_counts o (w : World) : mainOp o ->
  toldMs (history (snd (step o w))) = toldMs (history w) + tickOf o /\ initCalls (history (snd (step o w))) = initCalls (history w) + callOf o.
Proof.
  intros M. destruct M as [rd| |]; cbn [tickOf callOf].
  - rewrite !N.add_0_r. apply RU_counts. cbn [step].
    assert (X : rel RU (process rd ;; ret tt)) by (apply rel_bind; [exact RU_trans|apply U_process|intros; apply rel_ret, RU_refl]). apply X.
  - cbn [step]. rewrite doApi_body, bind_emit. set (w1 := set_out _ w).
    destruct (RU_counts _ _ (U_body AStartInit w1)) as [-> ->]. unfold history, w1. wsimp. cbn [rev]. rewrite told_app, calls_app. cbn. lia.
  - cbn [step]. rewrite bind_emit. unfold upd, history. cbn [snd]. wsimp. cbn [rev]. rewrite told_app, calls_app. cbn. lia.
Qed.
Lemma urun_counts os : forall w : World, Forall mainOp os ->
  toldMs (history (run (map EOp os) w)) = toldMs (history w) + fold_right N.add 0 (map tickOf os) /\
  initCalls (history (run (map EOp os) w)) = initCalls (history w) + fold_right N.add 0 (map callOf os).
Proof.
  induction os as [|o os IH]; intros w H; [cbn; lia|]. inversion H as [|? ? H1 H2]; subst.
  change (run (map EOp (o :: os)) w) with (run (map EOp os) (snd (step o w))).
  destruct (IH (snd (step o w)) H2) as [-> ->]. destruct (ustep_counts o w H1) as [-> ->]. cbn [map fold_right]. lia.
Qed.


(* ---- interrupts ---- *)
Definition armTicks (l : list bool) (b : Btn) : Btn := fold_left (fun s h => armTick h s) l b.
(* the 250 ms timer has v ms to go *)
Definition Ta (v : N) (y : ArmSys) : Prop := nth_error (a_sw y) 1 = Some (swAt1 v).
Lemma armIsrs_time : forall l v y, Ta v y -> let y' := armIsrs l y in
  Ta (v - N.of_nat (length l)) y' /\ a_node y' = a_node y /\ a_led y' = a_led y /\ a_btn y' = armTicks l (a_btn y).
Proof.
  induction l as [|h l IH]; intros v y H; cbv zeta.
  - cbn [length N.of_nat]. rewrite N.sub_0_r. auto.
  - assert (K : Ta (v - 1) (armIsr y h)).
    { unfold Ta, armIsr in *. cbn [a_sw]. unfold swProcess. rewrite nth_error_map, H. cbn [option_map swAt1 s_start s_manual s_val]. unfold swAt1. do 2 f_equal.
      destruct (N.ltb_spec 0 v); lia. }
    destruct (IH _ _ K) as (I1 & I2 & I3 & I4). change (armIsrs (h :: l) y) with (armIsrs l (armIsr y h)).
    split; [|split; [exact I2|split; [exact I3|exact I4]]].
    replace (v - N.of_nat (length (h :: l))) with (v - 1 - N.of_nat (length l)) by (cbn [length]; lia). exact I1.
Qed.
Lemma starts_armTicks l : forall b, b_starts (armTicks l b) = b_starts b /\ b_last (armTicks l b) = b_last b.
Proof.
  induction l as [|h l IH]; intros b; [auto|]. unfold armTicks in *. cbn [fold_left]. destruct (IH (armTick h b)) as [-> ->].
  unfold armTick. destruct h; [auto|]. destruct (DEBOUNCE <=? b_cnt b); auto.
Qed.

(* ---- one turn ---- *)
Lemma armTurn_all v y t carry b : Ta v y -> a_btn y = armTicks carry b ->
  let d := N.of_nat (length (interrupts t)) in let fired := v <=? d in let y' := armTurn y t in
  let b' := pass armTick b (carry ++ u_i1 t, u_i2 t) in
  Ta (if fired then 250 else v - d) y' /\
  (exists st, a_node y' = run (map EOp (turnOps t st fired)) (a_node y) /\ b_starts b' = b_starts b + (if st then 1 else 0)) /\
  a_btn y' = armTicks (u_i3 t) b' /\
  (fired = true -> exists led, a_led y' = lampStep (lampState (w_out (a_node y'))) led) /\
  (fired = false -> a_led y' = a_led y).
Proof.
  intros HT HB. cbv zeta. unfold armTurn.
  set (ya := armCall (OpProcess (u_rd t)) y). assert (T0 : Ta v ya) by exact HT.
  destruct (armIsrs_time (u_i1 t) v ya T0) as (T1 & N1 & L1 & B1). set (y1 := armIsrs (u_i1 t) ya) in *. clearbody y1.
  set (y2 := armButton y1). set (st := b_pressed (a_btn y1) && negb (b_last (a_btn y1))).
  assert (T2 : Ta (v - N.of_nat (length (u_i1 t))) y2) by (unfold y2, armButton; destruct (_ && _); exact T1).
  assert (N2 : a_node y2 = run (map EOp (if st then [OpApi AStartInit] else [])) (a_node y1)) by (unfold y2, armButton; fold st; destruct st; reflexivity).
  assert (B2 : a_btn y2 = loopTest (a_btn y1)) by reflexivity.
  assert (L2 : a_led y2 = a_led y1) by (unfold y2, armButton; destruct (_ && _); reflexivity).
  assert (BS : b_starts (a_btn y2) = b_starts (a_btn y1) + (if st then 1 else 0)).
  { rewrite B2. unfold loopTest. fold st. destruct st; cbn [b_starts]; lia. }
  clearbody y2. destruct (armIsrs_time (u_i2 t) _ y2 T2) as (T3 & N3 & L3 & B3). set (y3 := armIsrs (u_i2 t) y2) in *. clearbody y3.
  assert (T4 : Ta (v - N.of_nat (length (u_i1 t)) - N.of_nat (length (u_i2 t))) (armLatch y3)) by exact T3.
  destruct (armIsrs_time (u_i3 t) _ (armLatch y3) T4) as (T5 & N5 & L5 & B5). set (y5 := armIsrs (u_i3 t) (armLatch y3)) in *. clearbody y5.
  set (d := N.of_nat (length (interrupts t))).
  replace (v - N.of_nat (length (u_i1 t)) - N.of_nat (length (u_i2 t)) - N.of_nat (length (u_i3 t))) with (v - d) in T5
    by (unfold d, interrupts; rewrite !app_length; lia).
  clearbody d. cbn [armLatch a_node a_led a_btn] in N5, L5, B5.
  assert (SB : pass armTick b (carry ++ u_i1 t, u_i2 t) = loopLatch (a_btn y3)).
  { unfold pass. cbn [fst snd]. f_equal. rewrite B3. unfold armTicks. f_equal. rewrite B2. f_equal. rewrite B1.
    change (a_btn ya) with (a_btn y). rewrite HB. unfold armTicks. rewrite fold_left_app. reflexivity. }
  assert (SS : b_starts (pass armTick b (carry ++ u_i1 t, u_i2 t)) = b_starts b + (if st then 1 else 0)).
  { rewrite SB. cbn [loopLatch b_starts]. rewrite B3. rewrite (proj1 (starts_armTicks _ _)), BS, B1, (proj1 (starts_armTicks _ _)).
    change (a_btn ya) with (a_btn y). rewrite HB, (proj1 (starts_armTicks _ _)). reflexivity. }
  assert (ND : a_node y5 = run (map EOp (OpProcess (u_rd t) :: (if st then [OpApi AStartInit] else []))) (a_node y)) by (rewrite N5, N3, N2, N1; reflexivity).
  assert (BT : a_btn y5 = armTicks (u_i3 t) (pass armTick b (carry ++ u_i1 t, u_i2 t))) by (rewrite SB, B5; reflexivity).
  assert (SG : swGetStatus (a_sw y5) 1 = if v <=? d then (true, swAt (a_sw y5) 1 (fun t => mkSwT (s_start t) (s_manual t) (s_start t))) else (false, a_sw y5)).
  { unfold swGetStatus. change (N.to_nat 1) with 1%nat. unfold Ta in T5. rewrite T5. cbn [swAt1 s_val s_manual s_start].
    destruct (N.leb_spec v d), (N.eqb_spec (v - d) 0); try lia; reflexivity. }
  unfold armPeriod. rewrite SG. destruct (N.leb_spec v d) as [F|F]; cbn [fst snd].
  - split; [|split; [|split; [|split]]].
    + unfold Ta. cbn [a_sw armCall]. exact (swAt_same _ 1 _ _ T5).
    + exists st. split; [|exact SS]. unfold turnOps. rewrite app_comm_cons, map_app, run_app, <- ND. reflexivity.
    + exact BT.
    + intros _. eexists. reflexivity.
    + discriminate.
  - split; [|split; [|split; [|split]]].
    + exact T5.
    + exists st. split; [|exact SS]. unfold turnOps. rewrite app_nil_r. exact ND.
    + exact BT.
    + discriminate.
    + intros _. cbn [a_led]. rewrite L5, L3, L2, L1. reflexivity.
Qed.

Lemma armMain_all : forall ts v n k0 y carry b, Ta v y -> 1 <= v <= 250 -> a_btn y = armTicks carry b -> 250 * k0 + (250 - v) <= n ->
  let n' := n + armMs ts in let y' := armMain ts y in
  exists os v' k, Forall mainOp os /\ reads os = map u_rd ts /\ a_node y' = run (map EOp os) (a_node y) /\ Ta v' y' /\ 1 <= v' <= 250 /\
    sumOf tickOf os = 250 * k /\ b_starts (fold_left (pass armTick) (armPasses carry ts) b) = b_starts b + sumOf callOf os /\
    250 * (k0 + k) + (250 - v') <= n' /\
    (forall g, 1 <= g -> armPaced g ts -> n <= 250 * k0 + (250 - v) + (g - 1) * k0 -> n' <= 250 * (k0 + k) + (250 - v') + (g - 1) * (k0 + k)).
Proof.
  induction ts as [|t ts IH]; intros v n k0 y carry b HT HV HB HU; cbv zeta.
  - exists [], v, 0. unfold armMs, overflowsIn. cbn [flat_map length N.of_nat]. rewrite !N.add_0_r. cbn. repeat split; auto; lia.
  - pose proof (armTurn_all v y t carry b HT HB) as H. cbv zeta in H. set (d := N.of_nat (length (interrupts t))) in *.
    destruct H as (T1 & (st & N1 & S1) & B1 & _).
    set (v1 := if v <=? d then 250 else v - d) in *. set (k1 := if v <=? d then 1 else 0).
    assert (V1 : 1 <= v1 <= 250) by (unfold v1; destruct (N.leb_spec v d); lia).
    assert (U1 : 250 * (k0 + k1) + (250 - v1) <= n + d) by (unfold k1, v1; destruct (N.leb_spec v d); lia).
    destruct (IH v1 (n + d) (k0 + k1) (armTurn y t) (u_i3 t) _ T1 V1 B1 U1) as (os & v' & k & P1 & P2 & P3 & P4 & P5 & P6 & P7 & P9 & P10).
    replace (n + d + armMs ts) with (n + armMs (t :: ts)) in * by (unfold armMs, overflowsIn, d; cbn [flat_map]; rewrite app_length; lia).
    change (armMain ts (armTurn y t)) with (armMain (t :: ts) y) in *.
    exists (turnOps t st (v <=? d) ++ os), v', (k1 + k).
    split; [apply Forall_app; split; [apply turnOps_main|exact P1]|].
    split. { unfold reads in *. rewrite flat_map_app, P2. fold (reads (turnOps t st (v <=? d))). rewrite turnOps_reads. reflexivity. }
    split. { rewrite map_app, run_app, <- N1. exact P3. }
    split; [exact P4|]. split; [exact P5|].
    split. { assert (X : sumOf tickOf (turnOps t st (v <=? d)) = 250 * k1) by (unfold k1; destruct st, (v <=? d); reflexivity). rewrite sumOf_app, P6, X. lia. }
    split. { cbn [armPasses fold_left]. rewrite P7, S1, sumOf_app.
      assert (X : sumOf callOf (turnOps t st (v <=? d)) = if st then 1 else 0) by (destruct st, (v <=? d); reflexivity). rewrite X. lia. }
    split. { rewrite N.add_assoc. exact P9. }
    intros g G1 G2 G4. inversion G2 as [|? ? G3 G5]; subst. fold d in G3. rewrite N.add_assoc. apply P10; [exact G1|exact G5|].
    unfold k1, v1. destruct (N.leb_spec v d); nia.
Qed.

(* ---- the start ---- *)
Lemma arm_init_ok w : fst (core_init w) = true.
Proof.
  rewrite core_init_eq, tail_result. assert (H : w_tm (snd (initHead w)) = timerInit 5) by (rewrite head_timers; reflexivity).
  revert H. generalize (snd (initHead w)). intros v H.
  unfold initTimers, createTimer, timer_start, bind, get, upd, ret. cbn [fst snd]. wsimp. rewrite H. vm_compute. reflexivity.
Qed.
Lemma arm_start ps wr : exists y0, armStart ps wr = Some y0.
Proof. unfold armStart. rewrite arm_init_ok. eexists. reflexivity. Qed.
Lemma armStart_all ps wr y0 : armStart ps wr = Some y0 ->
  Ta 250 y0 /\ a_node y0 = powerUp ps tt wr /\ a_btn y0 = armTicks [] btnInit /\
  toldMs (history (a_node y0)) = 0 /\ initCalls (history (a_node y0)) = 0.
Proof.
  unfold armStart, powerUp.
  destruct (RU_counts _ _ (U_core_init (boot ps tt wr [] false false))) as [X Y].
  assert (Z := arm_init_ok (boot ps tt wr [] false false)). revert X Y Z.
  generalize (core_init (boot ps tt wr [] false false)). intros r X Y Z. rewrite Z. intros H. injection H as <-.
  cbn [a_node a_btn]. split; [reflexivity|]. split; [reflexivity|]. split; [reflexivity|].
  split; [rewrite X; reflexivity|rewrite Y; reflexivity].
Qed.
Lemma armMain_from_start ps wr y0 ts : armStart ps wr = Some y0 -> let y := armMain ts y0 in
  exists os v k, Forall mainOp os /\ reads os = map u_rd ts /\ a_node y = run (map EOp os) (powerUp ps tt wr) /\ 1 <= v <= 250 /\
    toldMs (history (a_node y)) = 250 * k /\ b_starts (loop armTick (armPasses [] ts)) = initCalls (history (a_node y)) /\
    250 * k + (250 - v) <= armMs ts /\
    (forall g, 1 <= g -> armPaced g ts -> armMs ts <= 250 * k + (250 - v) + (g - 1) * k).
Proof.
  intros H. cbv zeta. destruct (armStart_all ps wr y0 H) as (S1 & S2 & S3 & S5 & S6).
  destruct (armMain_all ts 250 0 0 y0 [] btnInit S1 ltac:(lia) S3 ltac:(lia)) as (os & v & k & P1 & P2 & P3 & P4 & P5 & P6 & P7 & P9 & P10).
  exists os, v, k. destruct (urun_counts os (a_node y0) P1) as [Q1 Q2]. rewrite <- P3 in Q1, Q2.
  rewrite <- S2. rewrite !N.add_0_l in *. rewrite Q1, Q2, S5, S6. fold (sumOf tickOf os) (sumOf callOf os). rewrite P6.
  split; [exact P1|]. split; [exact P2|]. split; [exact P3|]. split; [exact P5|]. split; [lia|]. split; [exact P7|].
  split; [exact P9|]. intros g G1 G2. apply (P10 g G1 G2). lia.
Qed.
Lemma mainOp_wfU os ts : Forall mainOp os -> reads os = map u_rd ts -> Forall turn_wf ts -> Forall event_wf (map (@EOp unit) os).
Proof.
  intros H1 H2 H3. assert (X : Forall (fun rd => op_wf (OpProcess rd)) (reads os)) by (rewrite H2; apply Forall_map; exact H3).
  clear -H1 X. induction H1 as [|o os M _ IH]; [constructor|]. cbn [map]. unfold reads in X. cbn [flat_map] in X. apply Forall_app in X. destruct X as [X1 X2].
  constructor; [|apply IH, X2]. destruct M; cbn; try exact Logic.I. inversion X1; assumption.
Qed.

(* ---- a button that nobody touches ---- *)
Definition Rel (k : N) (b : Btn) : Prop := b_cnt b = N.min k 100 /\ b_pressed b = (101 <=? k).
Lemma rel_ticks l : forall k b, Forall (fun h => h = false) l -> Rel k b -> Rel (k + N.of_nat (length l)) (armTicks l b).
Proof.
  induction l as [|h l IH]; intros k b HF HR; [cbn [length N.of_nat]; rewrite N.add_0_r; exact HR|].
  inversion HF as [|? ? -> HF']; subst. replace (k + N.of_nat (length (false :: l))) with (k + 1 + N.of_nat (length l)) by (cbn [length]; lia).
  unfold armTicks. cbn [fold_left]. apply IH; [exact HF'|]. destruct HR as [R1 R2]. unfold armTick, Rel, DEBOUNCE, u8.
  destruct (N.leb_spec 100 (b_cnt b)); cbn [b_cnt b_pressed].
  - split; [lia|]. symmetry. apply N.leb_le. lia.
  - rewrite N.mod_small by lia. split; [lia|]. rewrite R2. destruct (N.leb_spec 101 k), (N.leb_spec 101 (k + 1)); try reflexivity; lia.
Qed.
Lemma rel_loop : forall ps k b, Forall (fun p => Forall (fun h => h = false) (fst p) /\ snd p = []) ps -> Rel k b -> b_last b = b_pressed b ->
  b_starts (fold_left (pass armTick) ps b) =
  b_starts b + (if (101 <=? k + N.of_nat (length (flat_map fst ps))) && negb (101 <=? k) then 1 else 0).
Proof.
  induction ps as [|p ps IH]; intros k b HF HR HL.
  - cbn [fold_left flat_map length N.of_nat]. rewrite N.add_0_r. destruct (101 <=? k); cbn; lia.
  - inversion HF as [|? ? [F1 F2] F3]; subst. cbn [fold_left flat_map]. rewrite app_length.
    pose proof (rel_ticks (fst p) k b F1 HR) as R1. destruct (starts_armTicks (fst p) b) as [S1 S2].
    set (b1 := armTicks (fst p) b) in *.
    assert (EP : pass armTick b p = loopLatch (loopTest b1)) by (unfold pass; rewrite F2; reflexivity).
    assert (R2 : Rel (k + N.of_nat (length (fst p))) (pass armTick b p)).
    { rewrite EP. destruct R1 as [X Y]. unfold loopTest. destruct (_ && _); split; assumption. }
    rewrite (IH _ _ F3 R2) by (rewrite EP; reflexivity).
    assert (SP : b_starts (pass armTick b p) = b_starts b + (if (101 <=? k + N.of_nat (length (fst p))) && negb (101 <=? k) then 1 else 0)).
    { rewrite EP. cbn [loopLatch b_starts]. unfold loopTest. rewrite S2, HL. destruct R1 as [_ ->]. destruct HR as [_ ->].
      destruct (_ && _); cbn [b_starts]; rewrite S1; lia. }
    rewrite SP, Nat2N.inj_add, N.add_assoc.
    set (x := N.of_nat (length (fst p))). set (z := N.of_nat (length (flat_map fst ps))).
    destruct (N.leb_spec 101 k), (N.leb_spec 101 (k + x)), (N.leb_spec 101 (k + x + z)); cbn [andb negb]; lia.
Qed.
Lemma untouched_passes : forall ts carry, untouched ts -> unraced ts -> Forall (fun h => h = false) carry ->
  Forall (fun p => Forall (fun h => h = false) (fst p) /\ snd p = []) (armPasses carry ts).
Proof.
  induction ts as [|t ts IH]; intros carry HU HR HC; [constructor|]. inversion HU as [|? ? U1 U2]; inversion HR as [|? ? R1 R2]; subst. cbn [armPasses].
  unfold interrupts in U1. rewrite !Forall_app in U1. destruct U1 as (V1 & V2 & V3).
  constructor; [|apply IH; assumption]. cbn [fst snd]. rewrite Forall_app. auto.
Qed.
