(* Proof_AvrMain.v - proofs about the whole program of the AVR example *)
From Verif Require Import Spec_AvrMain Proof_ExampleAvr Proof_SwTimer.
From Verif Require Import Walk Proof_NGP Proof_Protect.
From Coq Require Import Lia.
Notation World := (World bool).
Notation rel := (@Traverse.rel bool _).

(* ---- neither process nor the initialisation tells the time or starts the segment initialisation ---- *)
Definition tame (o : Obs) : Prop := match o with OTick _ | OApi AStartInit => False | _ => True end.
Definition RT (w v : World) : Prop := exists l, w_out v = l ++ w_out w /\ Forall tame l.
Lemma RT_refl w : RT w w. Proof. exists []. auto. Qed.
Lemma RT_trans a b c : RT a b -> RT b c -> RT a c.
Proof. intros (l1 & O1 & F1) (l2 & O2 & F2). exists (l2 ++ l1). rewrite O2, O1, app_assoc, Forall_app. auto. Qed.
Lemma RT_same (w v : World) : w_out v = w_out w -> RT w v. Proof. intros H. exists []. auto. Qed.
Lemma RT_set f : neutral f -> forall w, RT w (f w). Proof. intros H w. apply RT_same, H. Qed.
Lemma RT_emit o : tame o -> rel RT (@emit bool o). Proof. intros H w. exists [o]. auto. Qed.
Lemma RT_walk o : walkObs o = true -> rel RT (@emit bool o).
Proof. intros H. apply RT_emit. destruct o; try exact Logic.I; discriminate H. Qed.
Lemma RT_upd g : (forall w, w_out (g w) = w_out w) -> rel RT (upd g). Proof. intros H w. apply RT_same, H. Qed.
Lemma RT_ps a x : rel RT (psWrite8 a x). Proof. intros w. exists [OPs a (u8 x)]. split; [reflexivity|repeat constructor]. Qed.
Lemma RT_tx f : rel RT (tp_writeMessage f).
Proof. intros w. destruct (tx_any f w) as (o & H1 & H2 & _). exists [o]. split; [exact H2|]. constructor; [|constructor]. destruct H1 as [->|[ok ->]]; exact Logic.I. Qed.
Ltac rt := repeat first [assumption | match goal with
  | |- rel _ (psWrite8 _ _) => apply RT_ps | |- rel _ (tp_writeMessage _) => apply RT_tx | |- rel _ (emit _) => apply RT_emit; exact Logic.I
  | |- rel _ (upd _) => apply RT_upd; intros; reflexivity | |- rel _ (get _) => apply rel_get, RT_refl | |- rel _ (ret _) => apply rel_ret, RT_refl
  | |- rel _ (bind _ _) => apply rel_bind; [exact RT_trans| |intros] | H : forall b, rel RT (?f b) |- rel _ (?f _) => apply H
  | |- rel _ (if ?b then _ else _) => destruct b | |- rel _ (match ?b with _ => _ end) => destruct b end
  | progress unfold writeNicknameId, ps_writeNicknameId, ps_readNicknameId, psRead8, sendProt, timer_start, timer_stop, timer_running, rxIsProt, rxd].
Lemma T_init b : rel RT (changeToStateInit b). Proof. unfold changeToStateInit. rt. Qed.
Lemma T_active : rel RT changeToStateActive. Proof. unfold changeToStateActive. rt. Qed.
Lemma T_idle : rel RT changeToStateIdle. Proof. unfold changeToStateIdle. rt. Qed.
Lemma T_reset t : rel RT (changeToStateReset t). Proof. unfold changeToStateReset. rt. Qed.
Lemma T_error : rel RT changeToStateError. Proof. unfold changeToStateError. rt. Qed.
Lemma T_stateInit : rel RT stateInit. Proof. unfold stateInit, changeToStatePreActive. assert (X := T_idle). assert (Y := T_active). rt. Qed.
Lemma T_statePre : rel RT statePreActive. Proof. unfold statePreActive. assert (X := T_init). assert (Y := T_active). rt. Qed.
Lemma T_restore : rel RT restoreFactory.
Proof. apply wk_restoreFactory; auto using RT_refl, RT_set, RT_walk, RT_ps, RT_tx; try exact RT_trans. rt. Qed.
Lemma T_body c : rel RT (apiBody c).
Proof. apply wk_apiBody; auto using RT_refl, RT_set, RT_walk, RT_ps, RT_tx, T_init, T_active, T_idle, T_reset, T_restore. exact RT_trans. Qed.
Lemma T_api c : c <> AStartInit -> rel RT (doApi c).
Proof.
  intros H. rewrite doApi_body. apply rel_bind; [exact RT_trans| |intros _; apply T_body]. apply RT_emit. destruct c; try exact Logic.I. congruence.
Qed.
Lemma T_forM l : Forall (fun c => c <> AStartInit) l -> rel RT (forM l doApi).
Proof. induction 1; cbn [forM]. apply rel_ret, RT_refl. apply rel_bind; [exact RT_trans|apply T_api; assumption|intros; assumption]. Qed.
Ltac kids := cbn [app_write app_action avrEnv]; unfold avrWrite, avrAction; repeat match goal with |- context [if ?b then _ else _] => destruct b end; cbn [fst snd]; repeat (constructor; [discriminate|]); constructor.
Lemma T_process rd : rel RT (process rd).
Proof.
  apply walk_process; auto using RT_refl, RT_set, RT_walk, RT_ps, RT_tx, T_init, T_active, T_idle, T_reset, T_restore; try exact RT_trans.
  - intros w _. apply T_statePre.
  - intros w _. apply T_stateInit.
  - intros p a. unfold appRead. rt.
  - intros p a x. unfold appWrite. apply rel_bind; [exact RT_trans|apply RT_emit; exact Logic.I|intros _].
    intros w. rewrite bind_get, bind_upd. match goal with |- RT w (snd (bind _ _ ?v)) => apply (RT_trans _ v); [apply RT_same; reflexivity|] end.
    match goal with |- RT ?v (snd (?m ?v)) => enough (rel RT m) by auto end. apply rel_bind; [exact RT_trans|apply T_forM|intros; apply rel_ret, RT_refl]. kids.
  - intros a p m. unfold actionExecute. apply rel_bind; [exact RT_trans|apply RT_emit; exact Logic.I|intros _].
    intros w. rewrite bind_get, bind_upd. match goal with |- RT w (snd (_ ?v)) => apply (RT_trans _ v); [apply RT_same; reflexivity|] end.
    match goal with |- RT ?v (snd (?m ?v)) => enough (rel RT m) by auto end. apply T_forM. kids.
  - intros m. unfold provideEvent. apply rel_bind; [exact RT_trans|apply RT_emit; exact Logic.I|intros _].
    intros w. rewrite bind_get, bind_upd. apply RT_same. reflexivity.
  - intros m. unfold provideProtocolEvent. apply rel_bind; [exact RT_trans|apply RT_emit; exact Logic.I|intros _].
    intros w. rewrite bind_get, bind_upd. apply RT_same. reflexivity.
  - unfold customHeartbeat. apply rel_bind; [exact RT_trans|apply RT_emit; exact Logic.I|intros _].
    intros w. rewrite bind_get, bind_upd. apply RT_same. reflexivity.
Qed.
Lemma T_core_init : rel RT core_init.
Proof.
  intros w. rewrite core_init_eq. assert (H1 : rel RT initTimers).
  { apply wk_initTimers; auto using RT_refl, RT_set, RT_walk. exact RT_trans. }
  assert (H2 : forall b, rel RT (initTail b)).
  { intros. apply wk_initTail; auto using RT_refl, RT_set, RT_walk, T_error, T_restore. exact RT_trans. }
  assert (H3 : rel RT initHead). { unfold initHead, tp_init, dm_init. rt. }
  eapply RT_trans; [apply H3|]. eapply RT_trans; [apply H1|]. apply H2.
Qed.

Lemma told_app a b : toldMs (a ++ b) = toldMs a + toldMs b.
Proof. induction a as [|o a IH]; [reflexivity|]. destruct o; cbn [app toldMs]; rewrite ?IH; lia. Qed.
Lemma calls_app a b : initCalls (a ++ b) = initCalls a + initCalls b.
Proof. induction a as [|o a IH]; [reflexivity|]. destruct o; cbn [app initCalls]; rewrite ?IH; try lia. destruct c; lia. Qed.
Lemma told_tame l : Forall tame l -> toldMs l = 0 /\ initCalls l = 0.
Proof. induction 1 as [|o l H _ [IH1 IH2]]; [auto|]. destruct o; cbn [toldMs initCalls]; auto; try destruct H. destruct c; auto; destruct H. Qed.
Lemma RT_counts w v : RT w v -> toldMs (history v) = toldMs (history w) /\ initCalls (history v) = initCalls (history w).
Proof.
  intros (l & O & F). unfold history. rewrite O, rev_app_distr, told_app, calls_app.
  apply Forall_rev in F. destruct (told_tame _ F) as [-> ->]. lia.
Qed.
Definition tickOf (o : Op) : N := match o with OpTick p => p | _ => 0 end.
Definition callOf (o : Op) : N := match o with OpApi AStartInit => 1 | _ => 0 end.
Lemma step_counts o w : mainOp o ->
  toldMs (history (snd (step o w))) = toldMs (history w) + tickOf o /\ initCalls (history (snd (step o w))) = initCalls (history w) + callOf o.
Proof.
  intros M. destruct M as [rd| |]; cbn [tickOf callOf].
  - rewrite !N.add_0_r. apply RT_counts. cbn [step].
    assert (X : rel RT (process rd ;; ret tt)) by (apply rel_bind; [exact RT_trans|apply T_process|intros; apply rel_ret, RT_refl]). apply X.
  - cbn [step]. rewrite doApi_body, bind_emit. set (w1 := set_out _ w).
    destruct (RT_counts _ _ (T_body AStartInit w1)) as [-> ->]. unfold history, w1. wsimp. cbn [rev]. rewrite told_app, calls_app. cbn. lia.
  - cbn [step]. rewrite bind_emit. unfold upd, history. cbn [snd]. wsimp. cbn [rev]. rewrite told_app, calls_app. cbn. lia.
Qed.
Lemma run_counts os : forall w, Forall mainOp os ->
  toldMs (history (run (map EOp os) w)) = toldMs (history w) + fold_right N.add 0 (map tickOf os) /\
  initCalls (history (run (map EOp os) w)) = initCalls (history w) + fold_right N.add 0 (map callOf os).
Proof.
  induction os as [|o os IH]; intros w H; [cbn; lia|]. inversion H as [|? ? H1 H2]; subst.
  change (run (map EOp (o :: os)) w) with (run (map EOp os) (snd (step o w))).
  destruct (IH (snd (step o w)) H2) as [-> ->]. destruct (step_counts o w H1) as [-> ->]. cbn [map fold_right]. lia.
Qed.

(* ---- interrupts ---- *)
Definition btnTicks (l : list bool) (b : Btn) : Btn := fold_left (fun s h => avrTick h s) l b.
Definition swAt1 (v : N) : SwT := mkSwT 250 false v.
(* n interrupts came; the 250 ms timer has v ms to go *)
Definition Tm (n v : N) (y : Sys) : Prop :=
  td_intr (y_drv y) = n mod 10 /\ td_cb (y_drv y) = true /\ nth_error (y_sw y) 1 = Some (swAt1 v).
Lemma div_step n : (n + 1) / 10 = n / 10 + (if (n + 1) mod 10 =? 0 then 1 else 0) /\
  (n + 1) mod 10 = if 10 <=? n mod 10 + 1 then 0 else n mod 10 + 1.
Proof.
  pose proof (N.div_mod n 10 ltac:(lia)) as D. pose proof (N.mod_lt n 10 ltac:(lia)) as L.
  set (q := n / 10) in *. set (r := n mod 10) in *. clearbody q r. subst n.
  destruct (N.leb_spec 10 (r + 1)) as [H|H].
  - replace (10 * q + r + 1) with (0 + (q + 1) * 10) by lia. rewrite N.div_add, N.mod_add by lia. rewrite N.div_small, N.mod_small by lia. cbn [N.eqb]. split; lia.
  - replace (10 * q + r + 1) with (r + 1 + q * 10) by lia. rewrite N.div_add, N.mod_add by lia. rewrite N.div_small, N.mod_small by lia.
    destruct (N.eqb_spec (r + 1) 0); split; lia.
Qed.
Lemma isrs_time : forall l n v y, Tm n v y ->
  let n' := n + N.of_nat (length l) in let y' := avrIsrs l y in
  Tm n' (v - (n' / 10 - n / 10)) y' /\ y_node y' = y_node y /\ y_led y' = y_led y /\ y_clk y' = y_clk y /\ y_btn y' = btnTicks (sampled n l) (y_btn y).
Proof.
  induction l as [|h l IH]; intros n v y (H1 & H2 & H3); cbv zeta.
  - cbn [length N.of_nat avrIsrs fold_left sampled btnTicks]. rewrite N.add_0_r, N.sub_diag, N.sub_0_r. repeat split; assumption.
  - destruct (div_step n) as [D M]. pose proof (N.mod_lt n 10 ltac:(lia)) as L.
    assert (K : Tm (n + 1) (v - ((n + 1) / 10 - n / 10)) (avrIsr y h) /\ y_node (avrIsr y h) = y_node y /\ y_led (avrIsr y h) = y_led y /\
      y_clk (avrIsr y h) = y_clk y /\ y_btn (avrIsr y h) = btnTicks (if (n + 1) mod 10 =? 0 then [h] else []) (y_btn y)).
    { rewrite D. unfold Tm, avrIsr, drvIsr. rewrite H1, H2, M. unfold u8. rewrite (N.mod_small (n mod 10 + 1)) by lia. unfold THRESHOLD.
      destruct (N.leb_spec 10 (n mod 10 + 1)) as [G|G]; cbn [fst snd y_drv y_sw y_node y_led y_clk y_btn td_intr td_cb N.eqb].
      - repeat split. unfold swProcess. rewrite nth_error_map, H3. cbn [option_map swAt1 s_start s_manual s_val].
        assert (X : n / 10 + 1 - n / 10 = 1) by lia. rewrite X. unfold swAt1. do 2 f_equal. destruct (N.ltb_spec 0 v) as [V|V]; [reflexivity|]. cbn [s_val]. lia.
      - destruct (N.eqb_spec (n mod 10 + 1) 0); [lia|]. repeat split. rewrite H3. assert (X : n / 10 + 0 - n / 10 = 0) by lia. rewrite X, N.sub_0_r. reflexivity. }
    destruct K as (K1 & K2 & K3 & K4 & K5). destruct (IH _ _ _ K1) as (I1 & I2 & I3 & I4 & I5).
    change (avrIsrs (h :: l) y) with (avrIsrs l (avrIsr y h)).
    replace (n + N.of_nat (length (h :: l))) with (n + 1 + N.of_nat (length l)) by (cbn [length]; lia).
    split; [|split; [congruence|split; [congruence|split; [congruence|]]]].
    + assert (X : n / 10 <= (n + 1) / 10 <= (n + 1 + N.of_nat (length l)) / 10) by (split; apply N.div_le_mono; lia).
      replace (v - ((n + 1 + N.of_nat (length l)) / 10 - n / 10)) with (v - ((n + 1) / 10 - n / 10) - ((n + 1 + N.of_nat (length l)) / 10 - (n + 1) / 10)) by lia. exact I1.
    + rewrite I5, K5. cbn [sampled]. unfold btnTicks. rewrite fold_left_app. reflexivity.
Qed.
Lemma starts_ticks l : forall b, b_starts (btnTicks l b) = b_starts b /\ b_last (btnTicks l b) = b_last b.
Proof.
  induction l as [|h l IH]; intros b; [auto|]. unfold btnTicks in *. cbn [fold_left]. destruct (IH (avrTick h b)) as [-> ->].
  unfold avrTick. destruct (negb h); [auto|]. destruct (DEBOUNCE <=? b_cnt b); auto.
Qed.

(* ---- one turn ---- *)
Definition turnOps (t : Turn) (st fired : bool) : list Op :=
  OpProcess (u_rd t) :: (if st then [OpApi AStartInit] else []) ++ (if fired then [OpTick 250] else []).
Lemma Tm_node n v y o : Tm n v y -> Tm n v (nodeCall o y). Proof. exact (fun H => H). Qed.
Lemma turn_all n v y t carry b : Tm n v y -> y_btn y = btnTicks carry b ->
  let n' := n + N.of_nat (length (interrupts t)) in let d := n' / 10 - n / 10 in let fired := v <=? d in let y' := avrTurn y t in
  let b' := pass avrTick b (turnPass n carry t) in
  Tm n' (if fired then 250 else v - d) y' /\
  (exists st, y_node y' = run (map EOp (turnOps t st fired)) (y_node y) /\ b_starts b' = b_starts b + (if st then 1 else 0)) /\
  y_clk y' = (if fired then timeProcess 250 (y_clk y) else y_clk y) /\
  y_btn y' = btnTicks (turnCarry n t) b' /\
  (fired = true -> exists k led, y_led y' = lampStep (lampState (w_out (y_node y'))) (mkLed led k)).
Proof.
  intros HT HB. cbv zeta. unfold avrTurn.
  set (ya := nodeCall (OpProcess (u_rd t)) y). assert (Ta : Tm n v ya) by exact HT.
  destruct (isrs_time (u_i1 t) n v ya Ta) as (T1 & N1 & L1 & C1 & B1). set (n1 := n + N.of_nat (length (u_i1 t))) in *.
  set (y1 := avrIsrs (u_i1 t) ya) in *. clearbody y1.
  set (y2 := avrButton y1). set (st := b_pressed (y_btn y1) && negb (b_last (y_btn y1))).
  assert (T2 : Tm n1 (v - (n1 / 10 - n / 10)) y2).
  { unfold y2, avrButton. destruct (_ && _); exact T1. }
  assert (N2 : y_node y2 = run (map EOp (if st then [OpApi AStartInit] else [])) (y_node y1)).
  { unfold y2, avrButton. fold st. destruct st; reflexivity. }
  assert (B2 : y_btn y2 = loopTest (y_btn y1)) by reflexivity.
  assert (C2 : y_clk y2 = y_clk y1) by (unfold y2, avrButton; destruct (_ && _); reflexivity).
  assert (BS : b_starts (y_btn y2) = b_starts (y_btn y1) + (if st then 1 else 0)).
  { rewrite B2. unfold loopTest. fold st. destruct st; cbn [b_starts]; lia. }
  clearbody y2. destruct (isrs_time (u_i2 t) n1 _ y2 T2) as (T3 & N3 & L3 & C3 & B3). set (n2 := n1 + N.of_nat (length (u_i2 t))) in *.
  set (y3 := avrIsrs (u_i2 t) y2) in *. clearbody y3.
  assert (T4 : Tm n2 (v - (n1 / 10 - n / 10) - (n2 / 10 - n1 / 10)) (avrLatch y3)) by exact T3.
  destruct (isrs_time (u_i3 t) n2 _ (avrLatch y3) T4) as (T5 & N5 & L5 & C5 & B5). set (n3 := n2 + N.of_nat (length (u_i3 t))) in *.
  set (y5 := avrIsrs (u_i3 t) (avrLatch y3)) in *. clearbody y5.
  assert (En : n + N.of_nat (length (interrupts t)) = n3).
  { unfold interrupts, n3, n2, n1. rewrite !app_length. lia. }
  rewrite En. assert (M : n / 10 <= n1 / 10 <= n2 / 10 /\ n2 / 10 <= n3 / 10) by (repeat split; apply N.div_le_mono; unfold n1, n2, n3; lia).
  replace (v - (n1 / 10 - n / 10) - (n2 / 10 - n1 / 10) - (n3 / 10 - n2 / 10)) with (v - (n3 / 10 - n / 10)) in T5 by lia.
  set (d := n3 / 10 - n / 10) in *. clearbody d.
  cbn [avrLatch y_node y_led y_clk y_btn] in N5, L5, C5, B5.
  assert (SB : pass avrTick b (turnPass n carry t) = loopLatch (y_btn y3)).
  { unfold pass, turnPass. cbn [fst snd]. f_equal. rewrite B3. unfold btnTicks. fold n1. f_equal. rewrite B2. f_equal. rewrite B1.
    change (y_btn ya) with (y_btn y). rewrite HB. unfold btnTicks. rewrite fold_left_app. reflexivity. }
  assert (SS : b_starts (pass avrTick b (turnPass n carry t)) = b_starts b + (if st then 1 else 0)).
  { rewrite SB. cbn [loopLatch b_starts]. rewrite B3. rewrite (proj1 (starts_ticks _ _)), BS, B1, (proj1 (starts_ticks _ _)).
    change (y_btn ya) with (y_btn y). rewrite HB, (proj1 (starts_ticks _ _)). reflexivity. }
  assert (ND : y_node y5 = run (map EOp (OpProcess (u_rd t) :: (if st then [OpApi AStartInit] else []))) (y_node y)).
  { rewrite N5, N3, N2, N1. reflexivity. }
  assert (BT : y_btn y5 = btnTicks (turnCarry n t) (pass avrTick b (turnPass n carry t))).
  { rewrite SB, B5. reflexivity. }
  assert (CL : y_clk y5 = y_clk y) by (rewrite C5, C3, C2, C1; reflexivity).
  destruct T5 as (D1 & D2 & D3).
  assert (SG : swGetStatus (y_sw y5) 1 = if v <=? d then (true, swAt (y_sw y5) 1 (fun t => mkSwT (s_start t) (s_manual t) (s_start t))) else (false, y_sw y5)).
  { unfold swGetStatus. change (N.to_nat 1) with 1%nat. rewrite D3. cbn [swAt1 s_val s_manual s_start].
    destruct (N.leb_spec v d), (N.eqb_spec (v - d) 0); try lia; reflexivity. }
  unfold avrPeriod. rewrite SG. destruct (N.leb_spec v d) as [F|F]; cbn [fst snd].
  - split; [|split; [|split; [|split]]].
    + repeat split; try assumption. cbn [y_sw nodeCall]. exact (swAt_same _ 1 _ _ D3).
    + exists st. split; [|exact SS]. unfold turnOps. rewrite app_comm_cons, map_app. unfold run. rewrite fold_left_app. fold (run (A := bool)).
      change (fold_left (fun w e => stepE e w) (map EOp (OpProcess (u_rd t) :: (if st then [OpApi AStartInit] else []))) (y_node y)) with
        (run (map EOp (OpProcess (u_rd t) :: (if st then [OpApi AStartInit] else []))) (y_node y)). rewrite <- ND. reflexivity.
    + cbn [y_clk nodeCall]. rewrite CL. reflexivity.
    + exact BT.
    + intros _. eexists _, _. reflexivity.
  - split; [|split; [|split; [|split]]].
    + repeat split; try assumption.
    + exists st. split; [|exact SS]. unfold turnOps. rewrite app_nil_r. exact ND.
    + exact CL.
    + exact BT.
    + discriminate.
Qed.

Lemma iter_add {X} (f : X -> X) a b x : times f (a + b) x = times f b (times f a x).
Proof. unfold times. rewrite N.add_comm. apply N.iter_add. Qed.
Lemma turnOps_main t st fired : Forall mainOp (turnOps t st fired).
Proof. unfold turnOps. constructor; [constructor|]. destruct st, fired; repeat constructor. Qed.
Lemma turnOps_reads t st fired : reads (turnOps t st fired) = [u_rd t].
Proof. destruct st, fired; reflexivity. Qed.
Definition sumOf (f : Op -> N) (os : list Op) : N := fold_right N.add 0 (map f os).
Lemma sumOf_app f a b : sumOf f (a ++ b) = sumOf f a + sumOf f b.
Proof. unfold sumOf. rewrite map_app. induction (map f a) as [|x l IH]; cbn [app fold_right]; lia. Qed.
Lemma run_app {A} {E : Env A} a b w : run (a ++ b) w = run b (run a w). Proof. unfold run. apply fold_left_app. Qed.

Lemma main_all : forall ts n v k0 y carry b, Tm n v y -> 1 <= v <= 250 -> y_btn y = btnTicks carry b -> 250 * k0 + (250 - v) <= n / 10 ->
  let n' := n + overflowsIn ts in let y' := avrMain ts y in
  exists os v' k, Forall mainOp os /\ reads os = map u_rd ts /\ y_node y' = run (map EOp os) (y_node y) /\ Tm n' v' y' /\ 1 <= v' <= 250 /\
    sumOf tickOf os = 250 * k /\ b_starts (fold_left (pass avrTick) (passesOf n carry ts) b) = b_starts b + sumOf callOf os /\
    y_clk y' = times (timeProcess 250) k (y_clk y) /\ 250 * (k0 + k) + (250 - v') <= n' / 10 /\
    (forall g, 1 <= g -> paced g n ts -> n / 10 <= 250 * k0 + (250 - v) + (g - 1) * k0 -> n' / 10 <= 250 * (k0 + k) + (250 - v') + (g - 1) * (k0 + k)).
Proof.
  induction ts as [|t ts IH]; intros n v k0 y carry b HT HV HB HU; cbv zeta.
  - exists [], v, 0. unfold overflowsIn. cbn [flat_map length N.of_nat]. rewrite !N.add_0_r. cbn. repeat split; auto; try apply HT; try lia.
  - pose proof (turn_all n v y t carry b HT HB) as H. cbv zeta in H. set (n1 := n + N.of_nat (length (interrupts t))) in *.
    destruct H as (T1 & (st & N1 & S1) & C1 & B1 & _).
    assert (M1 : n / 10 <= n1 / 10) by (apply N.div_le_mono; unfold n1; lia).
    set (d := n1 / 10 - n / 10) in *. assert (D1 : n1 / 10 = n / 10 + d) by (unfold d; lia).
    set (v1 := if v <=? d then 250 else v - d) in *. set (k1 := if v <=? d then 1 else 0).
    assert (V1 : 1 <= v1 <= 250) by (unfold v1; destruct (N.leb_spec v d); lia).
    assert (U1 : 250 * (k0 + k1) + (250 - v1) <= n1 / 10) by (unfold k1, v1; destruct (N.leb_spec v d); lia).
    destruct (IH n1 v1 (k0 + k1) (avrTurn y t) (turnCarry n t) _ T1 V1 B1 U1) as (os & v' & k & P1 & P2 & P3 & P4 & P5 & P6 & P7 & P8 & P9 & P10).
    replace (n1 + overflowsIn ts) with (n + overflowsIn (t :: ts)) in * by (unfold overflowsIn, n1; cbn [flat_map]; rewrite app_length; lia).
    change (avrMain ts (avrTurn y t)) with (avrMain (t :: ts) y) in *.
    exists (turnOps t st (v <=? d) ++ os), v', (k1 + k).
    split; [apply Forall_app; split; [apply turnOps_main|exact P1]|].
    split. { unfold reads in *. rewrite flat_map_app, P2. fold (reads (turnOps t st (v <=? d))). rewrite turnOps_reads. reflexivity. }
    split. { rewrite map_app, run_app, <- N1. exact P3. }
    split; [exact P4|]. split; [exact P5|].
    split. { assert (X : sumOf tickOf (turnOps t st (v <=? d)) = 250 * k1) by (unfold k1; destruct st, (v <=? d); reflexivity). rewrite sumOf_app, P6, X. lia. }
    split. { cbn [passesOf fold_left]. fold n1. rewrite P7, S1, sumOf_app.
      assert (X : sumOf callOf (turnOps t st (v <=? d)) = if st then 1 else 0) by (destruct st, (v <=? d); reflexivity). rewrite X. lia. }
    split. { rewrite P8, C1, iter_add. unfold k1. destruct (v <=? d); reflexivity. }
    split. { rewrite N.add_assoc. exact P9. }
    intros g G1 [G2 G3] G4. rewrite N.add_assoc. apply P10; [exact G1|exact G3|]. fold n1 in G2. rewrite D1 in G2 |- *.
    unfold k1, v1. destruct (N.leb_spec v d); nia.
Qed.

(* ---- the start ---- *)
Lemma avr_timers w : w_tm w = timerInit 5 -> fst (initTimers w) = true.
Proof.
  intros H. unfold initTimers, createTimer, timer_start, bind, get, upd, ret. cbn [fst snd]. wsimp. rewrite H. vm_compute. reflexivity.
Qed.
Lemma tail_result {A} {E : Env A} b (w : World.World A) : fst (initTail b w) = b.
Proof. unfold initTail, bind, ret. cbn [fst snd]. reflexivity. Qed.
Lemma head_timers {A} {E : Env A} (w : World.World A) : w_tm (snd (initHead w)) = timerInit (c_timers cfg).
Proof.
  unfold initHead, tp_init, dm_init, ps_readNicknameId, psRead8, emit. rewrite ?bind_upd, ?bind_get.
  destruct (c_dm cfg), (c_loop cfg), (c_dm_paged cfg); unfold bind, get, upd, ret; cbn [fst snd]; wsimp; reflexivity.
Qed.
Lemma avr_init_ok w : fst (core_init w) = true.
Proof. rewrite core_init_eq, tail_result. apply avr_timers. rewrite head_timers. reflexivity. Qed.
Lemma avr_start ps wr : exists y0, avrStart ps wr = Some y0.
Proof. unfold avrStart. rewrite avr_init_ok. eexists. reflexivity. Qed.
Lemma start_all ps wr y0 : avrStart ps wr = Some y0 ->
  Tm 0 250 y0 /\ y_node y0 = powerUp ps false wr /\ y_btn y0 = btnTicks [] btnInit /\ y_clk y0 = timeInit /\
  toldMs (history (y_node y0)) = 0 /\ initCalls (history (y_node y0)) = 0.
Proof.
  unfold avrStart, powerUp.
  destruct (RT_counts _ _ (T_core_init (boot ps false wr [] false false))) as [X Y].
  assert (Z := avr_init_ok (boot ps false wr [] false false)). revert X Y Z.
  generalize (core_init (boot ps false wr [] false false)). intros r X Y Z. rewrite Z. intros H. injection H as <-.
  cbn [y_node y_btn y_clk]. split; [repeat split|]. split; [reflexivity|]. split; [reflexivity|]. split; [reflexivity|].
  split; [rewrite X; reflexivity|rewrite Y; reflexivity].
Qed.
Lemma main_from_start ps wr y0 ts : avrStart ps wr = Some y0 -> let y := avrMain ts y0 in
  exists os v k, Forall mainOp os /\ reads os = map u_rd ts /\ y_node y = run (map EOp os) (powerUp ps false wr) /\ 1 <= v <= 250 /\
    toldMs (history (y_node y)) = 250 * k /\ b_starts (loop avrTick (passesOf 0 [] ts)) = initCalls (history (y_node y)) /\
    y_clk y = times (timeProcess 250) k timeInit /\ 250 * k + (250 - v) <= msIn ts /\
    (forall g, 1 <= g -> paced g 0 ts -> msIn ts <= 250 * k + (250 - v) + (g - 1) * k).
Proof.
  intros H. cbv zeta. destruct (start_all ps wr y0 H) as (S1 & S2 & S3 & S4 & S5 & S6).
  destruct (main_all ts 0 250 0 y0 [] btnInit S1 ltac:(lia) S3 ltac:(cbn; lia)) as (os & v & k & P1 & P2 & P3 & P4 & P5 & P6 & P7 & P8 & P9 & P10).
  exists os, v, k. destruct (run_counts os (y_node y0) P1) as [Q1 Q2]. rewrite <- P3 in Q1, Q2.
  rewrite <- S2. rewrite S4 in P8. rewrite !N.add_0_l in *. rewrite Q1, Q2, S5, S6. fold (sumOf tickOf os) (sumOf callOf os). rewrite P6.
  split; [exact P1|]. split; [exact P2|]. split; [exact P3|]. split; [exact P5|]. split; [lia|]. split; [exact P7|].
  split; [exact P8|]. split; [exact P9|].
  intros g G1 G2. specialize (P10 g G1 G2). apply P10. cbn. lia.
Qed.
Lemma mainOp_wf os ts : Forall mainOp os -> reads os = map u_rd ts -> Forall turn_wf ts -> Forall event_wf (map (@EOp bool) os).
Proof.
  intros H1 H2 H3. assert (X : Forall (fun rd => op_wf (OpProcess rd)) (reads os)) by (rewrite H2; apply Forall_map; exact H3).
  clear -H1 X. induction H1 as [|o os M _ IH]; [constructor|]. cbn [map]. unfold reads in X. cbn [flat_map] in X. apply Forall_app in X. destruct X as [X1 X2].
  constructor; [|apply IH, X2]. destruct M; cbn; try exact Logic.I. inversion X1; assumption.
Qed.
Lemma lamp_shown l : shown (rev l) = None /\ lampState l = LampOff \/ shown (rev l) = Some (lampState l).
Proof.
  induction l as [|o l IH]; [auto|]. cbn [rev]. unfold shown in *. rewrite fold_left_app. cbn [fold_left lampState]. destruct o; auto.
Qed.

(* ---- drift ---- *)
Definition turn3 : Turn := mkTurn None (repeat false 30) [] [].
Lemma ten_div q : 10 * q / 10 = q. Proof. rewrite N.mul_comm. apply N.div_mul. lia. Qed.
Lemma drift_turn q v y : Tm (10 * q) v y ->
  Tm (10 * (q + 3)) (if v <=? 3 then 250 else v - 3) (avrTurn y turn3) /\
  toldMs (history (y_node (avrTurn y turn3))) = toldMs (history (y_node y)) + (if v <=? 3 then 250 else 0).
Proof.
  intros H. pose proof (turn_all _ _ _ turn3 [] (y_btn y) H eq_refl) as K. cbv zeta in K.
  replace (10 * q + N.of_nat (length (interrupts turn3))) with (10 * (q + 3)) in K by (change (N.of_nat (length (interrupts turn3))) with 30; lia).
  rewrite !ten_div in K. replace (q + 3 - q) with 3 in K by lia. destruct K as (K1 & (st & K2 & _) & _). split; [exact K1|].
  rewrite K2. rewrite (proj1 (run_counts _ _ (turnOps_main _ _ _))). f_equal. destruct st, (v <=? 3); reflexivity.
Qed.
Lemma drift_some : forall i q y, N.of_nat i <= 83 -> Tm (10 * q) 250 y ->
  let y' := avrMain (repeat turn3 i) y in
  Tm (10 * (q + 3 * N.of_nat i)) (250 - 3 * N.of_nat i) y' /\ toldMs (history (y_node y')) = toldMs (history (y_node y)).
Proof.
  induction i as [|i IH]; intros q y Hi H; cbv zeta.
  - cbn [repeat avrMain fold_left N.of_nat]. rewrite N.add_0_r. auto.
  - change (repeat turn3 (S i)) with (turn3 :: repeat turn3 i). rewrite (repeat_cons i turn3). unfold avrMain. rewrite fold_left_app. cbn [fold_left]. fold (avrMain (repeat turn3 i) y).
    destruct (IH q y ltac:(lia) H) as [K1 K2]. cbv zeta in *. destruct (drift_turn _ _ _ K1) as [L1 L2].
    destruct (N.leb_spec (250 - 3 * N.of_nat i) 3); [lia|].
    replace (q + 3 * N.of_nat (S i)) with (q + 3 * N.of_nat i + 3) by lia. replace (250 - 3 * N.of_nat (S i)) with (250 - 3 * N.of_nat i - 3) by lia.
    split; [exact L1|]. rewrite L2, K2. lia.
Qed.
Lemma main_app a b y : avrMain (a ++ b) y = avrMain b (avrMain a y). Proof. unfold avrMain. apply fold_left_app. Qed.
Lemma main_one n t y : avrMain (repeat t (S n)) y = avrMain (repeat t n) (avrTurn y t). Proof. reflexivity. Qed.
Lemma drift_blocks : forall j q y, Tm (10 * q) 250 y ->
  let y' := avrMain (repeat turn3 (84 * j)) y in
  Tm (10 * (q + 252 * N.of_nat j)) 250 y' /\ toldMs (history (y_node y')) = toldMs (history (y_node y)) + 250 * N.of_nat j.
Proof.
  induction j as [|j IH]; intros q y H; cbv zeta.
  - cbn [Nat.mul repeat avrMain fold_left N.of_nat]. rewrite !N.add_0_r. auto.
  - assert (X : exists m, N.of_nat m = 83) by (exists 83%nat; reflexivity). destruct X as [m Hm].
    replace (84 * S j)%nat with (m + S (84 * j))%nat by lia. rewrite repeat_app, main_app.
    destruct (drift_some m q y ltac:(lia) H) as [K1 K2]. cbv zeta in *.
    set (y1 := avrMain (repeat turn3 m) y) in *. clearbody y1.
    rewrite main_one.
    destruct (drift_turn _ _ _ K1) as [L1 L2]. set (y2 := avrTurn y1 turn3) in *. clearbody y2.
    destruct (N.leb_spec (250 - 3 * N.of_nat m) 3); [|lia].
    destruct (IH _ y2 L1) as [M1 M2]. cbv zeta in *.
    replace (q + 252 * N.of_nat (S j)) with (q + 3 * N.of_nat m + 3 + 252 * N.of_nat j) by lia.
    split; [exact M1|]. rewrite M2, L2, K2. lia.
Qed.
Lemma drift_paced : forall i q, paced 3 (10 * q) (repeat turn3 i).
Proof.
  induction i as [|i IH]; intros q; [exact Logic.I|]. cbn [repeat paced]. cbv zeta.
  replace (10 * q + N.of_nat (length (interrupts turn3))) with (10 * (q + 3)) by (change (N.of_nat (length (interrupts turn3))) with 30; lia).
  rewrite !ten_div. split; [lia|apply IH].
Qed.
Lemma drift_ms i : msIn (repeat turn3 i) = 3 * N.of_nat i.
Proof.
  unfold msIn. assert (X : overflowsIn (repeat turn3 i) = 10 * (3 * N.of_nat i)).
  { induction i as [|i IH]; [reflexivity|]. unfold overflowsIn in *. cbn [repeat flat_map]. rewrite app_length, Nat2N.inj_add, IH.
    change (N.of_nat (length (interrupts turn3))) with 30. lia. }
  rewrite X. apply ten_div.
Qed.
