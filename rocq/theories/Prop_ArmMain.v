(* Prop_ArmMain.v - property C83: the whole program of the ARM example *)
From Verif Require Import Spec_ArmMain Proof_ArmMain Proof_AvrMain Proof_MainLoop Prop_MainLoop Prop_Lamp FixtureReq.
From Coq Require Import Lia.

(* C83: the program always reaches its main loop *)
Theorem C83_starts : forall ps wr, exists y0, armStart ps wr = Some y0.
Proof. exact arm_start. Qed.
Print Assumptions C83_starts.

(* C83: whatever the interrupts do, the node gets one process call per turn, with the messages in the order of their arrival, and besides
   nothing but starts of the segment initialisation and 250 ms steps; all its states are reachable states of a node *)
Theorem C83_node :
  forall ps wr y0 ts, (forall x, ps x < 256) -> armStart ps wr = Some y0 -> Forall turn_wf ts ->
    let y := armMain ts y0 in
    reachable (a_node y) /\
    exists os, Forall mainOp os /\ reads os = map u_rd ts /\ a_node y = run (map EOp os) (powerUp ps tt wr).
Proof.
  intros ps wr y0 ts HP HS HW y. destruct (armMain_from_start ps wr y0 ts HS) as (os & v & k & P1 & P2 & P3 & _). split.
  - exists ps, tt, wr, (map EOp os). split; [exact HP|]. split; [exact (mainOp_wfU os ts P1 P2 HW)|exact P3].
  - exists os. auto.
Qed.
Print Assumptions C83_node.

(* C83: the framework is never told more time than has passed; if no turn of the main loop takes longer than g milliseconds, every 250 ms
   step is late by at most g - 1 milliseconds; with at least one turn per millisecond the framework's time is exact to the last period *)
Theorem C83_time :
  forall ps wr y0 ts, armStart ps wr = Some y0 -> let told := toldMs (history (a_node (armMain ts y0))) in
    told <= armMs ts /\ told mod 250 = 0 /\
    (forall g, 1 <= g -> armPaced g ts -> armMs ts < told + 250 + (g - 1) * (told / 250)) /\
    (armPaced 1 ts -> told = 250 * (armMs ts / 250)).
Proof.
  intros ps wr y0 ts HS told. destruct (armMain_from_start ps wr y0 ts HS) as (os & v & k & _ & _ & _ & P4 & P5 & _ & P8 & P9).
  unfold told. rewrite P5. split; [lia|]. split; [rewrite N.mul_comm, N.mod_mul; lia|]. split.
  - intros g HG HP. specialize (P9 g HG HP). rewrite (N.mul_comm 250 k), N.div_mul by lia. lia.
  - intros HP. specialize (P9 1 ltac:(lia) HP). f_equal. apply (N.div_unique (armMs ts) 250 k (250 - v)); lia.
Qed.
Print Assumptions C83_time.

(* C83: every 250 ms step brings the LED in line with the state of the node, and nothing else touches it *)
Theorem C83_lamp :
  forall ps wr y0 ts t, (forall x, ps x < 256) -> armStart ps wr = Some y0 -> Forall turn_wf (ts ++ [t]) ->
    let y := armMain ts y0 in let y' := armMain (ts ++ [t]) y0 in let s := w_st (a_node y') in
    let told := toldMs (history (a_node y)) in let told' := toldMs (history (a_node y')) in
    (told' <> told -> (exists led, a_led y' = lampStep (lampFor s) led) /\
       (isActive (a_node y') = true -> l_on (a_led y') = true) /\ (s = IDLE \/ s = RESET \/ s = ERROR -> l_on (a_led y') = false)) /\
    (told' = told -> a_led y' = a_led y).
Proof.
  intros ps wr y0 ts t HP HS HW y y' s told told'.
  destruct (C83_node ps wr y0 (ts ++ [t]) HP HS HW) as [HR _]. fold y' in HR.
  assert (EY : y' = armTurn y t) by (unfold y', y, armMain; rewrite fold_left_app; reflexivity).
  destruct (armStart_all ps wr y0 HS) as (S1 & _ & S3 & _).
  destruct (armMain_all ts 250 0 0 y0 [] btnInit S1 ltac:(lia) S3 ltac:(lia)) as (os & v & k & _ & _ & _ & P4 & _). cbv zeta in P4. fold y in P4.
  pose proof (armTurn_all _ y t [] (a_btn y) P4 eq_refl) as K. cbv zeta in K. rewrite <- EY in K.
  destruct K as (_ & (st & K2 & _) & _ & K4 & K5).
  assert (KT : told' = told + if v <=? N.of_nat (length (interrupts t)) then 250 else 0).
  { unfold told', told. rewrite K2, (proj1 (urun_counts _ _ (turnOps_main _ _ _))). f_equal. destruct st, (v <=? _); reflexivity. }
  destruct (v <=? _).
  - split; [|intros X; lia]. intros _. destruct (K4 eq_refl) as (led & EL).
    assert (LS : lampState (w_out (a_node y')) = lampFor s).
    { pose proof (C78_lamp unit armEnv (a_node y') HR) as X. unfold history in X. destruct (lamp_shown (w_out (a_node y'))) as [[Z _]|Z]; [congruence|].
      rewrite Z in X. injection X as X. exact X. }
    rewrite LS in EL. split; [eexists; exact EL|]. split.
    + intros A. unfold isActive in A. fold s in A. rewrite EL. destruct s; try discriminate A. reflexivity.
    + intros A. rewrite EL. destruct A as [-> | [-> | ->]]; reflexivity.
  - split; [intros X; lia|]. intros _. exact (K5 eq_refl).
Qed.
Print Assumptions C83_lamp.

(* C83: how often the segment initialisation is started is decided by the button alone. The test of the button is inverted (property C76): if
   nobody touches it and no interrupt falls between the two reads of the flag, the program starts the segment initialisation by itself, once, as
   soon as a turn of the main loop sees the end of the first 101 ms. *)
Theorem C83_button :
  forall ps wr y0 ts, armStart ps wr = Some y0 ->
    initCalls (history (a_node (armMain ts y0))) = b_starts (loop armTick (armPasses [] ts)) /\
    (untouched ts -> unraced ts -> initCalls (history (a_node (armMain ts y0))) = if 101 <=? armSeen ts then 1 else 0).
Proof.
  intros ps wr y0 ts HS. destruct (armMain_from_start ps wr y0 ts HS) as (os & v & k & _ & _ & _ & _ & _ & P6 & _).
  split; [symmetry; exact P6|]. intros HU HR. rewrite <- P6. unfold loop.
  rewrite (rel_loop _ 0 btnInit (untouched_passes ts [] HU HR (Forall_nil _))) by (repeat split).
  rewrite N.add_0_l. unfold armSeen. destruct (101 <=? _); reflexivity.
Qed.
Print Assumptions C83_button.

Definition armSys (n : N) : ArmSys :=
  mkArm (powerUp (exPs armCfg n) tt []) (swStart (swStart (swInit 2) 0 10 false) 1 250 false) btnInit (mkLed false 0).
Lemma armSys_start n : armStart (exPs armCfg n) [] = Some (armSys n).
Proof. unfold armStart. rewrite arm_init_ok. unfold armSys, powerUp. reflexivity. Qed.

(* C83, what is not true: that a node keeps the nickname it was given. A node with a stored nickname that nobody touches, on a bus without
   traffic, starts up, becomes active, and after 101 ms drops its nickname from the persistent memory. *)
Theorem C83_nickname_refuted :
  exists y0 ts, armStart (exPs armCfg 5) [] = Some y0 /\ Forall turn_wf ts /\ untouched ts /\ unraced ts /\ armPaced 1 ts /\ Forall (fun t => u_rd t = None) ts /\
    (let y := armMain (removelast ts) y0 in isActive (a_node y) = true /\ w_nick (a_node y) = 5) /\
    (let y := armMain ts y0 in isActive (a_node y) = false /\ w_nick (a_node y) = 255 /\ w_ps (a_node y) (ps_nick armCfg) = 255).
Proof.
  exists (armSys 5), (repeat (mkTurn None [false] [] []) 101). split; [apply armSys_start|].
  split; [|split; [|split; [|split; [|split; [|split]]]]]; try (apply Forall_forall; intros t Ht; apply repeat_spec in Ht; subst t; cbn; auto; lia).
  - vm_compute. split; reflexivity.
  - vm_compute. repeat split.
Qed.
Print Assumptions C83_nickname_refuted.

(* with the button held down the node keeps its nickname and stays active; after 250 ms the LED is lit *)
Example C83_example :
  let ts := repeat (mkTurn None [true] [] []) 250 in
  (forall x, exPs armCfg 5 x < 256) /\ armStart (exPs armCfg 5) [] = Some (armSys 5) /\ Forall turn_wf ts /\ armPaced 1 ts /\
  let y := armMain ts (armSys 5) in let before := armMain (removelast ts) (armSys 5) in
  (armMs ts, toldMs (history (a_node before)), toldMs (history (a_node y)), initCalls (history (a_node y)), w_st (a_node y), w_nick (a_node y),
   l_on (a_led before), l_on (a_led y)) = (250, 0, 250, 0, ACTIVE, 5, false, true).
Proof.
  cbv zeta. split. { intros x. unfold exPs. destruct (x =? ps_nick armCfg); [reflexivity|]. destruct (x =? ps_ctrl armCfg); reflexivity. }
  split; [apply armSys_start|]. split. { apply Forall_forall. intros t Ht. apply repeat_spec in Ht. subst t. exact Logic.I. }
  split. { apply Forall_forall. intros t Ht. apply repeat_spec in Ht. subst t. cbn. lia. }
  vm_compute. reflexivity.
Qed.
