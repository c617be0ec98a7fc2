(* Prop_AvrLed.v - property C82: the LED of the AVR example between the 250 ms steps *)
From Verif Require Import Spec_AvrMain Spec_HbRun Proof_AvrMain Proof_HbRun Proof_ExampleAvr Proof_AvrHb Prop_AvrMain FixtureReq.
From Coq Require Import Lia.

Lemma ledPin_after l : forall b, ledPin l b = ledAfter b (actions (rev l)).
Proof.
  induction l as [|o l IH]; intros b; [reflexivity|]. cbn [rev]. rewrite ledAfter_app, <- IH. destruct o; reflexivity.
Qed.
(* the LED has followed the actions, and nothing else *)
Definition follows (y y' : Sys) : Prop :=
  RC (y_node y) (y_node y') /\ l_on (y_led y') = ledAfter (l_on (y_led y)) (actions (effects (y_node y) (y_node y'))) /\ l_slow (y_led y') = l_slow (y_led y).
Lemma RC_split a b c : RC a b -> RC b c -> effects a c = effects a b ++ effects b c.
Proof.
  intros H1 H2. pose proof (RC_trans _ _ _ H1 H2) as H3. destruct (RC_effects _ _ H1) as [_ E1], (RC_effects _ _ H2) as [_ E2], (RC_effects _ _ H3) as [_ E3].
  rewrite E2, E1, <- app_assoc in E3. apply app_inv_head in E3. symmetry. exact E3.
Qed.
Lemma follows_trans a b c : follows a b -> follows b c -> follows a c.
Proof.
  intros (H1 & H2 & H3) (K1 & K2 & K3). split; [exact (RC_trans _ _ _ H1 K1)|]. split; [|congruence].
  rewrite (RC_split _ _ _ H1 K1), ledAfter_app, <- H2. exact K2.
Qed.
Lemma follows_same y y' : y_node y' = y_node y -> y_led y' = y_led y -> follows y y'.
Proof. intros H1 H2. unfold follows. rewrite H1, H2. split; [apply RC_refl|]. rewrite (effects_app _ _ [] eq_refl). split; reflexivity. Qed.
Lemma follows_call o y : mainOp o -> follows y (nodeCall o y).
Proof.
  intros M. pose proof (RC_step o (y_node y) M) as R. split; [exact R|]. split; [|reflexivity]. destruct R as (l & O & _).
  unfold nodeCall. cbn [y_led l_on y_node]. rewrite (effects_app _ _ l O). rewrite O at 1 2. rewrite app_length, Nat.add_sub, firstn_app, Nat.sub_diag, firstn_all, firstn_O, app_nil_r.
  apply ledPin_after.
Qed.
Lemma follows_isrs l : forall y, follows y (avrIsrs l y).
Proof.
  induction l as [|h l IH]; intros y; [apply follows_same; reflexivity|]. apply (follows_trans _ (avrIsr y h)); [|apply IH].
  unfold avrIsr. destruct (fst _); apply follows_same; reflexivity.
Qed.
Lemma follows_button y : follows y (avrButton y).
Proof.
  unfold avrButton. destruct (_ && _); [|apply follows_same; reflexivity]. apply (follows_trans _ (nodeCall (OpApi AStartInit) y)); [apply follows_call; constructor|].
  apply follows_same; reflexivity.
Qed.
Lemma told_mono y y' : follows y y' -> toldMs (history (y_node y)) <= toldMs (history (y_node y')).
Proof. intros (R & _). destruct (RC_effects _ _ R) as [_ E]. rewrite E, told_app. lia. Qed.

(* C82: between the 250 ms steps the LED shows what the last action of the node that switches it wants, and keeps its state if there is none; the
   blinking of the status lamp does not go on *)
Theorem C82_led :
  forall ts t y0, let y := avrMain ts y0 in let y' := avrMain (ts ++ [t]) y0 in
    toldMs (history (y_node y')) = toldMs (history (y_node y)) ->
    l_on (y_led y') = ledAfter (l_on (y_led y)) (actions (effects (y_node y) (y_node y'))) /\ l_slow (y_led y') = l_slow (y_led y).
Proof.
  intros ts t y0 y y' HT. assert (EY : y' = avrTurn y t) by (unfold y', y, avrMain; rewrite fold_left_app; reflexivity). rewrite EY in *. clear EY y'.
  enough (follows y (avrTurn y t)) as (_ & K) by exact K. unfold avrTurn in *.
  set (y5 := avrIsrs (u_i3 t) _) in *.
  assert (F5 : follows y y5).
  { unfold y5. eapply follows_trans; [|apply follows_isrs]. eapply follows_trans; [|apply follows_same; reflexivity]. eapply follows_trans; [|apply follows_isrs].
    eapply follows_trans; [|apply follows_button]. eapply follows_trans; [|apply follows_isrs]. apply follows_call. constructor. }
  clearbody y5. apply (follows_trans _ _ _ F5). pose proof (told_mono _ _ F5) as T5. unfold avrPeriod in *. destruct (fst (swGetStatus (y_sw y5) 1)); [|apply follows_same; reflexivity].
  exfalso. cbn [y_node nodeCall] in HT. pose proof (run_counts [OpTick 250] (y_node y5) ltac:(repeat constructor)) as [R _].
  change (run (map EOp [OpTick 250]) (y_node y5)) with (snd (step (OpTick 250) (y_node y5))) in R. rewrite R in HT. cbn in HT. lia.
Qed.
Print Assumptions C82_led.

(* with the rule of exDark: the LED is lit by the 250 ms step of the active node, and goes out with the action *)
Example C82_led_example :
  let quarter := exTurn (repeat false 2500) in let off := mkTurn (Some (exMsg 20 4 9 [0; 0; 0])) [] [] [] in
  let y := avrMain [quarter] exDark in let y' := avrMain ([quarter] ++ [off]) exDark in
  (toldMs (history (y_node y')) - toldMs (history (y_node y)), length (actions (effects (y_node y) (y_node y'))), l_on (y_led y), l_on (y_led y')) =
  (0, 1%nat, true, false).
Proof. vm_compute. reflexivity. Qed.
