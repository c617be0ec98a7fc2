(* Proof_Lamp.v - lemmas for the status lamp (property C78) *)
From Verif Require Export Spec_Lamp Walk Proof_Heartbeat.

Section Lamp.
Context {A : Type} {E : Env A}.
Implicit Types w v : World A.
Notation World := (World A).

Fixpoint lastLamp (l : list Obs) : option Lamp := match l with [] => None | OLamp x :: _ => Some x | _ :: r => lastLamp r end.
Lemma shown_rev l : shown (rev l) = lastLamp l.
Proof. unfold shown. induction l as [|o l IH]; [reflexivity|]. cbn [rev]. rewrite fold_left_app. cbn [fold_left]. rewrite IH. destruct o; reflexivity. Qed.
Definition ok w : Prop := lastLamp (w_out w) = Some (lampFor (w_st w)).
Definition RL w v : Prop := ok w -> ok v.
(* steps that neither change the node's state nor the lamp *)
Definition RS w v : Prop := w_st v = w_st w /\ lastLamp (w_out v) = lastLamp (w_out w).
Lemma RS_refl w : RS w w. Proof. split; reflexivity. Qed.
Lemma RS_trans a b c : RS a b -> RS b c -> RS a c. Proof. intros [H1 H2] [K1 K2]. split; congruence. Qed.
Lemma RL_refl w : RL w w. Proof. exact (fun H => H). Qed.
Lemma RL_trans a b c : RL a b -> RL b c -> RL a c. Proof. unfold RL. auto. Qed.
Lemma RS_RL w v : RS w v -> RL w v. Proof. intros [H1 H2] H. unfold ok in *. congruence. Qed.
Lemma RS_set f : neutral f -> forall w, RS w (f w).
Proof. intros H w. destruct (H w) as (H1 & _ & H3 & _). split; congruence. Qed.
Definition notLamp (o : Obs) : Prop := match o with OLamp _ => False | _ => True end.
Lemma RS_emit o : notLamp o -> rel RS (@emit A o).
Proof. intros H w. split; [reflexivity|]. unfold emit, upd. cbn [snd]. wsimp. destruct o; try reflexivity. destruct H. Qed.
Lemma RS_walk o : walkObs o = true -> rel RS (@emit A o).
Proof. intros H. apply RS_emit. destruct o; try exact Logic.I. discriminate H. Qed.
Lemma RS_ps a x : rel RS (psWrite8 a x). Proof. intros w. split; reflexivity. Qed.
Lemma RS_tx m : rel RS (tp_writeMessage m).
Proof. intros w. destruct (tx_any m w) as (o & OO & HO & (K & _)). split; [unfold visible in K; congruence|]. rewrite HO. destruct OO as [->|[b ->]]; reflexivity. Qed.
Lemma RS_nick x : rel RS (writeNicknameId x). Proof. apply wk_writeNicknameId; auto using RS_refl, RS_set, RS_ps. exact RS_trans. Qed.
Lemma RS_sp t p d : rel RS (sendProt t p d). Proof. unfold sendProt. intros w. apply (RS_tx _ w). Qed.
Lemma RS_ts id x : rel RS (timer_start id x). Proof. intros w. split; reflexivity. Qed.
Lemma RS_tp id : rel RS (timer_stop id). Proof. intros w. split; reflexivity. Qed.
(* a change of state gives the right order *)
Lemma change (l : Lamp) s (m : M A unit) : l = lampFor s -> rel RS m -> rel RL (emit (OLamp l) ;; upd (set_st s) ;; m).
Proof. intros -> H w _. rewrite bind_emit, bind_upd. destruct (H (set_st s (set_out (OLamp (lampFor s) :: w_out w) w))) as [H1 H2]. unfold ok. rewrite H1, H2. reflexivity. Qed.
Lemma guarded s (m : M A unit) : rel RL m -> rel RL (s' <- get w_st ;; when negb (state_eqb s' s) do m).
Proof. intros H w. rewrite bind_get. destruct (negb _); [apply H|apply RL_refl]. Qed.
Ltac rs := repeat first [solve [auto using RS_nick, RS_sp, RS_ts, RS_tp, RS_refl] | apply RS_emit; exact Logic.I | apply rel_bind; [exact RS_trans| |intros] | apply rel_get, RS_refl | apply rel_ret, RS_refl
  | apply rel_upd; intros; split; reflexivity | match goal with |- rel _ (if ?b then _ else _) => destruct b end ].
Lemma L_init b : rel RL (changeToStateInit b). Proof. apply guarded, change; [reflexivity|]. rs. Qed.
Lemma L_active : rel RL changeToStateActive. Proof. apply guarded, change; [reflexivity|]. rs. Qed.
Lemma L_idle : rel RL changeToStateIdle. Proof. apply guarded, change; [reflexivity|]. rs. Qed.
Lemma L_reset t : rel RL (changeToStateReset t). Proof. apply guarded, change; [reflexivity|]. rs. Qed.
Lemma L_error : rel RL changeToStateError. Proof. apply guarded, change; [reflexivity|]. rs. Qed.

Lemma L_then {T U} (m : M A T) (k : T -> M A U) s w : rel RS m -> w_st w = s -> (forall r v, w_st v = s -> RL v (snd (k r v))) -> RL w (snd (bind m k w)).
Proof. intros H HS K. unfold bind. destruct (m w) as [r v] eqn:EQ. assert (HW := H w). rewrite EQ in HW. cbn [snd] in HW.
  apply (RL_trans _ v); [apply RS_RL, HW|]. apply (K r v). destruct HW as [HW _]. rewrite HW. exact HS. Qed.
Lemma L_stateInit w : w_st w = INIT -> RL w (snd (stateInit w)).
Proof.
  intros S. unfold stateInit. rewrite !bind_get. destruct (w_ist w).
  - eapply L_then; [apply RS_sp|exact S|]. intros [] v SV; [|apply RL_refl]. apply RS_RL.
    match goal with |- RS _ (snd (?m v)) => enough (rel RS m) by auto end. rs.
  - unfold timer_running. rewrite bind_get. destruct (negb _); [apply RS_RL|].
    { match goal with |- RS _ (snd (?m w)) => enough (rel RS m) by auto end. rs. }
    eapply L_then; [|exact S|].
    { unfold rxIsProt. rs. }
    intros a v SV. rewrite bind_get. destruct (_ && _); [|apply RL_refl]. unfold changeToStatePreActive, upd. cbn [snd].
    intros H. unfold ok in *. rewrite SV in H. exact H.
  - rewrite bind_get. eapply L_then; [apply RS_sp|exact S|]. intros [] v SV; [|apply RL_refl]. destruct (_ =? _).
    + eapply L_then; [apply RS_tp|exact SV|]. intros _ u _. apply L_idle.
    + apply RS_RL. match goal with |- RS _ (snd (?m v)) => enough (rel RS m) by auto end. rs.
  - unfold timer_running. rewrite !bind_get. destruct (negb _).
    + eapply L_then; [apply RS_nick|exact S|]. intros _ u _. apply L_active.
    + eapply L_then; [|exact S|].
      { unfold rxIsProt. rs. }
      intros a v SV. rewrite bind_get. destruct (_ && _); [|apply RL_refl]. apply RS_RL.
      match goal with |- RS _ (snd (?m v)) => enough (rel RS m) by auto end. rs.
Qed.
Lemma L_statePre w : RL w (snd (statePreActive w)).
Proof.
  revert w. match goal with |- forall w, RL w (snd (?m w)) => change (rel RL m) end. unfold statePreActive, timer_running, rxIsProt, rxd.
  assert (X : forall T (m : M A T), rel RS m -> rel RL m) by (intros T m H w; apply RS_RL, H).
  repeat first [apply L_init | apply L_active | apply rel_get, RL_refl | apply rel_ret, RL_refl | solve [apply X; rs] | apply rel_bind; [exact RL_trans| |intros]
    | match goal with |- rel _ (if ?b then _ else _) => destruct b end].
Qed.

Lemma L_weak {T} (m : M A T) : rel RS m -> rel RL m. Proof. intros H w. apply RS_RL, H. Qed.
Lemma L_set f : neutral f -> forall w, RL w (f w). Proof. intros H w. apply RS_RL, RS_set, H. Qed.
Lemma L_emit o : walkObs o = true -> rel RL (@emit A o). Proof. intros H. apply L_weak, RS_walk, H. Qed.
Lemma L_note o : notLamp o -> rel RL (@emit A o). Proof. intros H. apply L_weak, RS_emit, H. Qed.
Lemma L_app f : rel RL (@upd A (fun w => set_app (f w) w)). Proof. apply L_weak. intros w. split; reflexivity. Qed.
Lemma L_setapp a : rel RL (@upd A (set_app a)). Proof. apply L_weak. intros w. split; reflexivity. Qed.
Lemma L_restore : rel RL restoreFactory.
Proof.
  apply wk_restoreFactory; auto using RL_refl, L_set, L_emit; try exact RL_trans; try (solve [intros; apply L_weak; auto using RS_ps, RS_tx]).
  apply rel_bind; [exact RL_trans|apply L_note; exact Logic.I|intros; apply L_app].
Qed.
Lemma L_api c : rel RL (doApi c).
Proof.
  rewrite doApi_body. apply rel_bind; [exact RL_trans|apply L_note; exact Logic.I|intros _].
  apply wk_apiBody; auto using RL_refl, L_set, L_emit, L_init, L_active, L_idle, L_reset, L_restore; try exact RL_trans; try (solve [intros; apply L_weak; auto using RS_ps, RS_tx]).
Qed.
Lemma L_forM l : rel RL (forM l doApi).
Proof. apply rel_forM; auto using RL_refl, L_api. exact RL_trans. Qed.
Ltac co := repeat first [apply L_forM | apply L_setapp | apply L_note; exact Logic.I | apply rel_get, RL_refl | apply rel_ret, RL_refl | apply rel_bind; [exact RL_trans| |intros]].
Lemma L_process rd : rel RL (process rd).
Proof.
  apply walk_process; auto using RL_refl, L_set, L_emit, L_init, L_active, L_idle, L_reset, L_restore, L_stateInit, L_statePre; try exact RL_trans;
    try (solve [intros; apply L_weak; auto using RS_ps, RS_tx]).
  all: intros; unfold appRead, appWrite, actionExecute, provideEvent, provideProtocolEvent, customHeartbeat; co.
Qed.
Lemma initHead_lamp w : ok (snd (initHead w)).
Proof.
  unfold ok. set (x := lampFor _). enough (G : w_st (snd (initHead w)) = STARTUP).
  { unfold x. rewrite G. reflexivity. } reflexivity.
Qed.
Lemma init_lamp w : ok (snd (core_init w)).
Proof.
  rewrite core_init_eq. assert (H1 : rel RL initTimers).
  { apply wk_initTimers; auto using RL_refl, L_set, L_emit. exact RL_trans. }
  assert (H2 : forall b, rel RL (initTail b)).
  { intros. apply wk_initTail; auto using RL_refl, L_set, L_emit, L_error, L_restore. exact RL_trans. }
  apply H2, H1, initHead_lamp.
Qed.
Theorem lamp_always w : reachable w -> ok w.
Proof.
  revert w. apply reach_stable; [intros; apply init_lamp|]. intros o w _ _ H. destruct o as [rd|p|c|].
  - exact (L_process rd w H).
  - exact H.
  - exact (L_api c w H).
  - rewrite step_init. apply init_lamp.
Qed.
End Lamp.
