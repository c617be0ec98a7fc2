(* Proof_TimersInit.v - the timers after initialisation, and histories as folds *)
From Verif Require Export Proof_Reset.

Section T.
Context {A : Type} {E : Env A}.
Implicit Types w : World A.
Hypothesis VE : valid_env E.

Lemma tv_map i w : tv i w = nth i (map t_val (w_tm w)) 0.
Proof. unfold tv. generalize (w_tm w). intros l. revert i. induction l as [|t l IH]; intros [|i]; cbn; [reflexivity..|apply IH]. Qed.
Lemma bind_to {X Y} (m : M A X) (k : X -> M A Y) w r v : m w = (r, v) -> bind m k w = k r v.
Proof. intros H. unfold bind. rewrite H. reflexivity. Qed.
Lemma head_tm w : w_tm (snd (initHead w)) = timerInit (c_timers cfg) /\ w_tHb (snd (initHead w)) = w_tHb w.
Proof. unfold initHead, tp_init, dm_init, ps_readNicknameId, psRead8, emit, bind, upd, get. cbn [fst snd]. wsimp. destruct (c_loop cfg), (c_dm cfg), (c_dm_paged cfg); split; reflexivity. Qed.
Lemma head_out w : w_out (snd (initHead w)) = OLamp LampBlinkSlow :: OInit :: w_out w.
Proof. unfold initHead, tp_init, dm_init, ps_readNicknameId, psRead8, emit, bind, upd, get. cbn [fst snd]. wsimp. destruct (c_loop cfg), (c_dm cfg), (c_dm_paged cfg); reflexivity. Qed.
(* one creation *)
Definition made k (ts : Timers) : Prop := map t_id ts = tids k (c_timers cfg).
Lemma create_at (st : N -> World A -> World A) k w : (forall v u, w_tm (st v u) = w_tm u) -> k < c_timers cfg -> made k (w_tm w) ->
  exists ts, createTimer st w = (true, st k (set_tm ts w)) /\ made (k + 1) ts /\ map t_val ts = map t_val (w_tm w).
Proof.
  intros HS HK HM. destruct (create_tids (w_ps w) VE (w_tm w) k HM) as (C1 & C2 & C3). exists (snd (timerCreate (w_tm w))).
  unfold createTimer, bind, get, upd, ret. cbn [fst snd]. rewrite C1. rewrite (tid_valid (w_ps w) VE). replace (tid k) with k by (unfold tid; destruct (N.ltb_spec k (c_timers cfg)); [reflexivity|lia]).
  split; [|auto]. f_equal. destruct (N.ltb_spec k (c_timers cfg)); [reflexivity|lia].
Qed.
Lemma init_timers0 w0 : timersNeeded cfg <= c_timers cfg -> w_tm w0 = timerInit (c_timers cfg) ->
  fst (initTimers w0) = true /\ apart (snd (initTimers w0)) /\ w_out (snd (initTimers w0)) = w_out w0 /\ forall i, tv i (snd (initTimers w0)) = if (i =? 3)%nat then 1000 else 0.
Proof.
  intros HT H1.
  assert (M0 : made 0 (w_tm w0)) by (rewrite H1; apply tids_init).
  assert (V0 : forall i, nth i (map t_val (w_tm w0)) 0 = 0).
  { rewrite H1. intros i. unfold timerInit. generalize (N.to_nat (c_timers cfg)). intros n. revert i. induction n as [|n IH]; intros [|i]; cbn; [reflexivity..|apply IH]. }
  assert (N4 : 4 <= timersNeeded cfg) by (unfold timersNeeded; destruct (c_hb_node cfg); lia).
  unfold initTimers.
  destruct (create_at set_tSt 0 w0) as (ts1 & E1 & M1 & W1); [reflexivity|lia|exact M0|].
  remember (set_tSt 0 (set_tm ts1 w0)) as w1 eqn:D1. assert (X1 : w_tm w1 = ts1) by (rewrite D1; reflexivity). rewrite <- X1 in M1, W1.
  destruct (create_at set_tGuid 1 w1) as (ts2 & E2 & M2 & W2); [reflexivity|lia|exact M1|].
  remember (set_tGuid 1 (set_tm ts2 w1)) as w2 eqn:D2. assert (X2 : w_tm w2 = ts2) by (rewrite D2; reflexivity). rewrite <- X2 in M2, W2.
  destruct (create_at set_t162 2 w2) as (ts3 & E3 & M3 & W3); [reflexivity|lia|exact M2|].
  remember (set_t162 2 (set_tm ts3 w2)) as w3 eqn:D3. assert (X3 : w_tm w3 = ts3) by (rewrite D3; reflexivity). rewrite <- X3 in M3, W3.
  destruct (create_at set_tEp 3 w3) as (ts4 & E4 & M4 & W4); [reflexivity|lia|exact M3|].
  remember (set_tEp 3 (set_tm ts4 w3)) as w4 eqn:D4. assert (X4 : w_tm w4 = ts4) by (rewrite D4; reflexivity). rewrite <- X4 in M4, W4.
  rewrite (bind_to _ _ _ _ _ E1), (bind_to _ _ _ _ _ E2), (bind_to _ _ _ _ _ E3), (bind_to _ _ _ _ _ E4).
  assert (I4 : w_tEp w4 = 3) by (rewrite D4; reflexivity).
  assert (ES : (id <- get w_tEp ;; timer_start id 1000) w4 = (tt, set_tm (timerStart (w_tm w4) 3 1000) w4)) by (rewrite bind_get, I4; reflexivity).
  rewrite (bind_to _ _ _ _ _ ES).
  remember (set_tm (timerStart (w_tm w4) 3 1000) w4) as w5 eqn:D5.
  assert (V4 : forall i, nth i (map t_val (w_tm w4)) 0 = 0) by (intros i; rewrite W4, W3, W2, W1; apply V0).
  assert (M5 : made 4 (w_tm w5)) by (unfold made; rewrite D5; wsimp; unfold timerStart; rewrite setAt_ids; exact M4).
  assert (L4 : (3 < length (w_tm w4))%nat). { rewrite <- (map_length t_id), M4. unfold tids. rewrite map_length, seq_length. lia. }
  assert (V5 : forall i, nth i (map t_val (w_tm w5)) 0 = if (i =? 3)%nat then 1000 else 0).
  { intros i. rewrite <- tv_map. rewrite D5. unfold timerStart. rewrite tv_set. change (N.to_nat 3) with 3%nat. destruct (Nat.eqb_spec i 3) as [->|NE].
    - destruct (nth_error (w_tm w4) 3) eqn:X; [reflexivity|]. apply nth_error_None in X. lia.
    - rewrite tv_map. apply V4. }
  assert (O5 : w_out w5 = w_out w0) by (rewrite D5, D4, D3, D2, D1; reflexivity). assert (I1 : w_tSt w5 = 0) by (rewrite D5, D4, D3, D2, D1; reflexivity). assert (I2 : w_tGuid w5 = 1) by (rewrite D5, D4, D3, D2; reflexivity).
  assert (I3 : w_t162 w5 = 2) by (rewrite D5, D4, D3; reflexivity). assert (I5 : w_tEp w5 = 3) by (rewrite D5; exact I4). clear D5 D4 D3 D2 D1 E1 E2 E3 E4 ES.
  unfold timersNeeded in HT. destruct (c_hb_node cfg) eqn:HB.
  - destruct (create_at set_tHb 4 w5) as (ts6 & E6 & M6 & W6); [reflexivity|lia|exact M5|]. rewrite (bind_to _ _ _ _ _ E6). cbn [fst snd ret andb]. split; [reflexivity|].
    split. { unfold apart, timersNeeded, ntimers. rewrite HB. wsimp. repeat split; try assumption; try reflexivity. }
    split; [exact O5|]. intros i. rewrite tv_map. wsimp. rewrite W6. apply V5.
  - rewrite bind_ret. cbn [ret fst snd andb]. split; [reflexivity|].
    split. { unfold apart, timersNeeded, ntimers. rewrite HB. wsimp. repeat split; try assumption; try (intros; discriminate). }
    split; [exact O5|]. intros i. rewrite tv_map. apply V5.
Qed.
Lemma init_timers w : timersNeeded cfg <= c_timers cfg -> let v := snd (initTimers (snd (initHead w))) in
  fst (initTimers (snd (initHead w))) = true /\ apart v /\ w_out v = OLamp LampBlinkSlow :: OInit :: w_out w /\ forall i, tv i v = if (i =? 3)%nat then 1000 else 0.
Proof.
  intros HT v. destruct (init_timers0 (snd (initHead w)) HT (proj1 (head_tm w))) as (H1 & H2 & H3 & H4). fold v in H2, H3, H4. split; [exact H1|]. split; [exact H2|]. split; [|exact H4]. rewrite H3. apply head_out.
Qed.
Lemma reach_power (P : World A -> Prop) :
  (forall ps a wr out ub ngub, out = [] \/ (exists o, out = OPower :: o) -> P (snd (core_init (boot ps a wr out ub ngub)))) ->
  (forall o w, op_wf o -> reachable w -> P w -> P (snd (step o w))) -> forall w, reachable w -> P w.
Proof.
  intros H0 H1 w (ps0 & a & wr & es & Hps & Hes & ->).
  assert (G : forall es', Forall event_wf es' -> P (run es' (powerUp ps0 a wr))); [|apply G, Hes].
  intros es'. induction es' as [|e es' IH] using rev_ind; intros HF; [apply H0; left; reflexivity|].
  apply Forall_app in HF. destruct HF as [HF1 HF2]. unfold run in *. rewrite fold_left_app. cbn [fold_left].
  destruct e as [o|o k a'].
  - cbn [stepE]. apply H1; [inversion HF2; assumption| |apply IH, HF1]. exists ps0, a, wr, es'. auto.
  - cbn [stepE]. cbv zeta. apply H0. right. eexists. reflexivity.
Qed.
End T.
