(* Proof_HbRun.v - heartbeats over whole histories *)
From Verif Require Import Spec_HbRun Proof_Heartbeat Proof_Epoch Prop_Timing Inv Proof_Request Proof_Disc.
From Coq Require Import Lia.

Section H.
Context {A : Type} {E : Env A}.
Implicit Types w : World A.
Notation elapsed := Spec_States.elapsed.

Lemma left_bound l : forall s, hb_left s <= hbPeriod -> hb_left (fold_left hbStep l s) <= hbPeriod.
Proof.
  induction l as [|o l IH]; intros s H; cbn [fold_left]; [exact H|]. apply IH. destruct o; cbn [hbStep hb_left]; try exact H; try lia.
  - destruct c; exact H.
  - destruct (_ && _); cbn [hb_left]; lia.
  - destruct l0; cbn [hb_left]; try destruct (hb_en s); lia.
Qed.
Lemma left_history l : hb_left (hbState l) <= hbPeriod.
Proof. unfold hbState. apply left_bound. cbn. lia. Qed.
Lemma left_falls l : forall s, ~ In OInit l -> ~ In OPower l -> hb_left s <= hbPeriod -> hb_left s <= hb_left (fold_left hbStep l s) + elapsed l.
Proof.
  induction l as [|o l IH]; intros s N1 N2 B; cbn [fold_left Spec_States.elapsed]; [lia|].
  assert (N1' : ~ In OInit l) by (intros X; apply N1; right; exact X). assert (N2' : ~ In OPower l) by (intros X; apply N2; right; exact X).
  assert (ST : hb_left (hbStep s o) <= hbPeriod /\ hb_left s <= hb_left (hbStep s o) + elapsed [o]).
  { destruct o; cbn [hbStep hb_left Spec_States.elapsed]; try lia; try (exfalso; apply N1; left; reflexivity); try (exfalso; apply N2; left; reflexivity).
    - destruct c; cbn [hb_left]; lia.
    - destruct (_ && _); cbn [hb_left]; lia.
    - destruct l0; cbn [hb_left]; try destruct (hb_en s); lia. }
  specialize (IH (hbStep s o) N1' N2' (proj1 ST)). destruct o; cbn [Spec_States.elapsed] in *; lia.
Qed.
(* after a heartbeat the whole period is left *)
Lemma left_beat l : forall s, ~ In OInit l -> ~ In OPower l -> hb_count s < hb_count (fold_left hbStep l s) ->
  hbPeriod <= hb_left (fold_left hbStep l s) + elapsed l.
Proof.
  induction l as [|o l IH]; intros s N1 N2 B; cbn [fold_left Spec_States.elapsed] in *; [lia|].
  assert (N1' : ~ In OInit l) by (intros X; apply N1; right; exact X). assert (N2' : ~ In OPower l) by (intros X; apply N2; right; exact X).
  destruct (N.eq_dec (hb_count (hbStep s o)) (hb_count s)) as [EQ|NE].
  - rewrite <- EQ in B. specialize (IH _ N1' N2' B). destruct o; lia.
  - assert (X : hb_left (hbStep s o) = hbPeriod).
    { destruct o; cbn [hbStep hb_count hb_left] in *; try congruence.
      - destruct c; cbn [hb_count] in NE; congruence.
      - destruct (_ && _); cbn [hb_count hb_left] in *; [reflexivity|congruence].
      - destruct l0; cbn [hb_count] in NE; congruence. }
    pose proof (left_falls l (hbStep s o) N1' N2' ltac:(lia)). destruct o; lia.
Qed.
Lemma count_mono l : forall s, hb_count s <= hb_count (fold_left hbStep l s).
Proof.
  induction l as [|o l IH]; intros s; cbn [fold_left]; [lia|]. etransitivity; [|apply IH].
  destruct o; cbn [hbStep hb_count]; try lia; try (destruct c; cbn [hb_count]; lia); try (destruct (_ && _); cbn [hb_count]; lia). destruct l0; cbn [hb_count]; lia.
Qed.
(* the reverse: without a heartbeat the period runs down *)
Lemma left_runs l : forall s, steady l -> hb_count (fold_left hbStep l s) = hb_count s ->
  hb_en (fold_left hbStep l s) = hb_en s /\ hb_left (fold_left hbStep l s) = hb_left s - elapsed l.
Proof.
  induction l as [|o l IH]; intros s HS HC; cbn [fold_left Spec_States.elapsed] in *; [split; [reflexivity|lia]|]. inversion HS as [|? ? S1 S2]; subst.
  assert (C1 := count_mono [o] s). assert (C2 := count_mono l (hbStep s o)). cbn [fold_left] in C1.
  assert (EQ : hb_count (hbStep s o) = hb_count s) by lia. destruct (IH (hbStep s o) S2 ltac:(lia)) as [I1 I2]. rewrite I1, I2.
  destruct o; cbn [hbStep hb_en hb_left hb_count] in *; try (split; [reflexivity|lia]); try contradiction.
  - destruct c; cbn [hb_en hb_left]; try contradiction; split; reflexivity.
  - destruct (_ && _); cbn [hb_en hb_left hb_count] in *; [lia|]. split; reflexivity.
  - destruct l0; try contradiction; split; reflexivity.
Qed.

Hypothesis VE : valid_env E.
Hypothesis HT : timersNeeded cfg <= c_timers cfg.
Hypothesis HN : c_hb_node cfg = true.

Lemma step_history w o : reachable w -> op_wf o -> history (snd (step o w)) = history w ++ effects w (snd (step o w)).
Proof.
  intros HR WF. destruct (reach_inv VE w HR) as [ps0 HI]. destruct (inv_stepE ps0 VE (EOp o) w WF HI) as [_ [d D]]. cbn [stepE] in D.
  rewrite (effects_app w _ d D). unfold history. rewrite D, rev_app_distr. reflexivity.
Qed.
Definition mileage (l : list Obs) : N := hb_count (hbState l) * hbPeriod + (hbPeriod - hb_left (hbState l)).
Lemma mileage_same l1 l2 : ~ In OInit l2 -> ~ In OPower l2 -> hb_count (hbState (l1 ++ l2)) = hb_count (hbState l1) ->
  mileage (l1 ++ l2) <= mileage l1 + elapsed l2.
Proof.
  intros N1 N2 HC. unfold mileage. rewrite HC. pose proof (left_falls l2 (hbState l1) N1 N2 (left_history l1)) as L. rewrite <- hb_app in L. lia.
Qed.
Lemma mileage_beat l1 l2 : ~ In OInit l2 -> ~ In OPower l2 -> hb_left (hbState l1) = 0 -> hb_count (hbState (l1 ++ l2)) = hb_count (hbState l1) + 1 ->
  mileage (l1 ++ l2) <= mileage l1 + elapsed l2.
Proof.
  intros N1 N2 HL HC. unfold mileage. rewrite HL. pose proof (left_beat l2 (hbState l1) N1 N2) as L. rewrite <- hb_app in L. rewrite HC in *. specialize (L ltac:(lia)).
  pose proof (left_history (l1 ++ l2)). nia.
Qed.
Lemma mileage_step w o : reachable w -> op_wf o -> let l := effects w (snd (step o w)) in ~ In OInit l -> ~ In OPower l ->
  mileage (history (snd (step o w))) <= mileage (history w) + elapsed l.
Proof.
  intros HR WF l N1 N2. rewrite (step_history w o HR WF). fold l.
  assert (D : (exists rd, o = OpProcess rd) \/ (forall rd, o <> OpProcess rd)) by (destruct o; [left; eauto|right; discriminate..]).
  destruct D as [[rd ->]|NP].
  - destruct (C55_heartbeat_partial A E VE HT HN w rd HR WF) as (b & h & r & EF & C1 & C2 & C3). cbv zeta in *. unfold after in EF. fold l in EF. rewrite EF in *.
    rewrite !in_app_iff in N1, N2. rewrite app_nil_r in *. rewrite !elapsed_app, !app_assoc in *.
    pose proof (mileage_same (history w) b ltac:(tauto) ltac:(tauto) C1) as M1.
    assert (M2 : mileage ((history w ++ b) ++ h) <= mileage (history w ++ b) + elapsed h).
    { destruct (isActive w && _ && _) eqn:F.
      - apply andb_prop in F. destruct F as [_ F]. apply mileage_beat; try tauto; try lia.
      - subst h. rewrite app_nil_r. lia. }
    pose proof (mileage_same ((history w ++ b) ++ h) r ltac:(tauto) ltac:(tauto) C3) as M3. lia.
  - pose proof (C55_other_operations A E VE HT HN w o HR WF NP) as C. rewrite (step_history w o HR WF) in C. apply mileage_same; assumption.
Qed.
Lemma run_ops_history : forall os w, reachable w -> Forall op_wf os ->
  reachable (run (map EOp os) w) /\ history (run (map EOp os) w) = history w ++ effects w (run (map EOp os) w).
Proof.
  intros os w HR. revert os. apply (rev_ind (fun os => Forall op_wf os -> reachable (run (map EOp os) w) /\ history (run (map EOp os) w) = history w ++ effects w (run (map EOp os) w))).
  - intros _. split; [exact HR|]. cbn. unfold effects. rewrite Nat.sub_diag. cbn. rewrite app_nil_r. reflexivity.
  - intros o os IH HF. apply Forall_app in HF. destruct HF as [F1 F2]. inversion F2 as [|? ? F3 _]; subst. destruct (IH F1) as [R H].
    rewrite map_app. unfold run in *. rewrite fold_left_app. cbn [map fold_left stepE]. set (v := fold_left _ (map EOp os) w) in *.
    split; [exact (reach_op v o R F3)|].
    destruct (reach_inv VE v R) as [ps0 HI]. destruct (inv_stepE ps0 VE (EOp o) v F3 HI) as [_ [d D]]. cbn [stepE] in D.
    unfold history in *. assert (X : w_out (snd (step o v)) = (d ++ rev (effects w v)) ++ w_out w).
    { rewrite D, <- app_assoc. f_equal. rewrite <- (rev_involutive (w_out v)), H, rev_app_distr, rev_involutive. reflexivity. }
    rewrite (effects_app w _ _ X), X, rev_app_distr. reflexivity.
Qed.
Lemma mileage_run : forall os w, reachable w -> Forall op_wf os -> let w' := run (map EOp os) w in let l := effects w w' in
  ~ In OInit l -> ~ In OPower l -> mileage (history w') <= mileage (history w) + elapsed l.
Proof.
  intros os w HR. revert os. apply (rev_ind (fun os => Forall op_wf os -> let w' := run (map EOp os) w in let l := effects w w' in
    ~ In OInit l -> ~ In OPower l -> mileage (history w') <= mileage (history w) + elapsed l)).
  - intros _ w' l _ _. unfold w'. cbn. lia.
  - intros o os IH HF w' l N1 N2. pose proof HF as HF'. apply Forall_app in HF. destruct HF as [F1 F2]. inversion F2 as [|? ? F3 _]; subst.
    destruct (run_ops_history os w HR F1) as [R H]. destruct (run_ops_history (os ++ [o]) w HR HF') as [_ H']. fold w' l in H'.
    assert (EW : w' = snd (step o (run (map EOp os) w))) by (unfold w', run; rewrite map_app, fold_left_app; reflexivity).
    set (v := run (map EOp os) w) in *. pose proof (step_history v o R F3) as K. rewrite <- EW in K. rewrite H, <- app_assoc, H' in K. apply app_inv_head in K.
    rewrite K in *. rewrite in_app_iff in N1, N2. specialize (IH F1 ltac:(tauto) ltac:(tauto)). cbv zeta in IH.
    pose proof (mileage_step v o R F3) as M. cbv zeta in M. rewrite <- EW in M. specialize (M ltac:(tauto) ltac:(tauto)). rewrite elapsed_app. lia.
Qed.
Lemma alive_run os w rd : reachable w -> Forall op_wf os -> op_wf (OpProcess rd) ->
  let w1 := run (map EOp os) w in let w' := after w1 rd in
  steady (effects w w') -> hb_en (hbState (history w)) = true -> hbPeriod <= elapsed (effects w w1) -> isActive w1 = true ->
  hb_count (hbState (history w)) < hb_count (hbState (history w')).
Proof.
  intros HR HF WF w1 w' ST EN EL AC. destruct (run_ops_history os w HR HF) as [R H]. fold w1 in R, H.
  assert (HF' : Forall op_wf (os ++ [OpProcess rd])) by (apply Forall_app; auto).
  destruct (run_ops_history (os ++ [OpProcess rd]) w HR HF') as [_ H'].
  assert (EW : run (map EOp (os ++ [OpProcess rd])) w = w') by (unfold w', w1, after, run; rewrite map_app, fold_left_app; reflexivity). rewrite EW in H'.
  pose proof (step_history w1 (OpProcess rd) R WF) as K. fold (after w1 rd) in K. fold w' in K. rewrite H, <- app_assoc, H' in K. apply app_inv_head in K.
  rewrite K in ST. apply Forall_app in ST. destruct ST as [S1 S2].
  destruct (C55_heartbeat_partial A E VE HT HN w1 rd R WF) as (b & h & r & EF & C1 & C2 & C3). cbv zeta in *. rewrite app_nil_r in *.
  fold w' in EF. rewrite EF in S2. apply Forall_app in S2. destruct S2 as [S2 _].
  assert (HW : history w' = history w1 ++ b ++ h ++ r) by (rewrite <- EF; exact (step_history w1 (OpProcess rd) R WF)).
  assert (M1 : hb_count (hbState (history w)) <= hb_count (hbState (history w1))) by (rewrite H, hb_app; apply count_mono).
  assert (M2 : hb_count (hbState (history w1)) <= hb_count (hbState (history w'))) by (rewrite HW, hb_app; apply count_mono).
  destruct (N.eq_dec (hb_count (hbState (history w1))) (hb_count (hbState (history w)))) as [EQ|NE]; [|lia].
  assert (L1 : hb_en (hbState (history w1)) = true /\ hb_left (hbState (history w1)) = 0).
  { rewrite H, hb_app in EQ |- *. destruct (left_runs _ _ S1 EQ) as [X1 X2]. rewrite X1, X2. split; [exact EN|]. pose proof (left_history (history w)). lia. }
  assert (L2 : hb_en (hbState (history w1 ++ b)) = true /\ hb_left (hbState (history w1 ++ b)) = 0).
  { rewrite hb_app in C1 |- *. destruct (left_runs _ _ S2 C1) as [X1 X2]. rewrite X1, X2. destruct L1 as [L1 L1']. split; [exact L1|lia]. }
  destruct L2 as [L2 L3]. rewrite AC, L2, L3 in C2. cbn [andb N.eqb] in C2. rewrite HW, C3, C2. lia.
Qed.
End H.
