(* Proof_Timers.v - relations between states of a node whose timers are all different *)
From Verif Require Export Proof_Disc4.

Section T.
Context {A : Type} {E : Env A}.
Implicit Types w : World A.

(* the value of a timer *)
Definition tv (i : nat) w : N := match nth_error (w_tm w) i with Some t => t_val t | None => 0 end.
(* every timer was created *)
Definition apart w : Prop := timersNeeded cfg <= c_timers cfg /\ w_tSt w = 0 /\ w_tGuid w = 1 /\ w_t162 w = 2 /\ w_tEp w = 3 /\
  (c_hb_node cfg = true -> w_tHb w = 4) /\ map t_id (w_tm w) = tids ntimers (c_timers cfg).
Lemma reach_apart w : valid_env E -> reachable w -> timersNeeded cfg <= c_timers cfg -> apart w.
Proof.
  intros VE HR HT. destruct (reach_inv VE w HR) as (ps0 & HI). unfold apart. rewrite (i_tSt _ _ HI), (i_tGuid _ _ HI), (i_t162 _ _ HI), (i_tEp _ _ HI), (i_tHb _ _ HI). unfold tid, timersNeeded in *.
  split; [exact HT|]. assert (TM := proj1 (i_tm _ _ HI)).
  destruct (c_hb_node cfg); repeat split; try exact TM; try (intros; discriminate); intros;
    match goal with |- (if ?x <? ?y then _ else _) = _ => destruct (N.ltb_spec x y); [reflexivity|lia] end.
Qed.
Lemma apart_same w w' : w_tSt w' = w_tSt w -> w_tGuid w' = w_tGuid w -> w_t162 w' = w_t162 w -> w_tEp w' = w_tEp w -> w_tHb w' = w_tHb w -> map t_id (w_tm w') = map t_id (w_tm w) -> apart w -> apart w'.
Proof. unfold apart. intros -> -> -> -> -> ->. tauto. Qed.
Lemma setAt_ids l : forall i v, map t_id (timerSetAt l i v) = map t_id l.
Proof. induction l as [|t l IH]; intros [|i] v; cbn [timerSetAt map]; [reflexivity..|]. rewrite IH. reflexivity. Qed.
Lemma apart_ts id v w : apart w -> apart (set_tm (timerStart (w_tm w) id v) w).
Proof. apply apart_same; try reflexivity. apply setAt_ids. Qed.
Lemma apart_tp id w : apart w -> apart (set_tm (timerStop (w_tm w) id) w).
Proof. apply apart_same; try reflexivity. apply setAt_ids. Qed.
Lemma apart_length w : apart w -> length (w_tm w) = N.to_nat (c_timers cfg).
Proof. intros (_ & _ & _ & _ & _ & _ & H). rewrite <- (map_length t_id), H. unfold tids. rewrite map_length, seq_length. reflexivity. Qed.
Lemma tv_set i id v w : tv i (set_tm (timerSetAt (w_tm w) (N.to_nat id) v) w) = if (i =? N.to_nat id)%nat then match nth_error (w_tm w) i with Some _ => v | None => 0 end else tv i w.
Proof.
  unfold tv. wsimp. destruct (Nat.eqb_spec i (N.to_nat id)) as [->|H].
  - rewrite setAt_same. destruct (nth_error (w_tm w) (N.to_nat id)); reflexivity.
  - rewrite timerSetAt_other by congruence. reflexivity.
Qed.
Lemma tv_in i w : apart w -> N.of_nat i < timersNeeded cfg -> nth_error (w_tm w) i <> None.
Proof. intros H I C. apply nth_error_None in C. rewrite (apart_length w H) in C. destruct H as (H & _). lia. Qed.
Lemma tv_start i id v w : apart w -> N.of_nat i < timersNeeded cfg -> v < 65536 ->
  tv i (set_tm (timerStart (w_tm w) id v) w) = if (i =? N.to_nat id)%nat then v else tv i w.
Proof.
  intros H I V. unfold timerStart. rewrite tv_set. destruct (_ =? _)%nat; [|reflexivity]. pose proof (tv_in i w H I). destruct (nth_error (w_tm w) i); [|congruence]. apply N.mod_small. exact V.
Qed.
Lemma tv_stop i id w : apart w -> tv i (set_tm (timerStop (w_tm w) id) w) = if (i =? N.to_nat id)%nat then 0 else tv i w.
Proof. intros H. unfold timerStop. rewrite tv_set. destruct (_ =? _)%nat; [|reflexivity]. destruct (nth_error (w_tm w) i); reflexivity. Qed.
Lemma tv_tick i p w : apart w -> N.of_nat i < timersNeeded cfg -> valid_env E -> tv i (set_tm (timerProcess (w_tm w) p) w) = tv i w - p.
Proof.
  intros H I VE. unfold tv. wsimp. unfold timerProcess. rewrite nth_error_map. pose proof (tv_in i w H I) as J. destruct (nth_error (w_tm w) i) as [t|] eqn:EN; [|congruence]. cbn [option_map].
  assert (X : nth_error (map t_id (w_tm w)) i = Some (t_id t)) by (rewrite nth_error_map, EN; reflexivity).
  destruct H as (HT & _ & _ & _ & _ & _ & HM). rewrite HM in X. unfold tids in X.
  rewrite nth_error_map in X. destruct (nth_error (seq 0 (N.to_nat (c_timers cfg))) i) as [j|] eqn:EJ; [|discriminate X]. cbn [option_map] in X.
  assert (IL : (i < N.to_nat (c_timers cfg))%nat) by (rewrite <- (seq_length (N.to_nat (c_timers cfg)) 0); apply nth_error_Some; congruence).
  assert (j = i). { rewrite nth_error_nth' with (d := 0%nat) in EJ by (rewrite seq_length; exact IL). rewrite seq_nth in EJ by exact IL. injection EJ. lia. }
  subst j. destruct (N.eqb_spec (t_id t) TIMER_ID_INVALID) as [Z|Z]; [|reflexivity]. exfalso. injection X as X. rewrite Z in X.
  assert (N.of_nat i < 5) by (unfold timersNeeded in I; destruct (c_hb_node cfg); lia). unfold TIMER_ID_INVALID in X.
  destruct (N.ltb_spec (N.of_nat i) ntimers) as [L|L]; [lia|]. unfold ntimers, timersNeeded in *. destruct (c_hb_node cfg); lia.
Qed.
Lemma timer_running_tv i w : timerRunning (w_tm w) (N.of_nat i) = (0 <? tv i w).
Proof. unfold timerRunning, tv. rewrite Nat2N.id. destruct (nth_error (w_tm w) i); reflexivity. Qed.

(* -- relations that look at one timer, or at none -- *)
Section Rel.
Variable Q : World A -> World A -> Prop.
Hypothesis Qrefl : forall w, Q w w.
Hypothesis Qtrans : forall a b c, apart a -> apart b -> apart c -> Q a b -> Q b c -> Q a c.
Definition RT w w' : Prop := apart w -> apart w' /\ Q w w'.
Lemma RT_refl w : RT w w. Proof. intros H. auto. Qed.
Lemma RT_trans (a b c : World A) : RT a b -> RT b c -> RT a c.
Proof. intros H1 H2 H. destruct (H1 H) as [K1 K2]. destruct (H2 K1) as [K3 K4]. split; [exact K3|]. apply (Qtrans a b c); assumption. Qed.
Lemma RT_same w w' : w_tSt w' = w_tSt w -> w_tGuid w' = w_tGuid w -> w_t162 w' = w_t162 w -> w_tEp w' = w_tEp w -> w_tHb w' = w_tHb w -> w_tm w' = w_tm w -> Q w w' -> RT w w'.
Proof. intros H1 H2 H3 H4 H5 H6 H7 H. split; [|exact H7]. apply (apart_same w); congruence. Qed.
Lemma RT_162 {T} (k : N -> M A T) : rel RT (k 2) -> rel RT (bind (get w_t162) k).
Proof. intros H w HA. rewrite bind_get. assert (EQ : w_t162 w = 2) by apply HA. rewrite EQ. apply H, HA. Qed.
Lemma RT_guid {T} (k : N -> M A T) : rel RT (k 1) -> rel RT (bind (get w_tGuid) k).
Proof. intros H w HA. rewrite bind_get. assert (EQ : w_tGuid w = 1) by apply HA. rewrite EQ. apply H, HA. Qed.
Lemma RT_st {T} (k : N -> M A T) : rel RT (k 0) -> rel RT (bind (get w_tSt) k).
Proof. intros H w HA. rewrite bind_get. assert (EQ : w_tSt w = 0) by apply HA. rewrite EQ. apply H, HA. Qed.
Lemma RT_hb {T} (k : N -> M A T) : c_hb_node cfg = true -> rel RT (k 4) -> rel RT (bind (get w_tHb) k).
Proof. intros C H w HA. rewrite bind_get. assert (EQ : w_tHb w = 4) by (apply HA; exact C). rewrite EQ. apply H, HA. Qed.
End Rel.
End T.
