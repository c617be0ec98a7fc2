(* Proof_MainLoop.v - lemmas for properties C76 and C77. *)
From Verif Require Import MainLoop Spec_MainLoop.

(* length of the run of true samples at the end *)
Fixpoint lead (l : list bool) : N := match l with true :: r => 1 + lead r | _ => 0 end.
Lemma lead_len l : lead l <= N.of_nat (length l).
Proof. induction l as [|[] r IH]; cbn [lead length]; lia. Qed.
Lemma firstn_lead n l : ((N.of_nat n <=? N.of_nat (length l)) && forallb (fun x => x) (firstn n l)) = (N.of_nat n <=? lead l).
Proof.
  revert l; induction n as [|n IH]; intro l.
  { cbn [firstn forallb]. rewrite andb_true_r. apply eq_true_iff_eq; rewrite !N.leb_le; lia. }
  destruct l as [|[] r]; cbn [firstn forallb lead length].
  - destruct (N.leb_spec (N.of_nat (S n)) 0); [lia|reflexivity].
  - specialize (IH r).
    replace (N.of_nat (S n) <=? N.of_nat (S (length r))) with (N.of_nat n <=? N.of_nat (length r))
      by (apply eq_true_iff_eq; rewrite !N.leb_le; lia).
    cbn [andb]. rewrite IH. apply eq_true_iff_eq; rewrite !N.leb_le; lia.
  - rewrite andb_false_r. destruct (N.leb_spec (N.of_nat (S n)) 0); [lia|reflexivity].
Qed.
Lemma debounced_lead l : debounced l = (101 <=? lead (rev l)).
Proof.
  unfold debounced. rewrite <- (rev_length l). exact (firstn_lead 101 (rev l)).
Qed.

(* the state of the button part for the samples seen so far *)
Definition Bok (seen : list bool) (b : Btn) : Prop :=
  b_cnt b = N.min 100 (lead (rev seen)) /\ b_pressed b = debounced seen.
Lemma Bok_tick seen b h : Bok seen b -> Bok (seen ++ [h]) (avrTick h b) /\
  b_last (avrTick h b) = b_last b /\ b_starts (avrTick h b) = b_starts b.
Proof.
  intros [H1 H2]. unfold Bok. rewrite !debounced_lead in *. rewrite rev_app_distr. cbn [rev app].
  unfold avrTick, DEBOUNCE, u8. destruct h; cbn [negb lead].
  - destruct (N.leb_spec 100 (b_cnt b)); cbn [b_cnt b_pressed b_last b_starts]; repeat split; auto; try lia;
      try (rewrite N.mod_small; lia); try (rewrite H2; apply eq_true_iff_eq; rewrite !N.leb_le; lia).
  - cbn [b_cnt b_pressed b_last b_starts]. repeat split; auto.
Qed.
Lemma Bok_ticks : forall l seen b, Bok seen b ->
  let b' := fold_left (fun s h => avrTick h s) l b in
  Bok (seen ++ l) b' /\ b_last b' = b_last b /\ b_starts b' = b_starts b.
Proof.
  induction l as [|h r IH]; intros seen b H; cbn.
  - rewrite app_nil_r. auto.
  - destruct (Bok_tick seen b h H) as (G1 & G2 & G3).
    destruct (IH _ _ G1) as (K1 & K2 & K3). rewrite <- app_assoc in K1. cbn in K1.
    rewrite K2, K3. auto.
Qed.

Lemma loop_starts : forall ps seen b, Bok seen b -> Forall (fun p => snd p = []) ps ->
  b_starts (fold_left (pass avrTick) ps b) = b_starts b + presses seen (b_last b) ps.
Proof.
  induction ps as [|p r IH]; intros seen b H Hf; cbn [fold_left presses].
  - lia.
  - inversion Hf as [|? ? E Hr]; subst.
    destruct (Bok_ticks (fst p) seen b H) as (G1 & G2 & G3).
    unfold pass at 2. rewrite E. cbn [fold_left].
    set (b1 := fold_left (fun s h => avrTick h s) (fst p) b) in *.
    assert (G4 : Bok (seen ++ fst p) (loopLatch (loopTest b1))).
    { destruct G1 as [A B]. unfold loopTest. destruct (b_pressed b1 && negb (b_last b1)); split; cbn; auto. }
    rewrite (IH _ _ G4 Hr).
    assert (G5 : b_last (loopLatch (loopTest b1)) = debounced (seen ++ fst p)).
    { destruct G1 as [A B]. unfold loopTest. destruct (b_pressed b1 && negb (b_last b1)); cbn; auto. }
    rewrite G5. destruct G1 as [A B]. unfold loopTest. rewrite B, G2.
    destruct (debounced (seen ++ fst p) && negb (b_last b)); cbn [loopLatch b_starts]; rewrite G3; lia.
Qed.
Lemma Bok_init : Bok [] btnInit.
Proof. split; reflexivity. Qed.

(* interrupts anywhere *)
Lemma Bok_all : forall ps seen b, Bok seen b -> Bok (seen ++ samples ps) (fold_left (pass avrTick) ps b).
Proof.
  induction ps as [|p r IH]; intros seen b H; cbn [fold_left].
  - unfold samples. cbn. rewrite app_nil_r. apply H.
  - destruct (Bok_ticks (fst p) seen b H) as (G1 & _ & _).
    assert (G2 : Bok (seen ++ fst p) (loopTest (fold_left (fun s h => avrTick h s) (fst p) b))).
    { destruct G1. unfold loopTest. destruct (_ && _); split; auto. }
    destruct (Bok_ticks (snd p) _ _ G2) as (G3 & _ & _).
    replace (seen ++ samples (p :: r)) with (((seen ++ fst p) ++ snd p) ++ samples r)
      by (unfold samples; cbn [map concat]; now rewrite !app_assoc).
    apply IH. destruct G3. unfold pass, loopLatch. split; auto.
Qed.
Lemma last_pressed : forall ps b, ps <> [] ->
  b_last (fold_left (pass avrTick) ps b) = b_pressed (fold_left (pass avrTick) ps b).
Proof.
  intros ps b. induction ps as [|p r IH] using rev_ind; [congruence|]. intros _.
  rewrite fold_left_app. reflexivity.
Qed.

Lemma held_one_start_gen : forall ps b, b_last b = true -> b_pressed b = true -> b_cnt b = 100 ->
  Forall (fun p => forallb (fun x => x) (fst p ++ snd p) = true) ps ->
  b_starts (fold_left (pass avrTick) ps b) = b_starts b.
Proof.
  assert (T : forall l b, b_pressed b = true -> b_cnt b = 100 -> forallb (fun x => x) l = true ->
     fold_left (fun s h => avrTick h s) l b = b).
  { induction l as [|h r IH]; intros b H1 H2 H3; auto. cbn in H3. apply andb_true_iff in H3. destruct H3 as [-> H3].
    cbn [fold_left]. assert (E : avrTick true b = b).
    { unfold avrTick, DEBOUNCE. destruct b as [c p l s]; cbn in *. subst. reflexivity. }
    rewrite E. auto. }
  induction ps as [|p r IH]; intros b H1 H2 H3 Hf; auto.
  inversion Hf as [|? ? E Hr]; subst. rewrite forallb_app in E. apply andb_true_iff in E. destruct E as [E1 E2].
  cbn [fold_left]. unfold pass at 2. rewrite (T _ b) by auto.
  assert (L : loopTest b = b) by (unfold loopTest; rewrite H2, H1; reflexivity).
  rewrite L, (T _ b) by auto. rewrite IH; auto.
Qed.

Lemma iter_lamp_slow : forall n on k, k < 256 ->
  Nat.iter n (lampStep LampBlinkSlow) (mkLed on k) =
  mkLed (xorb on (N.odd ((k + N.of_nat n + 3) / 4 - (k + 3) / 4))) ((k + N.of_nat n) mod 256).
Proof.
  induction n as [|n IH]; intros on k Hk.
  - cbn [Nat.iter nat_rect]. replace ((k + N.of_nat 0 + 3) / 4 - (k + 3) / 4) with 0 by lia.
    cbn [N.odd]. rewrite xorb_false_r. f_equal. rewrite N.mod_small; lia.
  - change (Nat.iter (S n) (lampStep LampBlinkSlow) (mkLed on k))
      with (lampStep LampBlinkSlow (Nat.iter n (lampStep LampBlinkSlow) (mkLed on k))).
    rewrite IH by assumption. unfold lampStep, u8. cbn [l_on l_slow].
    replace (((k + N.of_nat n) mod 256) mod 4) with ((k + N.of_nat n) mod 4) by lia.
    f_equal.
    + destruct (N.eqb_spec ((k + N.of_nat n) mod 4) 0) as [E|E].
      * replace ((k + N.of_nat (S n) + 3) / 4 - (k + 3) / 4) with (N.succ ((k + N.of_nat n + 3) / 4 - (k + 3) / 4)) by lia.
        rewrite N.odd_succ, <- N.negb_odd. destruct on, (N.odd _); reflexivity.
      * replace ((k + N.of_nat (S n) + 3) / 4) with ((k + N.of_nat n + 3) / 4) by lia. reflexivity.
    + lia.
Qed.
Lemma iter_lamp_fast : forall n on k,
  l_on (Nat.iter n (lampStep LampBlinkFast) (mkLed on k)) = xorb on (N.odd (N.of_nat n)).
Proof.
  induction n as [|n IH]; intros on k.
  - cbn. now rewrite xorb_false_r.
  - change (Nat.iter (S n) (lampStep LampBlinkFast) (mkLed on k))
      with (lampStep LampBlinkFast (Nat.iter n (lampStep LampBlinkFast) (mkLed on k))).
    unfold lampStep at 1. cbn [l_on]. rewrite IH, Nat2N.inj_succ, N.odd_succ, <- N.negb_odd.
    destruct on, (N.odd _); reflexivity.
Qed.

Lemma held_one_start : forall ps qs, debounced (samples ps) = true -> forallb (fun x => x) (samples qs) = true ->
  b_starts (loop avrTick (ps ++ qs)) = b_starts (loop avrTick ps).
Proof.
  intros ps qs Hd Hq. unfold loop. rewrite fold_left_app.
  pose proof (Bok_all ps [] btnInit Bok_init) as [B1 B2]. cbn [app] in B1, B2.
  assert (Hn : ps <> []) by (intros ->; discriminate).
  apply held_one_start_gen.
  - rewrite last_pressed by assumption. now rewrite B2.
  - now rewrite B2.
  - rewrite debounced_lead in Hd. apply N.leb_le in Hd. lia.
  - clear -Hq. unfold samples in Hq. induction qs as [|q r IH]; constructor; cbn [map concat] in Hq;
      rewrite forallb_app in Hq; apply andb_true_iff in Hq; tauto.
Qed.
