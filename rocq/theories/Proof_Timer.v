(* Proof_Timer.v - lemmas about Timer.v *)
From Verif Require Import Timer Spec_Timer.

Lemma timerSetAt_nth ts i v j :
  nth_error (timerSetAt ts i v) j =
  match nth_error ts j with
  | Some t => Some (if Nat.eqb j i then mkTimer (t_id t) v else t)
  | None => None
  end.
Proof.
  revert i j; induction ts as [|t r IH]; intros [|i] [|j]; cbn [timerSetAt nth_error Nat.eqb]; auto.
  destruct (nth_error r j); reflexivity.
Qed.
Lemma timerProcess_nth ts p j :
  nth_error (timerProcess ts p) j =
  option_map (fun t => if t_id t =? TIMER_ID_INVALID then t else mkTimer (t_id t) (t_val t - p)) (nth_error ts j).
Proof. unfold timerProcess. apply nth_error_map. Qed.

(* context i is free or carries identifier i *)
Definition tInv (ts : Timers) : Prop :=
  (length ts <= 255)%nat /\
  forall j t, nth_error ts j = Some t -> t_id t = TIMER_ID_INVALID \/ t_id t = N.of_nat j.
Definition allocated (ts : Timers) (id : N) : Prop :=
  exists t, nth_error ts (N.to_nat id) = Some t /\ t_id t = id /\ id <> TIMER_ID_INVALID.

Lemma createFrom_spec ts i :
  let '(id, ts') := timerCreateFrom i ts in
  length ts' = length ts /\
  ((id = TIMER_ID_INVALID /\ ts' = ts /\ forall t, In t ts -> t_id t <> TIMER_ID_INVALID) \/
   (exists k t, id = i + N.of_nat k /\ nth_error ts k = Some t /\ t_id t = TIMER_ID_INVALID /\
      forall j, nth_error ts' j = if Nat.eqb j k then Some (mkTimer id (t_val t)) else nth_error ts j)).
Proof.
  revert i; induction ts as [|t r IH]; intros i; cbn [timerCreateFrom].
  - split; [reflexivity|]. left. split; [|split]; auto.
  - destruct (N.eqb_spec (t_id t) TIMER_ID_INVALID) as [Heq|Hne].
    + split; auto. right. exists O, t. rewrite N.add_0_r. repeat split; auto.
      intros [|j]; reflexivity.
    + specialize (IH (i + 1)). destruct (timerCreateFrom (i + 1) r) as [id r'].
      destruct IH as [Hl [(H1 & H2 & H3)|(k & t0 & H1 & H2 & H3 & H4)]].
      * split; [cbn [length]; lia|]. left. subst. repeat split; auto.
        intros t' [<-|Hin]; auto.
      * split; [cbn [length]; lia|]. right. exists (S k), t0. repeat split; auto; [lia|].
        intros [|j]; cbn [nth_error Nat.eqb]; auto.
Qed.

Lemma tInv_init num : num <= 255 -> tInv (timerInit num).
Proof.
  intros H. split.
  - unfold timerInit. rewrite repeat_length. lia.
  - intros j t Hj. left. unfold timerInit in Hj. apply nth_error_In, repeat_spec in Hj. subst. reflexivity.
Qed.
Lemma tInv_step ts op : tInv ts -> tInv (snd (tStep ts op)).
Proof.
  intros [Hl Hi]. destruct op as [|id v|id|p]; cbn [tStep].
  - unfold timerCreate. pose proof (createFrom_spec ts 0) as H.
    destruct (timerCreateFrom 0 ts) as [id ts']. destruct H as [H0 [(H1 & H2 & H3)|(k & t & H1 & H2 & H3 & H4)]]; cbn [snd].
    + subst. split; auto.
    + split; [lia|]. intros j t' Hj. rewrite H4 in Hj. destruct (Nat.eqb_spec j k).
      * injection Hj as <-. cbn [t_id]. right. lia.
      * eauto.
  - split; [|intros j t Hj].
    + unfold timerStart. cbn [snd].
      assert (forall ts i v, length (timerSetAt ts i v) = length ts) as ->; auto.
      induction ts0; intros [|i]; intros; cbn [timerSetAt length]; auto.
    + cbn [snd] in Hj. unfold timerStart in Hj. rewrite timerSetAt_nth in Hj.
      destruct (nth_error ts j) as [t0|] eqn:E; [|discriminate]. injection Hj as <-.
      destruct (Nat.eqb j (N.to_nat id)); cbn [t_id]; eauto.
  - split; [|intros j t Hj].
    + unfold timerStop. cbn [snd].
      assert (forall ts i v, length (timerSetAt ts i v) = length ts) as ->; auto.
      induction ts0; intros [|i]; intros; cbn [timerSetAt length]; auto.
    + cbn [snd] in Hj. unfold timerStop in Hj. rewrite timerSetAt_nth in Hj.
      destruct (nth_error ts j) as [t0|] eqn:E; [|discriminate]. injection Hj as <-.
      destruct (Nat.eqb j (N.to_nat id)); cbn [t_id]; eauto.
  - cbn [snd]. split; [unfold timerProcess; rewrite map_length; auto|].
    intros j t Hj. rewrite timerProcess_nth in Hj.
    destruct (nth_error ts j) as [t0|] eqn:E; [|discriminate]. injection Hj as <-.
    destruct (_ =? _); cbn [t_id]; eauto.
Qed.
Lemma tInv_run ops ts : tInv ts -> tInv (snd (tRun ts ops)).
Proof.
  revert ts; induction ops as [|op r IH]; intros ts H; cbn [tRun]; auto.
  pose proof (tInv_step ts op H) as H1. destruct (tStep ts op) as [o ts1]. cbn [snd] in H1.
  specialize (IH ts1 H1). destruct (tRun ts1 r). exact IH.
Qed.

(* allocation is permanent *)
Lemma allocated_step ts op id : allocated ts id -> allocated (snd (tStep ts op)) id.
Proof.
  intros (t & H1 & H2 & H3). destruct op as [|i v|i|p]; cbn [tStep].
  - unfold timerCreate. pose proof (createFrom_spec ts 0) as H.
    destruct (timerCreateFrom 0 ts) as [i ts']. destruct H as [H0 [(Ha & Hb & Hc)|(k & t' & Ha & Hb & Hc & Hd)]]; cbn [snd].
    + subst ts'. exists t. auto.
    + exists t. rewrite Hd. destruct (Nat.eqb_spec (N.to_nat id) k) as [E|E].
      * exfalso. subst k. rewrite H1 in Hb. injection Hb as <-. congruence.
      * auto.
  - exists (if Nat.eqb (N.to_nat id) (N.to_nat i) then mkTimer (t_id t) (u16 v) else t).
    cbn [snd]. unfold timerStart. rewrite timerSetAt_nth, H1. split; auto.
    destruct (Nat.eqb _ _); auto.
  - exists (if Nat.eqb (N.to_nat id) (N.to_nat i) then mkTimer (t_id t) 0 else t).
    cbn [snd]. unfold timerStop. rewrite timerSetAt_nth, H1. split; auto.
    destruct (Nat.eqb _ _); auto.
  - exists (mkTimer (t_id t) (t_val t - p)). cbn [snd]. rewrite timerProcess_nth, H1. cbn [option_map].
    replace (t_id t =? TIMER_ID_INVALID) with false by (symmetry; apply N.eqb_neq; congruence). auto.
Qed.

Lemma create_allocates ts id ts' : tInv ts -> timerCreate ts = (id, ts') -> id <> TIMER_ID_INVALID ->
  allocated ts' id /\ ~ allocated ts id.
Proof.
  intros [Hl Hi] Hc Hne. unfold timerCreate in Hc. pose proof (createFrom_spec ts 0) as H. rewrite Hc in H.
  destruct H as [H0 [(Ha & _)|(k & t & Ha & Hb & Hd & He)]]; [contradiction|].
  rewrite N.add_0_l in Ha. subst id. split.
  - exists (mkTimer (N.of_nat k) (t_val t)). rewrite Nnat.Nat2N.id, He, Nat.eqb_refl. auto.
  - intros (t0 & Ht & Hid & _). rewrite Nnat.Nat2N.id, Hb in Ht. injection Ht as <-. congruence.
Qed.

Lemma run_ids ops ts : tInv ts ->
  NoDup (valid (fst (tRun ts ops))) /\
  (forall id, In id (valid (fst (tRun ts ops))) -> ~ allocated ts id /\ allocated (snd (tRun ts ops)) id) /\
  (forall id, allocated ts id -> allocated (snd (tRun ts ops)) id).
Proof.
  revert ts; induction ops as [|op r IH]; intros ts H; cbn [tRun].
  - cbn [fst snd valid filter]. split; [constructor|]. split; [intros id []|auto].
  - pose proof (tInv_step ts op H) as H1. pose proof (allocated_step ts op) as Hal.
    destruct op as [|i v|i|p];
    [ pose proof (create_allocates ts) as Hca; cbn [tStep] in *; destruct (timerCreate ts) as [id ts1] eqn:Ec
    | set (ts1 := snd (tStep ts _)) in *; cbn [tStep snd] in ts1; cbn [tStep]; fold ts1 .. ];
    cbn [snd] in H1, Hal; destruct (IH ts1 H1) as (I1 & I2 & I3);
    destruct (tRun ts1 r) as [ids ts2]; cbn [fst snd] in *.
    + cbn [valid filter]. destruct (N.eqb_spec id TIMER_ID_INVALID) as [E|E]; cbn [negb].
      * split; auto. split; [|auto]. intros j Hj. destruct (I2 j Hj) as [Ha Hb]. split; auto.
      * destruct (Hca id ts1 H eq_refl E) as [Ha Hb]. split; [|split].
        -- constructor; auto. intros Hin. apply (I2 id Hin). exact Ha.
        -- intros j [<-|Hj]; [split; auto|]. destruct (I2 j Hj) as [Hc Hd]. split; auto.
        -- auto.
    + split; auto. split; [|auto]. intros j Hj. destruct (I2 j Hj). split; auto.
    + split; auto. split; [|auto]. intros j Hj. destruct (I2 j Hj). split; auto.
    + split; auto. split; [|auto]. intros j Hj. destruct (I2 j Hj). split; auto.
Qed.

(* value of an allocated timer over calls that do not touch it *)
Lemma value_run ops ts id t : tInv ts -> nth_error ts (N.to_nat id) = Some t -> t_id t <> TIMER_ID_INVALID ->
  Forall (fun op => ~ touches id op) ops ->
  exists t', nth_error (snd (tRun ts ops)) (N.to_nat id) = Some t' /\ t_val t' = t_val t - elapsed ops.
Proof.
  revert ts t; induction ops as [|op r IH]; intros ts t HI Ht Hid Hf; cbn [tRun elapsed].
  - exists t. split; auto. lia.
  - inversion Hf as [|? ? Hop Hr]; subst.
    assert (Hst : exists t1, nth_error (snd (tStep ts op)) (N.to_nat id) = Some t1 /\ t_id t1 <> TIMER_ID_INVALID /\
              t_val t1 = t_val t - match op with TProcess p => p | _ => 0 end).
    { destruct op as [|i v|i|p]; cbn [tStep touches] in *.
      - unfold timerCreate. pose proof (createFrom_spec ts 0) as H.
        destruct (timerCreateFrom 0 ts) as [i ts']. destruct H as [H0 [(Ha & Hb & Hc)|(k & t' & Ha & Hb & Hc & Hd)]]; cbn [snd].
        + subst. exists t. repeat split; auto; lia.
        + exists t. rewrite Hd. destruct (Nat.eqb_spec (N.to_nat id) k) as [E|E].
          * subst k. rewrite Ht in Hb. injection Hb as <-. congruence.
          * repeat split; auto; lia.
      - exists t. cbn [snd]. unfold timerStart. rewrite timerSetAt_nth, Ht.
        destruct (Nat.eqb_spec (N.to_nat id) (N.to_nat i)); [lia|]. repeat split; auto; lia.
      - exists t. cbn [snd]. unfold timerStop. rewrite timerSetAt_nth, Ht.
        destruct (Nat.eqb_spec (N.to_nat id) (N.to_nat i)); [lia|]. repeat split; auto; lia.
      - cbn [snd]. rewrite timerProcess_nth, Ht. cbn [option_map].
        destruct (N.eqb_spec (t_id t) TIMER_ID_INVALID); [contradiction|].
        eexists. repeat split; cbn [t_id t_val]; auto. }
    pose proof (tInv_step ts op HI) as HI1. destruct Hst as (t1 & Ha & Hb & Hc).
    destruct (tStep ts op) as [o ts1]. cbn [snd] in *.
    destruct (IH ts1 t1 HI1 Ha Hb Hr) as (t' & Hd & He). destruct (tRun ts1 r) as [ids ts2]. cbn [snd] in *.
    exists t'. split; auto. destruct op; lia.
Qed.

Lemma running_after_start num pre id v post :
  num <= 255 ->
  In id (valid (fst (tRun (timerInit num) pre))) ->
  Forall (fun op => ~ touches id op) post ->
  timerRunning (snd (tRun (timerStart (snd (tRun (timerInit num) pre)) id v) post)) id
  = (elapsed post <? u16 v).
Proof.
  intros Hn Hin Hf. pose proof (tInv_init num Hn) as HI.
  destruct (run_ids pre _ HI) as (_ & H2 & _). destruct (H2 id Hin) as (_ & (t & Ht & Hid & Hne)).
  pose proof (tInv_run pre _ HI) as HI1.
  pose proof (tInv_step _ (TStart id v) HI1) as HI2. cbn [tStep snd] in HI2.
  assert (Hs : nth_error (timerStart (snd (tRun (timerInit num) pre)) id v) (N.to_nat id) = Some (mkTimer (t_id t) (u16 v))).
  { unfold timerStart. rewrite timerSetAt_nth, Ht, Nat.eqb_refl. reflexivity. }
  destruct (value_run post _ id _ HI2 Hs ltac:(cbn [t_id]; congruence) Hf) as (t' & Ha & Hb).
  unfold timerRunning. rewrite Ha, Hb. cbn [t_val]. lia.
Qed.
Lemma stopped_after_stop num pre id post :
  num <= 255 ->
  In id (valid (fst (tRun (timerInit num) pre))) ->
  Forall (fun op => ~ touches id op) post ->
  timerRunning (snd (tRun (timerStop (snd (tRun (timerInit num) pre)) id) post)) id = false.
Proof.
  intros Hn Hin Hf. pose proof (tInv_init num Hn) as HI.
  destruct (run_ids pre _ HI) as (_ & H2 & _). destruct (H2 id Hin) as (_ & (t & Ht & Hid & Hne)).
  pose proof (tInv_run pre _ HI) as HI1.
  pose proof (tInv_step _ (TStop id) HI1) as HI2. cbn [tStep snd] in HI2.
  assert (Hs : nth_error (timerStop (snd (tRun (timerInit num) pre)) id) (N.to_nat id) = Some (mkTimer (t_id t) 0)).
  { unfold timerStop. rewrite timerSetAt_nth, Ht, Nat.eqb_refl. reflexivity. }
  destruct (value_run post _ id _ HI2 Hs ltac:(cbn [t_id]; congruence) Hf) as (t' & Ha & Hb).
  unfold timerRunning. rewrite Ha, Hb. cbn [t_val]. lia.
Qed.

(* number of successful creations: the first num ones *)
Definition used (ts : Timers) : nat := length (filter (fun t => negb (t_id t =? TIMER_ID_INVALID)) ts).
Lemma filter_le {T} (f : T -> bool) l : (length (filter f l) <= length l)%nat.
Proof. induction l; cbn [filter length]; auto. destruct (f a); cbn [length]; lia. Qed.
Lemma create_count ts i : 
  let '(id, ts') := timerCreateFrom i ts in
  if Nat.ltb (used ts) (length ts)
  then used ts' = S (used ts) \/ exists k, id = i + N.of_nat k /\ id = TIMER_ID_INVALID
  else id = TIMER_ID_INVALID /\ ts' = ts.
Proof.
  revert i; induction ts as [|t r IH]; intros i; cbn [timerCreateFrom].
  - cbn. auto.
  - unfold used in *. cbn [filter length]. destruct (N.eqb_spec (t_id t) TIMER_ID_INVALID) as [E|E]; cbn [negb].
    + replace (Nat.ltb _ _) with true.
      2:{ symmetry. apply Nat.ltb_lt. pose proof (filter_le (fun t => negb (t_id t =? TIMER_ID_INVALID)) r). lia. }
      destruct (N.eq_dec i TIMER_ID_INVALID) as [Ei|Ei].
      * right. exists O. lia.
      * left. cbn [filter t_id]. replace (i =? TIMER_ID_INVALID) with false by lia. reflexivity.
    + specialize (IH (i + 1)). destruct (timerCreateFrom (i + 1) r) as [id r'].
      cbn [length]. change (Nat.ltb (S ?a) (S ?b)) with (Nat.ltb a b).
      destruct (Nat.ltb _ _) eqn:El.
      * destruct IH as [IH|(k & H1 & H2)].
        -- left. cbn [filter]. replace (t_id t =? TIMER_ID_INVALID) with false by lia. cbn [negb length]. lia.
        -- right. exists (S k). lia.
      * destruct IH as [-> ->]. auto.
Qed.

Lemma length_setAt ts i v : length (timerSetAt ts i v) = length ts.
Proof. revert i; induction ts as [|t r IH]; intros [|i]; cbn [timerSetAt length]; auto. Qed.
Lemma used_setAt ts i v : used (timerSetAt ts i v) = used ts.
Proof.
  unfold used. revert i; induction ts as [|t r IH]; intros [|i]; cbn [timerSetAt filter t_id]; auto;
    destruct (_ =? _); cbn [negb length]; rewrite ?IH; auto.
Qed.
Lemma used_process ts p : used (timerProcess ts p) = used ts.
Proof.
  unfold used, timerProcess. induction ts as [|t r IH]; cbn [map filter]; auto.
  destruct (t_id t =? TIMER_ID_INVALID) eqn:E; cbn [t_id]; rewrite E; cbn [negb length]; auto.
Qed.
Lemma used_run ops ts : (length ts <= 255)%nat ->
  (used (snd (tRun ts ops)) = used ts + length (valid (fst (tRun ts ops))))%nat /\
  length (snd (tRun ts ops)) = length ts.
Proof.
  revert ts; induction ops as [|op r IH]; intros ts Hl; cbn [tRun].
  - cbn [fst snd valid filter length]. lia.
  - destruct op as [|i v|i|p]; cbn [tStep].
    + unfold timerCreate. pose proof (createFrom_spec ts 0) as H. pose proof (create_count ts 0) as Hc.
      destruct (timerCreateFrom 0 ts) as [id ts1]. destruct H as [H0 H].
      specialize (IH ts1 ltac:(lia)). destruct (tRun ts1 r) as [ids ts2]. cbn [fst snd] in *.
      unfold valid in *. cbn [filter].
      destruct (N.eqb_spec id TIMER_ID_INVALID) as [E|E]; cbn [negb length].
      * destruct H as [(_ & -> & _)|(k & t & Ha & Hb & _)]; [lia|].
        assert (k < length ts)%nat by (apply nth_error_Some; congruence).
        unfold TIMER_ID_INVALID in E. lia.
      * destruct (Nat.ltb _ _); [destruct Hc as [Hc|(k & ? & ?)]; [lia|contradiction] | destruct Hc; contradiction].
    + specialize (IH (timerStart ts i v)). unfold timerStart in *. rewrite length_setAt, used_setAt in IH.
      specialize (IH Hl). destruct (tRun _ r). exact IH.
    + specialize (IH (timerStop ts i)). unfold timerStop in *. rewrite length_setAt, used_setAt in IH.
      specialize (IH Hl). destruct (tRun _ r). exact IH.
    + specialize (IH (timerProcess ts p)). rewrite used_process in IH. unfold timerProcess in *.
      rewrite map_length in IH. specialize (IH Hl). destruct (tRun _ r). exact IH.
Qed.
Lemma create_available num pre : num <= 255 ->
  (fst (timerCreate (snd (tRun (timerInit num) pre))) = TIMER_ID_INVALID <->
   N.of_nat (length (valid (fst (tRun (timerInit num) pre)))) = num).
Proof.
  intros Hn. assert (Hl : (length (timerInit num) <= 255)%nat) by (unfold timerInit; rewrite repeat_length; lia).
  destruct (used_run pre _ Hl) as [H1 H2].
  assert (H0 : used (timerInit num) = O).
  { unfold used, timerInit. induction (N.to_nat num); cbn [repeat filter]; auto. }
  rewrite H0 in H1. cbn [Nat.add] in H1.
  assert (H3 : length (timerInit num) = N.to_nat num) by (unfold timerInit; apply repeat_length).
  rewrite <- H1. unfold timerCreate. set (ts := snd _) in *.
  pose proof (createFrom_spec ts 0) as H. pose proof (create_count ts 0) as Hc.
  destruct (timerCreateFrom 0 ts) as [id ts1]. cbn [fst].
  pose proof (filter_le (fun t => negb (t_id t =? TIMER_ID_INVALID)) ts) as Hle. fold (used ts) in Hle.
  destruct (Nat.ltb_spec (used ts) (length ts)).
  - split; [|lia]. intros E. exfalso.
    destruct H as [_ [(_ & _ & Hall)|(k & t & Ha & Hb & _)]].
    + assert (used ts = length ts).
      { clear -Hall. unfold used. induction ts as [|t r IH]; cbn [filter length]; auto.
        replace (t_id t =? TIMER_ID_INVALID) with false by (symmetry; apply N.eqb_neq, Hall; left; auto).
        cbn [negb length]. rewrite IH; auto. intros t' Hin. apply Hall. right. auto. }
      lia.
    + assert (k < length ts)%nat by (apply nth_error_Some; congruence).
      unfold TIMER_ID_INVALID in E. lia.
  - destruct Hc as [-> _]. split; auto. intros _. lia.
Qed.

(* -- timers that are not started -- *)
Lemma createFrom_vals ts i : map t_val (snd (timerCreateFrom i ts)) = map t_val ts.
Proof.
  revert i. induction ts as [|t r IH]; intros i; [reflexivity|]. cbn [timerCreateFrom]. destruct (t_id t =? TIMER_ID_INVALID); [reflexivity|].
  specialize (IH (i + 1)). destruct (timerCreateFrom (i + 1) r). cbn [snd map] in *. rewrite IH. reflexivity.
Qed.
Definition idle (ts : Timers) (id : N) : Prop := forall t, nth_error ts (N.to_nat id) = Some t -> t_val t = 0.
Lemma idle_step ts op id : (forall v, op <> TStart id v) \/ (length ts <= N.to_nat id)%nat -> idle ts id -> idle (snd (tStep ts op)) id /\ length (snd (tStep ts op)) = length ts.
Proof.
  intros H HI. destruct op as [|i v|i|p]; cbn [tStep].
  - unfold timerCreate. pose proof (createFrom_vals ts 0) as HV. destruct (timerCreateFrom 0 ts) as [i r]. cbn [snd] in *.
    assert (HL : length r = length ts) by (rewrite <- (map_length t_val r), HV, map_length; reflexivity). split; [|exact HL].
    intros t Ht. apply (map_nth_error t_val) in Ht. rewrite HV in Ht.
    destruct (nth_error ts (N.to_nat id)) as [u|] eqn:EU; [rewrite (map_nth_error t_val _ _ EU) in Ht; injection Ht as <-; apply (HI u EU)|].
    apply nth_error_None in EU. assert (nth_error (map t_val ts) (N.to_nat id) <> None) by congruence. apply nth_error_Some in H0. rewrite map_length in H0. lia.
  - cbn [snd]. unfold timerStart. rewrite length_setAt. split; [|reflexivity]. intros t Ht. rewrite timerSetAt_nth in Ht. destruct H as [H|H].
    + destruct (Nat.eqb_spec (N.to_nat id) (N.to_nat i)) as [EQ|NE]; [exfalso; apply (H v); f_equal; lia|]. apply HI. destruct (nth_error ts (N.to_nat id)); exact Ht.
    + assert (X : nth_error ts (N.to_nat id) = None) by (apply nth_error_None; exact H). rewrite X in Ht. discriminate Ht.
  - cbn [snd]. unfold timerStop. rewrite length_setAt. split; [|reflexivity]. intros t Ht. rewrite timerSetAt_nth in Ht.
    destruct (nth_error ts (N.to_nat id)) as [u|] eqn:EU; [|discriminate Ht]. injection Ht as <-. destruct (_ =? _)%nat; [reflexivity|exact (HI u EU)].
  - cbn [snd]. split; [|unfold timerProcess; apply map_length]. intros t Ht. rewrite timerProcess_nth in Ht.
    destruct (nth_error ts (N.to_nat id)) as [u|] eqn:EU; [|discriminate Ht]. injection Ht as <-. pose proof (HI u EU). destruct (_ =? _); cbn [t_val]; lia.
Qed.
Lemma not_started num ops id : (forall v, ~ In (TStart id v) ops) \/ num <= id -> timerRunning (snd (tRun (timerInit num) ops)) id = false.
Proof.
  intros H. assert (HL : (forall v, ~ In (TStart id v) ops) \/ (length (timerInit num) <= N.to_nat id)%nat) by (unfold timerInit; rewrite repeat_length; destruct H; [auto|right; lia]).
  assert (HI : idle (timerInit num) id).
  { intros t Ht. apply nth_error_In in Ht. unfold timerInit in Ht. apply repeat_spec in Ht. subst t. reflexivity. }
  clear H. revert HI HL. generalize (timerInit num). induction ops as [|op r IH]; intros ts HI HL; cbn [tRun snd].
  - unfold timerRunning. destruct (nth_error ts (N.to_nat id)) as [t|] eqn:ET; [rewrite (HI t ET); reflexivity|reflexivity].
  - destruct (idle_step ts op id) as [H1 H2]; [destruct HL as [HL|HL]; [left; intros v ->; apply (HL v); left; reflexivity|auto]|exact HI|].
    destruct (tStep ts op) as [o ts1]. cbn [snd] in H1, H2. specialize (IH ts1 H1). destruct (tRun ts1 r). cbn [snd] in *. apply IH.
    destruct HL as [HL|HL]; [left; intros v X; apply (HL v); right; exact X|right; lia].
Qed.
