(* Proof_Init.v - what initialisation leaves behind; power loss *)
From Verif Require Export Frame Proof_Restore.

Section I.
Context {A : Type} {E : Env A}.
Lemma bind_upd {T} f (k : unit -> M A T) w : bind (upd f) k w = k tt (f w).
Proof. reflexivity. Qed.
Lemma bind_emit {T} o (k : unit -> M A T) w : bind (emit o) k w = k tt (set_out (o :: w_out w) w).
Proof. reflexivity. Qed.
Lemma bind_get {T U} (g : World A -> U) (k : U -> M A T) w : bind (get g) k w = k (g w) w.
Proof. reflexivity. Qed.

(* RAM part of the factory restore *)
Definition ramReset (w : World A) : World A :=
  set_xseq 0 (set_xcount 0 (set_xaddr 0 (set_xpage 0 (set_page 0 (set_alarm 0 w))))).
Lemma restore_split w : restoreFactory w = restoreRest (snd (writeNicknameId NICK_NOT_INIT (ramReset w))).
Proof. unfold restoreFactory. rewrite !bind_upd. reflexivity. Qed.
Lemma writeNick_state (w : World A) v : v < 256 ->
  snd (writeNicknameId v w) = set_nick v (set_out (OPs (ps_nick cfg) v :: w_out w) (set_ps (fupd (w_ps w) (ps_nick cfg) v) w)).
Proof.
  intros H. unfold writeNicknameId, ps_writeNicknameId, ps_readNicknameId, psWrite8, psRead8, emit, bind, upd, get.
  cbn [fst snd]. wsimp. rewrite (u8_small v H). unfold fupd at 1. rewrite N.eqb_refl. reflexivity.
Qed.
Lemma restore_pres {T} (f : World A -> T) : (forall v w, f (set_ps v w) = f w) -> (forall v w, f (set_out v w) = f w) ->
  (forall v w, f (set_app v w) = f w) ->
  forall w, f (snd (restoreFactory w)) = f (snd (writeNicknameId NICK_NOT_INIT (ramReset w))).
Proof. intros H1 H2 H3 w. rewrite restore_split. apply pres_restoreRest; assumption. Qed.
Lemma restore_ram w : let w' := snd (restoreFactory w) in
  w_nick w' = 255 /\ w_alarm w' = 0 /\ w_page w' = 0 /\ w_xcount w' = 0 /\ w_st w' = w_st w /\ w_rreq w' = w_rreq w /\
  w_tm w' = w_tm w /\ w_ub w' = w_ub w /\ w_ngub w' = w_ngub w.
Proof.
  cbv zeta. repeat split;
    (match goal with |- ?f (snd (restoreFactory _)) = _ => rewrite (restore_pres f) by reflexivity end;
     rewrite writeNick_state by (unfold NICK_NOT_INIT; lia); reflexivity).
Qed.

(* the creation of the timers leaves memory, nickname and state alone *)
Lemma initTimers_frame w : w_ps (snd (initTimers w)) = w_ps w /\ w_nick (snd (initTimers w)) = w_nick w /\ w_st (snd (initTimers w)) = w_st w.
Proof.
  assert (H : forall T (f : World A -> T), (forall v w, f (set_tm v w) = f w) -> (forall v w, f (set_tSt v w) = f w) ->
     (forall v w, f (set_tGuid v w) = f w) -> (forall v w, f (set_t162 v w) = f w) -> (forall v w, f (set_tEp v w) = f w) ->
     (forall v w, f (set_tHb v w) = f w) -> pres f initTimers).
  { intros T f H0 H1 H2 H3 H4 H5. unfold initTimers, createTimer, timer_start. pres_tac; auto. }
  repeat split; apply H; reflexivity.
Qed.
Lemma initHead_frame w : w_ps (snd (initHead w)) = w_ps w /\ w_nick (snd (initHead w)) = w_ps w (ps_nick cfg) /\
  w_st (snd (initHead w)) = STARTUP.
Proof.
  unfold initHead, tp_init, dm_init, ps_readNicknameId, psRead8, emit, bind, upd, get. cbn [fst snd]. wsimp.
  destruct (c_loop cfg), (c_dm cfg), (c_dm_paged cfg); repeat split; reflexivity.
Qed.
Hypothesis VE : valid_env E.

(* start-up control value in the node control flags *)
Definition validCtrl (ps : N -> N) : bool :=
  let c := N.land (N.shiftr (ps (ps_ctrl cfg)) 6) 3 in (c =? 1) || (c =? 2).
Lemma init_spec ps0 w : PreInv ps0 w ->
  let w' := snd (core_init w) in
  fst (core_init w) = allTimers /\
  (allTimers = true -> w_st w' = STARTUP) /\
  (validCtrl (w_ps w) = true -> (forall a, w_ps w' a = w_ps w a) /\ w_nick w' = w_ps w (ps_nick cfg)) /\
  (validCtrl (w_ps w) = false -> w_nick w' = 255 /\
     forall f i, i < fieldLen cfg f -> stored w' f i = match actual f i with Some v => v | None => stored w f i end).
Proof.
  intros HP. cbv zeta. rewrite core_init_eq.
  destruct (initHead_ok ps0 VE w HP) as [H1 _]. destruct (initTimers_ok ps0 VE _ H1) as (H2 & R2 & _).
  destruct (initHead_frame w) as (P1 & N1 & S1). set (wh := snd (initHead w)) in *.
  destruct (initTimers_frame wh) as (P2 & N2 & S2). set (wt := snd (initTimers wh)) in *.
  rewrite R2. assert (PT : w_ps wt = w_ps w) by congruence. assert (NT : w_nick wt = w_ps w (ps_nick cfg)) by congruence.
  assert (ST : w_st wt = STARTUP) by congruence. clearbody wt. clear R2.
  unfold initTail. unfold getStartUpControl. unfold ps_readCtrl, psRead8. rewrite !bind_assoc, !bind_get, !bind_ret. rewrite PT.
  unfold validCtrl. cbv zeta. set (c := N.land (N.shiftr (w_ps w (ps_ctrl cfg)) 6) 3).
  destruct (negb (c =? 1) && negb (c =? 2)) eqn:Q.
  - assert (QV : (c =? 1) || (c =? 2) = false) by lia. rewrite QV.
    assert (K : w_st (snd (restoreFactory wt)) = STARTUP) by (rewrite (proj1 (proj2 (proj2 (proj2 (proj2 (restore_ram wt)))))); exact ST).
    destruct allTimers; cbn [negb].
    + unfold bind, ret. cbn [fst snd]. split; [reflexivity|]. split; [intros _; exact K|]. split; [discriminate|].
      intros _. split; [apply restore_ram|]. intros f i Hi. rewrite (restore_sets VE wt f i Hi).
      rewrite (stored_ext w wt) by (assumption || (intros; rewrite PT; reflexivity)). reflexivity.
    + assert (W : forall X (g : World A -> X), (forall v w, g (set_out v w) = g w) -> (forall v w, g (set_st v w) = g w) -> pres g changeToStateError).
      { intros X g G1 G2. unfold changeToStateError. pres_tac; auto. }
      unfold bind, ret. cbn [fst snd]. split; [reflexivity|]. split; [discriminate|]. split; [discriminate|].
      intros _. split; [rewrite (W _ w_nick) by reflexivity; apply restore_ram|]. intros f i Hi.
      rewrite (stored_ext (snd (restoreFactory wt))) by (assumption || (intros; rewrite (W _ w_ps) by reflexivity; reflexivity)).
      rewrite (restore_sets VE wt f i Hi).
      rewrite (stored_ext w wt) by (assumption || (intros; rewrite PT; reflexivity)). reflexivity.
  - assert (QV : (c =? 1) || (c =? 2) = true) by lia. rewrite QV. destruct allTimers; cbn [negb].
    + unfold bind, ret. cbn [fst snd]. split; [reflexivity|]. split; [intros _; exact ST|]. split; [|discriminate].
      intros _. split; [intros; rewrite PT; reflexivity|exact NT].
    + assert (W : forall X (g : World A -> X), (forall v w, g (set_out v w) = g w) -> (forall v w, g (set_st v w) = g w) -> pres g changeToStateError).
      { intros X g G1 G2. unfold changeToStateError. pres_tac; auto. }
      unfold bind, ret. cbn [fst snd]. split; [reflexivity|]. split; [discriminate|]. split; [|discriminate].
      intros _. rewrite (W _ w_nick) by reflexivity. split; [intros; rewrite (W _ w_ps) by reflexivity; rewrite PT; reflexivity|exact NT].
Qed.
End I.

(* ---- statements used by Prop_PS.v ---- *)
Section J.
Context {A : Type} {E : Env A}.
Hypothesis VE : valid_env E.

Lemma actual_default f i : restoreReaches cfg f i = true -> i < fieldLen cfg f -> actual f i = factoryDefault cfg f i.
Proof.
  intros H Hi. destruct f; try reflexivity; cbn [restoreReaches actual] in *; try (rewrite H; reflexivity).
  all: apply N.eqb_eq in H; subst i; cbn [factoryDefault]; destruct (d_family cfg); [|reflexivity]; f_equal;
    rewrite N.shiftr_0_r; change 255 with (N.ones 8); rewrite N.land_ones; change (2 ^ (8 * 0)) with 1; rewrite N.div_1_r; reflexivity.
Qed.
Lemma validCtrl_iff (w : World A) : (forall a, w_ps w a < 256) ->
  validCtrl (w_ps w) = true <-> stored w FCtrl 0 / 64 = 1 \/ stored w FCtrl 0 / 64 = 2.
Proof.
  intros H. assert (HL : 0 < fieldLen cfg FCtrl) by reflexivity.
  unfold stored. rewrite (readField_eq FCtrl 0 w HL). unfold validCtrl. cbv zeta. unfold fieldBase. rewrite N.add_0_r.
  specialize (H (ps_ctrl cfg)). set (x := w_ps w (ps_ctrl cfg)) in *.
  change 3 with (N.ones 2). rewrite N.land_ones, N.shiftr_div_pow2. change (2 ^ 6) with 64. change (2 ^ 2) with 4.
  rewrite N.mod_small by lia. lia.
Qed.

Lemma stored_nick (w : World A) : stored w FNick 0 = w_ps w (ps_nick cfg).
Proof. unfold stored. rewrite (readField_eq FNick 0 w) by reflexivity. unfold fieldBase. rewrite N.add_0_r. reflexivity. Qed.

Lemma init_restarted ps0 (w : World A) : PreInv ps0 w -> timersNeeded cfg <= c_timers cfg ->
  fst (core_init w) = true /\ restarted w (snd (core_init w)).
Proof.
  intros HP HT. pose proof (init_spec VE ps0 w HP) as H. cbv zeta in H. destruct H as (H0 & H1 & H2 & H3).
  assert (AT : allTimers = true) by (unfold allTimers, ntimers; unfold timersNeeded in HT; lia).
  assert (HB : forall a, w_ps w a < 256) by apply HP.
  pose proof (validCtrl_iff w HB) as HV.
  split; [congruence|]. split; [apply H1; exact AT|]. split.
  - intros K. apply HV in K. destruct (H2 K) as [K1 K2]. unfold readNicknameId. rewrite stored_nick. auto.
  - intros K. destruct (validCtrl (w_ps w)) eqn:Q; [exfalso; apply K, HV; reflexivity|].
    destruct (H3 eq_refl) as [K1 K2]. split; [exact K1|]. intros f i Hi HR. rewrite (K2 f i Hi), (actual_default f i HR Hi). reflexivity.
Qed.
Lemma restarted_ext (w1 w2 w' : World A) : (forall a, w_ps w1 a = w_ps w2 a) -> restarted w1 w' -> restarted w2 w'.
Proof.
  intros H (H1 & H2 & H3).
  assert (S : forall f i, i < fieldLen cfg f -> stored w1 f i = stored w2 f i).
  { intros f i Hi. apply stored_ext; assumption. }
  assert (SC : stored w1 FCtrl 0 = stored w2 FCtrl 0) by (apply S; reflexivity).
  assert (SN : stored w1 FNick 0 = stored w2 FNick 0) by (apply S; reflexivity).
  rewrite SC in *. split; [exact H1|]. split.
  - intros K. destruct (H2 K) as [K1 K2]. split; [congruence|]. intros a. rewrite K2. apply H.
  - intros K. destruct (H3 K) as [K1 K2]. split; [exact K1|]. intros f i Hi HR. rewrite (K2 f i Hi HR), (S f i Hi). reflexivity.
Qed.
Lemma firstn_rev' {T} k (d : list T) : firstn k (rev d) = rev (skipn (length d - k) d).
Proof. rewrite <- (rev_involutive d) at 2 3. rewrite skipn_rev, rev_involutive, !rev_length.
  destruct (Nat.le_gt_cases k (length d)).
  - f_equal. lia.
  - replace (length d - (length d - k))%nat with (length d) by lia. rewrite !firstn_all2; rewrite ?rev_length; try lia. reflexivity.
Qed.
Lemma crash_restarted (w : World A) o k a : reachable w -> op_wf o -> timersNeeded cfg <= c_timers cfg ->
  restarted (inMem (memAfter (w_ps w) (firstn k (effects w (snd (step o w))))) w) (stepE (ECrash o k a) w).
Proof.
  intros HR Ho HT. destruct (reach_inv VE w HR) as [ps0 Hw]. cbn [stepE]. cbv zeta.
  destruct (ok_step ps0 VE o Ho w Hw) as (H1 & H2 & _). set (w1 := snd (step o w)) in *.
  destruct H2 as [d0 HO]. assert (EF : effects w w1 = rev d0) by (apply effects_app; exact HO). rewrite EF, firstn_rev'.
  assert (SK : skipn (length (w_out w1) - (length (w_out w) + k)) (w_out w1) = skipn (length d0 - k) d0 ++ w_out w).
  { rewrite HO, app_length. replace (length d0 + length (w_out w) - _)%nat with (length d0 - k)%nat by lia. apply skipn_suffix. lia. }
  rewrite SK. set (d := skipn (length d0 - k) d0).
  assert (FN : firstn (length (d ++ w_out w) - length (w_out w)) (d ++ w_out w) = d).
  { rewrite app_length. replace (length d + _ - _)%nat with (length d + 0)%nat by lia. rewrite firstn_app_2. cbn [firstn]. apply app_nil_r. }
  rewrite FN.
  assert (HF : Forall okObs (d ++ w_out w)).
  { pose proof (i_out _ w1 H1) as F. rewrite HO in F. apply Forall_app in F. destruct F as [F1 F2]. apply Forall_app. split; [|exact F2].
    rewrite <- (firstn_skipn (length d0 - k) d0) in F1. apply Forall_app in F1. apply F1. }
  assert (HRp : forall x, replay (w_ps w) d x = replay ps0 (d ++ w_out w) x).
  { intros x. rewrite replay_app. apply replay_eq. apply (i_replay _ w Hw). }
  set (wb := boot (replay (w_ps w) d) a (w_wr w1) (OPower :: d ++ w_out w) (w_ub w1) (w_ngub w1)).
  assert (HP : PreInv ps0 wb).
  { apply boot_pre.
    + intros x. apply replay_byte; [apply (i_ps _ w Hw)|]. apply Forall_app in HF. apply HF.
    + exact HRp.
    + constructor; [exact Logic.I|exact HF].
    + apply (i_ub _ w1 H1).
    + apply (i_ngub _ w1 H1). }
  apply (restarted_ext wb); [|apply (init_restarted ps0 wb HP HT)].
  intros x. unfold inMem. wsimp. change (w_ps wb x) with (replay (w_ps w) d x). rewrite <- replay_memAfter, rev_involutive. reflexivity.
Qed.
Lemma powerUp_restarted ps0 a wr : (forall x, ps0 x < 256) -> timersNeeded cfg <= c_timers cfg ->
  restarted (inMem ps0 (boot ps0 a wr [] false false)) (powerUp ps0 a wr).
Proof.
  intros H HT. eapply restarted_ext; [|apply (init_restarted ps0 (boot ps0 a wr [] false false)); [|exact HT]].
  - reflexivity.
  - apply boot_pre; auto.
Qed.

Lemma reach_app_memory ps0 (w : World A) : reachableFrom ps0 w ->
  (forall a v, In (OPs a v) (w_out w) -> a < psArea cfg) /\ forall a, psArea cfg <= a -> w_ps w a = ps0 a.
Proof.
  intros H. pose proof (reachFrom_inv VE ps0 w H) as HI. rewrite psArea_next. split.
  - intros a v HIn. pose proof (i_out _ w HI) as F. rewrite Forall_forall in F. apply (F _ HIn).
  - intros a Ha. rewrite (i_replay _ w HI). pose proof (i_out _ w HI) as F. clear -F Ha.
    induction (w_out w) as [|o l IH]; [reflexivity|]. inversion F; subst. destruct o; cbn [replay]; auto.
    unfold fupd. cbn in H1. destruct (N.eqb_spec a a0); [lia|auto].
Qed.
Lemma reach_nick (w : World A) : reachable w -> readNicknameId w = stored w FNick 0.
Proof. intros H. destruct (reach_inv VE w H) as [ps0 HI]. rewrite stored_nick. apply (i_nick _ w HI). Qed.
End J.
