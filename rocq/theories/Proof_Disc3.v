(* Proof_Disc3.v - an active node and its nickname *)
From Verif Require Export Proof_Disc2.

Section H.
Context {A : Type} {E : Env A}.
Implicit Types w : World A.

Definition nameless w : Prop := w_st w = ACTIVE /\ w_nick w = 255.
Definition lostName (o : Obs) : Prop := o = OAppRestore \/ exists f ok, o = OTx f ok /\ m_class f = 0 /\ m_type f = 7 /\ m_oaddr f = 255.
Definition RN w w' : Prop := exists l, w_out w' = l ++ w_out w /\ (nameless w' -> nameless w \/ Exists lostName l).
Lemma RN_refl w : RN w w. Proof. exists []. auto. Qed.
Lemma RN_trans (a b c : World A) : RN a b -> RN b c -> RN a c.
Proof.
  intros (l1 & O1 & H1) (l2 & O2 & H2). exists (l2 ++ l1). rewrite O2, O1, app_assoc. split; [reflexivity|]. rewrite Exists_app.
  intros H. destruct (H2 H) as [X|X]; [destruct (H1 X) as [Y|Y]; auto|auto].
Qed.
Lemma RN_same w w' : w_out w' = w_out w -> w_st w' = w_st w -> w_nick w' = w_nick w -> RN w w'.
Proof. intros H1 H2 H3. exists []. split; [exact H1|]. unfold nameless. rewrite H2, H3. auto. Qed.
Lemma RN_emit o : rel RN (@emit A o).
Proof. intros w. exists [o]. split; [reflexivity|]. auto. Qed.
Lemma RN_away w w' : ext w w' -> w_st w' <> ACTIVE -> RN w w'.
Proof. intros [d D] H. exists d. split; [exact D|]. intros [X _]. contradiction. Qed.
Lemma ext_nick v : rel (@ext A) (writeNicknameId v).
Proof. intros w. exists [OPs (ps_nick cfg) (u8 v)]. reflexivity. Qed.
Lemma ext_parts : (forall b, rel (@ext A) (changeToStateInit b)) /\ rel (@ext A) changeToStateIdle /\ (forall t, rel (@ext A) (changeToStateReset t)) /\ rel (@ext A) restoreFactory /\ rel (@ext A) handleDropNickname.
Proof.
  pose (R := @ext A). assert (Rrefl : forall w, R w w) by apply ext_refl. assert (Rtrans : forall a b c, R a b -> R b c -> R a c) by apply ext_trans.
  assert (S : forall w w', w_out w' = w_out w -> R w w') by (intros w w' H; exists []; exact H).
  assert (X_e : forall o, rel R (@emit A o)) by (intros o w; exists [o]; reflexivity).
  change ((forall b, rel R (changeToStateInit b)) /\ rel R changeToStateIdle /\ (forall t, rel R (changeToStateReset t)) /\ rel R restoreFactory /\ rel R handleDropNickname). clearbody R.
  Ltac lx S X_e := intros; try (unfold setUB, setNgUB, timer_start, timer_stop); first [apply X_e | apply rel_upd; intros; apply S; reflexivity | apply S; reflexivity].
  tr_active2 R ltac:(lx S X_e). auto.
Qed.
Lemma toReset_st t w : w_st (snd (changeToStateReset t w)) = RESET.
Proof.
  unfold changeToStateReset. rewrite bind_get. destruct (w_st w) eqn:S; cbn [state_eqb negb]; try exact S;
    rewrite bind_emit, !bind_upd, bind_get; destruct (0 <? t); reflexivity.
Qed.
Lemma toIdle_st w : w_st (snd (changeToStateIdle w)) = IDLE.
Proof.
  unfold changeToStateIdle. rewrite bind_get. destruct (w_st w) eqn:S; cbn [state_eqb negb]; try exact S;
    rewrite bind_emit, bind_upd; destruct (c_idle_co cfg); reflexivity.
Qed.
Lemma snd_bind {T U} (m : M A T) (k : T -> M A U) w : snd (bind m k w) = snd (k (fst (m w)) (snd (m w))). Proof. reflexivity. Qed.
Lemma drop_away w : w_st (snd (handleDropNickname w)) <> ACTIVE \/ snd (handleDropNickname w) = w.
Proof.
  unfold handleDropNickname, rxSize, rxForMe, rxd. rewrite !bind_get. match goal with |- context [if ?c then _ else _] => destruct c end; [|right; reflexivity].
  match goal with |- context [if ?c then _ else _] => destruct c end.
  { left. rewrite snd_bind, toReset_st. discriminate. }
  match goal with |- context [if ?c then _ else _] => destruct c end; [|right; reflexivity].
  left. rewrite !bind_get. cbv zeta. rewrite snd_bind. match goal with |- context [snd (?m w)] => set (v := snd (m w)); clearbody v end.
  destruct (bitset _ 5); [rewrite toReset_st; discriminate|]. destruct (bitset _ 7); rewrite snd_bind; [rewrite toIdle_st|rewrite toReset_st]; discriminate.
Qed.
Lemma RN_setNickname : rel RN (@handleSetNickname A E).
Proof.
  intros w. remember (snd (handleSetNickname w)) as w' eqn:HW. unfold handleSetNickname, rxSize, rxForMe, rxd in HW. rewrite !bind_get in HW.
  match type of HW with context [if ?c then _ else _] => destruct c end; [|subst w'; apply RN_refl].
  set (d1 := at0 _ _) in HW. rewrite snd_bind in HW.
  match type of HW with _ = snd (_ ?v) => set (v1 := v) in HW end.
  destruct (send_prot PT_NICKNAME_ACCEPTED PRIO_7_LOW [] v1) as (ok & v & EQ & HO & K); [apply Nat.leb_le; reflexivity|]. rewrite (bind_run _ _ _ _ _ EQ) in HW.
  destruct (nick_keeps _ _ K) as (K1 & K2 & _). cbn [ret snd] in HW. subst w'. eexists [OTx _ ok; OPs _ _]. split; [rewrite HO; reflexivity|].
  intros [_ X]. right. apply Exists_cons_hd. right. eexists _, _. split; [reflexivity|].
  destruct (protFrame_mk 7 7 (w_nick v1) []) as (P1 & P2 & P3 & P4 & _); [apply Nat.leb_le; reflexivity|]. split; [exact P1|]. split; [exact P2|]. rewrite <- X, K1. exact P4.
Qed.
Lemma RN_restore : rel RN (@restoreFactory A E).
Proof.
  intros w.
  assert (X : exists v, ext w v /\ snd (restoreFactory w) = set_app (app_restore (w_app v)) (set_out (OAppRestore :: w_out v) v)).
  { unfold restoreFactory. repeat rewrite snd_bind. cbv beta. match goal with |- exists v, _ /\ snd (upd _ (snd (emit OAppRestore ?u))) = _ => exists u end. split; [|reflexivity].
    assert (Rrefl := @ext_refl A). assert (Rtrans := @ext_trans A).
    assert (S : forall w w', w_out w' = w_out w -> ext w w') by (intros a b H; exists []; exact H).
    assert (P : forall a v, rel (@ext A) (psWrite8 a v)) by (intros a v u; exists [OPs a (u8 v)]; reflexivity).
    assert (C : forall T (m : M A T) u, ext w u -> rel (@ext A) m -> ext w (snd (m u))) by (intros T m u H1 H2; exact (Rtrans _ _ _ H1 (H2 u))).
    repeat (apply C; [|]); try exact (Rrefl w); try (apply rel_upd; intros; apply S; reflexivity); try match goal with |- rel _ (writeNicknameId _) => apply ext_nick end.
    - unfold ps_writeCRC. rel_tac.
    - unfold ps_writeCtrl. rel_tac.
    - apply rel_forM; auto. intros i. unfold ps_writeUserId, psWriteIdx. rel_tac.
    - apply tr_dd_restore; auto.
    - destruct (c_dm cfg); [apply tr_dm_restore; auto|rel_tac].
    - destruct (c_dm_ng cfg); [apply tr_ng_restore; auto|rel_tac]. }
  destruct X as (v & [d D] & ->). exists (OAppRestore :: d). wsimp. rewrite D. split; [reflexivity|]. intros _. right. apply Exists_cons_hd. left. reflexivity.
Qed.
Lemma RN_parts : rel RN (@stateActive A E) /\ (forall c, rel RN (@doApi A E c)).
Proof.
  destruct ext_parts as (E1 & E2 & E3 & _ & E5).
  assert (Rrefl := RN_refl). assert (Rtrans := RN_trans). assert (S := RN_same). assert (X_e := RN_emit). assert (s_restore := RN_restore).
  assert (s_sn := RN_setNickname).
  assert (s_dn : rel RN handleDropNickname). { intros w. destruct (drop_away w) as [H|H]; [apply RN_away; [apply E5|exact H]|rewrite H; apply Rrefl]. }
  assert (s_init : forall b, rel RN (changeToStateInit b)) by (intros b w; apply RN_away; [apply E1|rewrite toInit_st; discriminate]).
  assert (s_idle : rel RN changeToStateIdle) by (intros w; apply RN_away; [apply E2|rewrite toIdle_st; discriminate]).
  assert (s_reset : forall t, rel RN (changeToStateReset t)) by (intros b w; apply RN_away; [apply E3|rewrite toReset_st; discriminate]).
  assert (s_nr : rel RN (writeNicknameId NICK_NOT_INIT ;; changeToStateReset 0)).
  { intros w. apply RN_away; [|rewrite snd_bind, toReset_st; discriminate]. rewrite snd_bind. apply (ext_trans _ _ _ (ext_nick NICK_NOT_INIT w)). apply E3. }
  pose (R := RN). fold R in s_nr. change (rel R (@stateActive A E) /\ (forall c, rel R (@doApi A E c))). fold R in Rrefl, Rtrans, S, X_e, s_restore, s_sn, s_dn, s_init, s_idle, s_reset. clearbody R.
  Ltac ln S X_e := intros; try (unfold setUB, setNgUB, timer_start, timer_stop); first [apply X_e | apply rel_upd; intros; apply S; reflexivity | apply S; reflexivity].
  assert (s_ub : rel R setUB) by ln S X_e.
  assert (s_tx : forall m, rel R (tp_writeMessage m)).
  { unfold tp_writeMessage, adapterWrite, loopWrite. rel_tac; try (ln S X_e). destruct (w_txe _ <? 255); ln S X_e. }
  assert (s_api : forall c, rel R (doApi c)).
  { unfold doApi, startNodeSegmentInit, setAlarm, setTimeSinceEpoch, enableHeartbeat, log_enable, log_setLevel, tp_getTransmitErrors. intros c. destruct c; rel_tac; try (ln S X_e); [eapply tr_log_log; eauto|..]; unfold ps_writeLogId, ps_writeZone, ps_writeSub, psWrite8; rel_tac; ln S X_e. }
  assert (s_guid : rel R handleGuidDrop).
  { unfold handleGuidDrop, startNodeSegmentInit, timer_running. set (nr := bind (writeNicknameId NICK_NOT_INIT) _) in *. clearbody nr. rel_tac; try (ln S X_e). all: unfold dd_getGUID, ps_readGUID, psReadIdx, psRead8; rel_tac. }
  tr_active2 R ltac:(ln S X_e). auto.
Qed.
Theorem keepsName o w : valid_env E -> op_wf o -> reachable w -> let w' := snd (step o w) in nameless w' -> nameless w \/ Exists lostName (effects w w').
Proof.
  intros VE WF HR. cbv zeta. intros HN. destruct RN_parts as (PA & PC).
  assert (G : forall l w', w_out w' = l ++ w_out w -> Exists lostName l -> Exists lostName (effects w w')).
  { intros l w' Hl He. rewrite (effects_app w w' l Hl). apply Exists_rev; exact He. }
  destruct o as [rd|p|c|].
  - destruct (epilogue_history rd w) as (b & EQ). cbv zeta in EQ. set (w1 := snd (prologue rd w)) in *. fold (after w rd) in HN |- *.
    assert (S1 : w_st w1 = w_st w) by apply prologue_st. assert (N1 : w_nick w1 = w_nick w) by (apply pres_prologue; reflexivity).
    destruct (w_st w) eqn:SW.
    + exfalso. destruct HN as [H1 H2]. rewrite EQ in H1, H2. wsimp_in H1. wsimp_in H2. unfold dispatch in H1, H2. rewrite bind_get, S1, snd_retb in H1, H2.
      unfold stateStartup in H1, H2. rewrite bind_get in H1, H2. change NICK_NOT_INIT with 255 in *. destruct (w_nick w1 =? 255) eqn:Q.
      * clear H2. destruct (c_silent cfg) eqn:SIL.
        -- rewrite bind_get in H1. match type of H1 with context [if ?c then _ else _] => destruct c end; [|cbn [snd ret] in H1; congruence].
           assert (X : onlyTo [INIT] w1 (snd (handleGuidDrop w1))).
           { apply startup_guid; try exact S1; try reflexivity; try (intros; left; reflexivity).
             - unfold onlyTo. intros x y z [X1|X1] [X2|X2]; rewrite ?X2, ?X1 in *; auto.
             - intros b1 v. right. left. symmetry. apply toInit_st. - exact SIL. }
           destruct X as [X|[X|[]]]; congruence.
        -- unfold getStartUpControl, ps_readCtrl, psRead8 in H1. rewrite bind_assoc, bind_get, bind_ret in H1. match type of H1 with context [if ?c then _ else _] => destruct c end; [rewrite toInit_st in H1; discriminate H1|cbn [snd ret] in H1; congruence].
      * destruct (toActive_step w1) as (f & ok & _ & _ & _ & T4 & _); [congruence|]. rewrite T4 in H2. lia.
    + left. exfalso. destruct (adoption VE rd w HR SW) as (o & d & f & rec & _ & _ & _ & _ & X & _). { unfold isActive. rewrite (proj1 HN). reflexivity. } apply X, HN.
    + right. destruct (assigned VE rd w WF HR SW) as (m & f1 & ok1 & f2 & ok2 & _ & _ & X & FR & F1 & F2). { unfold isActive. rewrite (proj1 HN). reflexivity. }
      cbv zeta in *. unfold readNicknameId in X. rewrite (proj2 HN) in X. rewrite <- X in F1. apply Exists_exists. exists (OTx f1 ok1). split.
      * assert (In (f1, ok1) (frames (effects w (after w rd)))) by (rewrite FR; left; reflexivity). unfold frames in H. apply in_flat_map in H. destruct H as (o & H1 & H2).
        destruct o; try (exfalso; exact H2). destruct H2 as [H2|[]]. injection H2 as -> ->. exact H1.
      * right. exists f1, ok1. split; [reflexivity|]. repeat split; apply F1.
    + assert (RN w (after w rd)).
      { rewrite EQ. apply RN_trans with w1. { exists ((match received rd w with Some m => [ORx m] | None => [] end) ++ [OProcess]). unfold w1. rewrite prologue_out, <- app_assoc. split; [reflexivity|]. fold w1. intros [_ X]. left. split; congruence. }
        apply RN_trans with (snd (dispatch w1)). { unfold dispatch. rewrite bind_get, S1. apply PA. }
        exists [ORet b]. split; [reflexivity|]. auto. }
      destruct H as (l & HL & HX). destruct (HX HN) as [X|X]; [left; exact X|right; exact (G l _ HL X)].
    + exfalso. destruct HN as [H1 _]. rewrite EQ in H1. wsimp_in H1. unfold dispatch in H1. rewrite bind_get, S1 in H1. cbn [snd ret] in H1. congruence.
    + exfalso. destruct HN as [H1 _]. pose proof (dispatch_st w1) as X. rewrite EQ in H1. wsimp_in H1. rewrite S1, H1 in X. destruct X as [X|[]]; discriminate X.
    + exfalso. destruct HN as [H1 _]. pose proof (dispatch_st w1) as X. rewrite EQ in H1. wsimp_in H1. rewrite S1, H1 in X. destruct X as [X|[]]; discriminate X.
  - left. exact HN.
  - destruct (PC c w) as (l & HL & HX). destruct (HX HN) as [X|X]; [left; exact X|right; exact (G l _ HL X)].
  - exfalso. destruct HN as [X _]. rewrite (init_state VE w HR) in X. destruct (_ <=? _); discriminate X.
Qed.
End H.
