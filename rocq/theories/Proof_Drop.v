(* Proof_Drop.v - serving DROP_NICKNAME *)
From Verif Require Export Proof_Proto.

(* two nodes that agree in everything visible behave the same *)
Section B.
Context {A : Type} {E : Env A}.
Implicit Types w a b : World A.
Variables o1 o2 : list Obs.
Definition agree a b : Prop := same a b /\ exists d, w_out a = d ++ o1 /\ w_out b = d ++ o2.
Definition bi {T} (m : M A T) : Prop := forall a b, agree a b -> fst (m a) = fst (m b) /\ agree (snd (m a)) (snd (m b)).
Lemma bi_ret {T} (r : T) : bi (ret r). Proof. intros a b H. split; [reflexivity|exact H]. Qed.
Lemma bi_bind {T U} (m : M A T) (k : T -> M A U) : bi m -> (forall r, bi (k r)) -> bi (bind m k).
Proof. intros Hm Hk a b H. unfold bind. destruct (Hm a b H) as [H1 H2]. rewrite <- H1. apply Hk. exact H2. Qed.
Lemma bi_if {T} (c : bool) (m m' : M A T) : bi m -> bi m' -> bi (if c then m else m').
Proof. destruct c; auto. Qed.
Lemma bi_forM {X} (l : list X) (f : X -> M A unit) : (forall x, bi (f x)) -> bi (forM l f).
Proof. intros H. induction l as [|x l IH]; cbn [forM]; [apply bi_ret|]. apply bi_bind; [apply H|]. intros _. exact IH. Qed.
Lemma bi_get {T} (f : World A -> T) : (forall a b, same a b -> f a = f b) -> bi (get f).
Proof. intros H a b S. split; [apply H, S|exact S]. Qed.
Lemma bi_emit o : bi (emit o).
Proof. intros a b [S (d & H1 & H2)]. split; [reflexivity|]. unfold emit, upd. cbn [snd]. split; [samet S|]. exists (o :: d). cbn. rewrite H1, H2. split; reflexivity. Qed.
Lemma bi_upd f : (forall a b, same a b -> same (f a) (f b)) -> (forall a, w_out (f a) = w_out a) -> bi (upd f).
Proof. intros H1 H2 a b [S (d & G1 & G2)]. split; [reflexivity|]. split; [apply H1, S|]. exists d. cbn. rewrite !H2. split; assumption. Qed.
Lemma bi_psRead8 x : bi (psRead8 x). Proof. apply bi_get. intros a b S. rewrite (same_ps _ _ S). reflexivity. Qed.
Lemma bi_psWrite8 x v : bi (psWrite8 x v).
Proof. apply bi_bind; [|intros _; apply bi_emit]. apply bi_upd; [|reflexivity]. intros a b S. rewrite (same_ps _ _ S). samet S. Qed.
Lemma bi_multi l : forall x, bi (psWriteMultiple x l).
Proof. induction l as [|v l IH]; intros x; cbn [psWriteMultiple]; [apply bi_ret|]. apply bi_bind; [apply bi_psWrite8|]. intros _. apply IH. Qed.
Ltac bi_step := match goal with
  | |- bi (bind _ _) => apply bi_bind; [|intros ?]
  | |- bi (ret _) => apply bi_ret
  | |- bi (if _ then _ else _) => apply bi_if
  | |- bi (forM _ _) => apply bi_forM; intros ?
  | |- bi (psWrite8 _ _) => apply bi_psWrite8
  | |- bi (psRead8 _) => apply bi_psRead8
  | |- bi (psWriteMultiple _ _) => apply bi_multi
  | |- bi (emit _) => apply bi_emit
  | |- bi (upd _) => apply bi_upd; [let a := fresh in let b := fresh in let S := fresh "S" in intros a b S; samet S|reflexivity]
  end.
Ltac bi_tac := repeat bi_step.
Lemma bi_writeNick v : bi (writeNicknameId v).
Proof. unfold writeNicknameId, ps_writeNicknameId, ps_readNicknameId. bi_tac. Qed.
Lemma bi_restore : bi restoreFactory.
Proof.
  unfold restoreFactory, dd_restore, dm_restore, ng_restore, ps_writeCRC, ps_writeCtrl, ps_writeUserId, ps_writeGUID, ps_writeZone, ps_writeSub, ps_writeMDev, ps_writeMSub,
    ps_writeMdf, ps_writeFam, ps_writeType, ps_writeNG, ps_writeDMMultiple, ps_writeDMExtMultiple, psWriteIdx.
  repeat first [bi_step | match goal with |- bi (writeNicknameId _) => apply bi_writeNick end].
Qed.
End B.

Section D.
Context {A : Type} {E : Env A}.
Implicit Types w : World A.

(* restoring factory defaults changes neither node state, timers nor what process received *)
Definition restKeep w w' : Prop := w_tm w' = w_tm w /\ hbView w' = hbView w /\ w_st w' = w_st w /\ w_tSt w' = w_tSt w /\ (w_xcount w = 0 -> w_xcount w' = 0).
Lemma restore_keeps : rel restKeep (@restoreFactory A E).
Proof.
  assert (Rrefl : forall w, restKeep w w) by (intros w; repeat split; auto).
  assert (Rtrans : forall (a b c : World A), restKeep a b -> restKeep b c -> restKeep a c) by (intros a b c (H1 & H2 & H3 & H4 & H5) (K1 & K2 & K3 & K4 & K5); repeat split; try congruence; auto).
  assert (S : forall w w', w_tm w' = w_tm w -> hbView w' = hbView w -> w_st w' = w_st w -> w_tSt w' = w_tSt w -> (w_xcount w = 0 -> w_xcount w' = 0) -> restKeep w w') by (intros; repeat split; auto).
  pose (R := restKeep). change (rel R (@restoreFactory A E)).
  change (forall w, R w w) in Rrefl. change (forall a b c, R a b -> R b c -> R a c) in Rtrans.
  change (forall w w', w_tm w' = w_tm w -> hbView w' = hbView w -> w_st w' = w_st w -> w_tSt w' = w_tSt w -> (w_xcount w = 0 -> w_xcount w' = 0) -> R w w') in S. clearbody R.
  assert (W8 : forall x v, rel R (@psWrite8 A x v)) by (intros x v; unfold psWrite8; rel_tac; try (apply S; try reflexivity; auto); intros w; apply S; try reflexivity; auto).
  assert (WM : forall l x, rel R (@psWriteMultiple A x l)) by (induction l as [|v l IH]; intros x; cbn [psWriteMultiple]; rel_tac; auto).
  unfold restoreFactory, dd_restore, dm_restore, ng_restore, writeNicknameId, ps_writeNicknameId, ps_readNicknameId, ps_writeCRC, ps_writeCtrl, ps_writeUserId, ps_writeGUID, ps_writeZone, ps_writeSub, ps_writeMDev, ps_writeMSub,
    ps_writeMdf, ps_writeFam, ps_writeType, ps_writeNG, ps_writeDMMultiple, ps_writeDMExtMultiple, psWriteIdx, psRead8.
  rel_tac; auto; try (apply S; try reflexivity; auto); try (intros w; apply S; try reflexivity; auto).
Qed.

Definition dropBody (flags t : N) : M A unit :=
  (when bitset flags 6 do (backup <- get w_nick ;; restoreFactory ;; when bitset flags 5 do writeNicknameId backup)) ;;
  if bitset flags 5 then changeToStateReset t
  else if bitset flags 7 then writeNicknameId NICK_NOT_INIT ;; changeToStateIdle
  else writeNicknameId NICK_NOT_INIT ;; changeToStateReset t.
Lemma drop_split w0 m data flags t : w_rx w0 = m -> m_type m = 8 -> m_size m = N.of_nat (length data) -> hd_error data = Some (w_nick w0) ->
  (forall i, i < N.of_nat (length data) -> at0 (m_data m) i = nth (N.to_nat i) data 0) -> dropArgs data = Some (flags, t) ->
  snd (handleProtocolClassType w0) = snd (dropBody flags t w0).
Proof.
  intros RX HT SZ HD AT HA. rewrite hpct_8 by (rewrite RX; exact HT). unfold handleDropNickname, rxSize, rxForMe.
  destruct data as [|d0 [|d1 [|d2 [|d3 data]]]]; cbn [dropArgs] in HA; try discriminate HA; injection HA as <- <-; injection HD as HD.
  - plat AT 0 A0. plsize SZ. rewrite !bind_get, RX, SZ, A0, HD. pass. reflexivity.
  - plat AT 0 A0. plat AT 1 A1. plsize SZ. rewrite !bind_get, RX, SZ, A0, HD. pass. cbn [N.eqb Pos.eqb orb]. unfold rxd. rewrite !bind_get, RX, A1. reflexivity.
  - plat AT 0 A0. plat AT 1 A1. plat AT 2 A2. plsize SZ. rewrite !bind_get, RX, SZ, A0, HD. pass. cbn [N.eqb Pos.eqb orb]. unfold rxd. rewrite !bind_get, RX, A1, A2. reflexivity.
Qed.

(* a timer is set in both nodes *)
Lemma setAt_this ts i v : nth_error (timerSetAt ts i v) i = option_map (fun t => mkTimer (t_id t) v) (nth_error ts i).
Proof. revert i. induction ts as [|x ts IH]; intros [|i]; cbn [timerSetAt nth_error]; try reflexivity. apply IH. Qed.
Lemma same_setAt (a b : World A) i v : same a b -> same (set_tm (timerSetAt (w_tm a) i v) a) (set_tm (timerSetAt (w_tm b) i v) b).
Proof.
  intros [V T]. split.
  - unfold visible in *. wsimp. rewrite !timerSetAt_length. exact V.
  - intros id Hid. wsimp. wsimp_in Hid. destruct (Nat.eq_dec i (N.to_nat id)) as [->|NE].
    + rewrite !setAt_this, (T id Hid). reflexivity.
    + rewrite !timerSetAt_other by exact NE. apply T. exact Hid.
Qed.
Lemma same_tSt w w' : same w w' -> w_tSt w = w_tSt w'. Proof. intros [V _]. unfold visible in V. congruence. Qed.
Lemma toReset_state w t : w_st w <> RESET -> snd (changeToStateReset t w) = set_out (OLamp LampOff :: w_out w) (resetting t w).
Proof.
  intros H. unfold changeToStateReset. rewrite bind_get. replace (negb (state_eqb (w_st w) RESET)) with true by (destruct (w_st w); try reflexivity; contradiction H; reflexivity).
  cbv iota. rewrite bind_emit, !bind_upd, bind_get. unfold resetting. destruct (N.eqb_spec t 0) as [->|NZ].
  - destruct w; reflexivity.
  - replace (0 <? t) with true by lia. destruct w; reflexivity.
Qed.
Lemma resetting_same (a b : World A) t : same a b -> same (resetting t a) (resetting t b).
Proof.
  intros S. unfold resetting. rewrite (same_tSt _ _ S).
  assert (G : same (set_tm (if t =? 0 then timerStop (w_tm a) (w_tSt b) else timerStart (w_tm a) (w_tSt b) 1000) a)
                   (set_tm (if t =? 0 then timerStop (w_tm b) (w_tSt b) else timerStart (w_tm b) (w_tSt b) 1000) b)).
  { destruct (t =? 0); unfold timerStop, timerStart; apply same_setAt; exact S. }
  clear S. set (a' := set_tm _ a) in *. set (b' := set_tm _ b) in *. clearbody a' b'. samet G.
Qed.
(* the heartbeat timer is another one *)
Definition hbApart w : Prop := (N.to_nat (w_tHb w) <> N.to_nat (w_tSt w) \/ length (w_tm w) <= N.to_nat (w_tSt w))%nat.
Lemma resetting_undisturbed w t : hbApart w -> undisturbed w (resetting t w).
Proof.
  intros H. assert (G : forall v, nth_error (timerSetAt (w_tm w) (N.to_nat (w_tSt w)) v) (N.to_nat (w_tHb w)) = nth_error (w_tm w) (N.to_nat (w_tHb w))).
  { intros v. destruct H as [H|H]; [apply timerSetAt_other; congruence|]. destruct (Nat.eq_dec (N.to_nat (w_tSt w)) (N.to_nat (w_tHb w))) as [EQ|NE]; [|apply timerSetAt_other; exact NE].
    rewrite <- EQ, setAt_this. apply nth_error_None in H. rewrite H. reflexivity. }
  unfold resetting. split; [split; [reflexivity|]|split; [|auto]].
  - wsimp. destruct (t =? 0); unfold timerStop, timerStart; apply timerSetAt_length.
  - wsimp. destruct (t =? 0); apply G.
Qed.
Lemma inv_hbApart (VE : valid_env E) ps0 w : Inv ps0 w -> hbApart w.
Proof.
  intros HI. unfold hbApart. rewrite (i_tSt _ _ HI), (i_tHb _ _ HI). destruct (i_tm _ _ HI) as [HT _]. pose proof (f_equal (@length _) HT) as HL. rewrite map_length in HL. unfold tids in HL. rewrite map_length, seq_length in HL.
  unfold tid, TIMER_ID_INVALID. pose proof (v_timers _ (ve_cfg E VE)). destruct (c_hb_node cfg), (0 <? c_timers cfg) eqn:C1; try (right; lia); left; try lia. destruct (4 <? c_timers cfg); lia.
Qed.
Lemma restKeep_undisturbed w w' : restKeep w w' -> undisturbed w w'.
Proof. intros (H1 & H2 & H3 & H4 & H5). split; [split; [exact H2|rewrite H1; reflexivity]|]. split; [rewrite H1; reflexivity|exact H5]. Qed.
Lemma hbApart_eq w w' : w_tHb w' = w_tHb w -> w_tSt w' = w_tSt w -> length (w_tm w') = length (w_tm w) -> hbApart w -> hbApart w'.
Proof. unfold hbApart. intros -> -> ->. auto. Qed.

(* the nickname is written *)
Lemma rename_state (a b : World A) v : same a b -> v < 256 ->
  exists l w1, renamed b v l w1 /\ let u := snd (writeNicknameId v a) in w_out u = rev l ++ w_out a /\ same u w1 /\ restKeep a u.
Proof.
  intros S Hv. exists [OPs (ps_nick cfg) v], (set_ps (fupd (w_ps b) (ps_nick cfg) v) (set_nick v b)). split; [exists (ps_nick cfg); split; [reflexivity|]; apply (stores_nick (set_nick v b) v Hv)|].
  cbv zeta. rewrite writeNick_state by exact Hv. split; [reflexivity|]. split; [rewrite (same_ps _ _ S); samet S|]. repeat split; auto.
Qed.
Lemma drop_state w0 H flags t : same w0 H -> w_st w0 = ACTIVE -> w_nick w0 < 256 -> hbApart w0 ->
  exists l w1, dropped H flags t l w1 /\ let v := snd (dropBody flags t w0) in w_out v = rev l ++ w_out w0 /\ same v w1 /\ undisturbed w0 v.
Proof.
  intros S0 ST NB HA. set (wr := if dropRestore flags then restored H else H). set (ur := if dropRestore flags then snd (restoreFactory w0) else w0).
  assert (AR : agree (w_out w0) (w_out H) ur wr).
  { assert (A0 : agree (w_out w0) (w_out H) w0 H) by (split; [exact S0|exists []; split; reflexivity]). unfold ur, wr. destruct (dropRestore flags); [|exact A0]. apply (bi_restore (w_out w0) (w_out H) w0 H A0). }
  destruct AR as [SR (d & D1 & D2)]. assert (EF : effects H wr = rev d) by (apply effects_app; exact D2).
  assert (KR : restKeep w0 ur). { unfold ur. destruct (dropRestore flags); [apply restore_keeps|repeat split; auto]. }
  (* the nickname *)
  assert (GN : exists ln wn un, (if negb (dropKeep flags) then renamed wr 255 ln wn else if dropRestore flags then renamed wr (w_nick H) ln wn else ln = [] /\ wn = wr) /\
     w_out un = rev ln ++ w_out ur /\ same un wn /\ restKeep ur un /\
     snd (dropBody flags t w0) = snd ((if dropIdle flags then changeToStateIdle else changeToStateReset t) un)).
  { unfold dropBody. rewrite <- (same_nick _ _ S0). unfold dropIdle, dropKeep, dropRestore in *. fold (bitset flags 5) (bitset flags 6) (bitset flags 7) in *.
    destruct (bitset flags 5) eqn:B5; cbn [negb andb].
    - destruct (bitset flags 6) eqn:B6.
      + destruct (rename_state ur wr (w_nick w0) SR NB) as (ln & wn & R1 & R2 & R3 & R4). exists ln, wn, (snd (writeNicknameId (w_nick w0) ur)).
        split; [exact R1|]. split; [exact R2|]. split; [exact R3|]. split; [exact R4|]. reflexivity.
      + exists [], wr, ur. split; [auto|]. split; [reflexivity|]. split; [exact SR|]. split; [repeat split; auto|]. reflexivity.
    - destruct (rename_state ur wr 255 SR) as (ln & wn & R1 & R2 & R3 & R4); [lia|]. exists ln, wn, (snd (writeNicknameId 255 ur)).
      split; [exact R1|]. split; [exact R2|]. split; [exact R3|]. split; [exact R4|]. unfold ur. destruct (bitset flags 6), (bitset flags 7); reflexivity. }
  destruct GN as (ln & wn & un & G1 & G2 & G3 & G4 & ->).
  assert (SU : w_st un = ACTIVE) by (destruct KR as (_ & _ & K3 & _), G4 as (_ & _ & L3 & _); congruence).
  assert (UU : undisturbed w0 un) by (apply (undisturbed_trans _ ur); apply restKeep_undisturbed; assumption).
  eexists. eexists. split; [exists wr, wn, ln; split; [reflexivity|]; split; [exact G1|]; split; [reflexivity|reflexivity]|]. rewrite EF. cbv zeta.
  assert (OU : w_out un = rev (rev d ++ ln) ++ w_out w0) by (rewrite G2, D1, rev_app_distr, rev_involutive, app_assoc; reflexivity).
  destruct (dropIdle flags); cbn [andb].
  - assert (EQ : snd (changeToStateIdle un) = set_out ((if c_idle_co cfg then [OIdle] else []) ++ OLamp LampOff :: w_out un) (set_st IDLE un)).
    { unfold changeToStateIdle. rewrite bind_get, SU. cbn [state_eqb negb]. rewrite bind_emit, bind_upd. destruct (c_idle_co cfg); destruct un; reflexivity. }
    rewrite EQ. split; [|split; [samet G3|apply (undisturbed_trans _ un _ UU); repeat split; auto]]. wsimp. rewrite OU.
    rewrite (app_assoc (rev d)), !rev_app_distr. destruct (c_idle_co cfg); cbn [rev app]; rewrite ?rev_app_distr, <- ?app_assoc; reflexivity.
  - rewrite toReset_state by (rewrite SU; discriminate). split; [|split].
    + wsimp. rewrite OU. rewrite (app_assoc (rev d)), app_nil_r, !rev_app_distr. cbn [rev app]. rewrite <- ?app_assoc; reflexivity.
    + pose proof (resetting_same un wn t G3) as S. samet S.
    + apply (undisturbed_trans _ un _ UU). apply (undisturbed_trans _ (resetting t un)); [|repeat split; auto]. apply resetting_undisturbed.
      destruct KR as (K1 & K2 & K3 & K4 & _), G4 as (L1 & L2 & L3 & L4 & _). unfold hbView in *. apply (hbApart_eq w0); congruence.
Qed.
End D.
