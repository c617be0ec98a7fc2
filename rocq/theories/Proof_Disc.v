(* Proof_Disc.v - nickname discovery *)
From Verif Require Export Proof_States.

Section D.
Context {A : Type} {E : Env A}.
Implicit Types w : World A.

Lemma tried_app n l e : tried n l -> tried n (l ++ e).
Proof.
  intros H. destruct H as [l|n l f l1 m l2 H HF HM]; [apply tried_first|].
  rewrite <- app_assoc. cbn [app]. rewrite <- app_assoc. cbn [app]. apply tried_next; assumption.
Qed.
Lemma elapsed_app l1 l2 : elapsed (l1 ++ l2) = elapsed l1 + elapsed l2.
Proof. induction l1 as [|o l1 IH]; [reflexivity|]. cbn [app elapsed]. destruct o; rewrite ?IH; lia. Qed.

(* the value of the state timer *)
Definition tval w : N := match nth_error (w_tm w) (N.to_nat (w_tSt w)) with Some t => t_val t | None => 0 end.
Definition noAck (n : N) (l : list Obs) : Prop := forall m, In m (taken l) -> ~ isAck n m.
Definition waits w (d : list Obs) : Prop :=
  exists d0 f rec, d = d0 ++ OTx f true :: rec /\ tried (w_probe w) d0 /\ isProbe (w_probe w) f /\ w_probe w <> 255 /\
    noAck (w_probe w) rec /\ (timersNeeded cfg <= c_timers cfg -> tval w = c_t_probe cfg mod 65536 - elapsed rec).
Definition disc w : Prop := w_st w = INIT -> exists older d, history w = older ++ discovery :: d /\ ~ In discovery d /\
  (w_ist w = PROBE -> tried (w_probe w) d) /\ (w_ist w = PROBE_WAIT -> waits w d).
Definition calmI w : Prop := w_st w = INIT -> w_ist w <> PROBE_WAIT.

(* states in which the node does not wait for an acknowledge *)
Definition RI w w' : Prop := calmI w -> disc w -> calmI w' /\ disc w'.
Lemma RI_refl w : RI w w. Proof. intros H1 H2. auto. Qed.
Lemma RI_trans a b c : RI a b -> RI b c -> RI a c.
Proof. intros H1 H2 C D. destruct (H1 C D) as [C1 D1]. apply H2; assumption. Qed.
Lemma RI_same w w' : w_out w' = w_out w -> w_st w' = w_st w -> w_ist w' = w_ist w -> w_probe w' = w_probe w -> RI w w'.
Proof.
  intros H1 H2 H3 H4 C D. split; [unfold calmI; rewrite H2, H3; exact C|]. intros SI. rewrite H2 in SI. destruct (D SI) as (o & d & D1 & D2 & D3 & D4).
  exists o, d. unfold history. rewrite H1, H3, H4. repeat split; auto. intros HP. exfalso. exact (C SI HP).
Qed.
Lemma RI_away w w' : w_st w' <> INIT -> RI w w'.
Proof. intros H C D. split; [intros SI|intros SI]; contradiction. Qed.
Lemma RI_emit o : o <> discovery -> rel RI (@emit A o).
Proof.
  intros Ho w C D. split; [exact C|]. intros SI. destruct (D SI) as (ol & d & D1 & D2 & D3 & D4).
  exists ol, (d ++ [o]). unfold history, emit, upd in *. cbn [fst snd]. wsimp. cbn [rev]. rewrite D1, <- app_assoc. split; [reflexivity|].
  split; [rewrite in_app_iff; intros [H|[H|[]]]; auto|]. split; [intros HP; apply tried_app; auto|]. intros HP. exfalso. exact (C SI HP).
Qed.
Lemma RI_toInit b : rel RI (@changeToStateInit A E b).
Proof.
  intros w. unfold changeToStateInit. rewrite bind_get. destruct (state_eqb (w_st w) INIT) eqn:SI; cbn [negb]; [apply RI_refl|].
  intros C D. rewrite bind_emit, bind_upd. set (w1 := set_st INIT _).
  assert (G : forall ist pr, ist <> PROBE_WAIT -> (ist = PROBE -> pr = c_start_nick cfg) -> let w' := snd (writeNicknameId NICK_NOT_INIT (set_probe pr (set_ist ist w1))) in calmI w' /\ disc w').
  { intros ist pr H1 H2. unfold writeNicknameId, ps_writeNicknameId, ps_readNicknameId, psWrite8, psRead8. rewrite !bind_assoc, bind_upd, bind_emit, bind_get. unfold upd. cbn [fst snd].
    split; [intros _; exact H1|]. intros _. eexists _, [_]. unfold history. wsimp. unfold w1. wsimp. cbn [rev]. rewrite <- app_assoc. cbn [app]. split; [reflexivity|].
    split; [intros [H|[]]; discriminate H|]. split; [intros HP; rewrite (H2 HP); apply tried_first|]. intros HP. contradiction. }
  destruct b; cbn [negb]; rewrite bind_assoc, !bind_upd.
  - apply (G PROBE_MASTER); discriminate.
  - apply (G PROBE); [discriminate|reflexivity].
Qed.
Lemma RI_not w w' : RI w w' -> w_st w <> INIT -> disc w'.
Proof. intros H N. apply H; intros SI; contradiction. Qed.

Lemma RI_parts : rel RI (@stateActive A E) /\ (forall c, rel RI (@doApi A E c)) /\ rel RI (@stateStartup A E) /\ rel RI (@statePreActive A E) /\ rel RI (@stateReset A).
Proof.
  pose (R := RI). assert (Rrefl : forall w, R w w) by exact RI_refl. assert (Rtrans : forall a b c, R a b -> R b c -> R a c) by exact RI_trans.
  assert (S : forall w w', w_out w' = w_out w -> w_st w' = w_st w -> w_ist w' = w_ist w -> w_probe w' = w_probe w -> R w w') by exact RI_same.
  assert (X_e : forall o, o <> discovery -> rel R (@emit A o)) by exact RI_emit.
  assert (X_emit : forall o, plainObs o = true -> rel R (emit o)).
  { intros o Ho. apply X_e. intros ->. discriminate Ho. }
  assert (X_away : forall w w', w_st w' <> INIT -> R w w') by exact RI_away.
  assert (s_init : forall b, rel R (changeToStateInit b)) by exact RI_toInit.
  change (rel R (@stateActive A E) /\ (forall c, rel R (@doApi A E c)) /\ rel R (@stateStartup A E) /\ rel R (@statePreActive A E) /\ rel R (@stateReset A)). clearbody R.
  assert (s_idle : rel R changeToStateIdle).
  { unfold changeToStateIdle. rel_tac; try (apply X_away; discriminate). }
  assert (s_reset : forall t, rel R (changeToStateReset t)).
  { unfold changeToStateReset, timer_start, timer_stop. rel_tac; try (apply X_away; discriminate); apply S; reflexivity. }
  Ltac lf S X_e := intros; try (unfold setUB, setNgUB, timer_start, timer_stop); first [apply X_e; discriminate | apply rel_upd; intros; apply S; reflexivity | apply S; reflexivity].
  tr_active2 R ltac:(lf S X_e).
  assert (s_act : rel R changeToStateActive).
  { assert (X_on : rel R (emit (OLamp LampOn))) by (apply X_e; discriminate). unfold changeToStateActive. rel_tac; try (apply X_away; discriminate). }
  assert (s_pre : rel R changeToStatePreActive).
  { unfold changeToStatePreActive. rel_tac; try (apply X_away; discriminate). }
  split; [exact t_active|]. split; [exact t_api|]. split; [|split].
  - apply tr_stateStartup; tr_fill ltac:(lf S X_e).
  - apply tr_statePreActive; tr_fill ltac:(lf S X_e).
  - unfold stateReset, timer_running. rel_tac; try (apply X_e; discriminate); apply S; reflexivity.
Qed.

(* ---- waiting for an acknowledge ---- *)
Lemma noAck_app n l1 l2 : noAck n l1 -> noAck n l2 -> noAck n (l1 ++ l2).
Proof. intros H1 H2 m. unfold taken. rewrite flat_map_app. intros H. apply in_app_or in H. destruct H as [H|H]; [apply H1, H|apply H2, H]. Qed.
Lemma disc_ext w w' l : history w' = history w ++ l -> w_st w' = w_st w -> w_ist w' = w_ist w -> w_probe w' = w_probe w -> ~ In discovery l ->
  (w_ist w = PROBE_WAIT -> noAck (w_probe w) l /\ (timersNeeded cfg <= c_timers cfg -> tval w' = tval w - elapsed l)) -> disc w -> disc w'.
Proof.
  intros HH H1 H2 H3 HN HW D SI. rewrite H1 in SI. destruct (D SI) as (o & d & D1 & D2 & D3 & D4). exists o, (d ++ l).
  rewrite HH, D1, <- app_assoc, H2. split; [reflexivity|]. split; [rewrite in_app_iff; tauto|]. split; [intros HP; rewrite H3; apply tried_app; auto|].
  intros HP. destruct (HW HP) as [W1 W2]. destruct (D4 HP) as (d0 & f & rec & -> & T & PF & NF & NA & TV). exists d0, f, (rec ++ l). rewrite H3, <- app_assoc.
  repeat (split; [assumption || reflexivity|]). split; [apply noAck_app; assumption|]. intros HT. rewrite elapsed_app. specialize (TV HT). specialize (W2 HT). lia.
Qed.
(* API calls *)
Definition RW w w' : Prop := w_ist w' = w_ist w /\ w_probe w' = w_probe w /\ w_tm w' = w_tm w /\ w_tSt w' = w_tSt w /\
  exists l, history w' = history w ++ l /\ ~ In discovery l /\ taken l = [] /\ elapsed l = 0.
Lemma RW_refl w : RW w w. Proof. repeat split. exists []. rewrite app_nil_r. repeat split. intros []. Qed.
Lemma RW_trans a b c : RW a b -> RW b c -> RW a c.
Proof.
  intros (A1 & A2 & A3 & A4 & l1 & A5 & A6 & A7 & A8) (B1 & B2 & B3 & B4 & l2 & B5 & B6 & B7 & B8). repeat split; try congruence. exists (l1 ++ l2).
  rewrite B5, A5, app_assoc. split; [reflexivity|]. split; [rewrite in_app_iff; tauto|]. rewrite elapsed_app, A8, B8. unfold taken in *. rewrite flat_map_app, A7, B7. split; reflexivity.
Qed.
Lemma RW_same w w' : w_out w' = w_out w -> w_ist w' = w_ist w -> w_probe w' = w_probe w -> w_tm w' = w_tm w -> w_tSt w' = w_tSt w -> RW w w'.
Proof. intros H1 H2 H3 H4 H5. repeat split; try assumption. exists []. unfold history. rewrite H1, app_nil_r. repeat split. intros []. Qed.
Lemma RW_emit o : o <> discovery -> taken [o] = [] -> elapsed [o] = 0 -> rel RW (@emit A o).
Proof. intros H1 H2 H3 w. repeat split. exists [o]. unfold history, emit, upd. cbn [snd]. wsimp. cbn [rev]. repeat split; auto. intros [H|[]]; congruence. Qed.
Lemma RW_tx m : rel RW (@tp_writeMessage A E m).
Proof.
  pose proof RW_refl as Rrefl. pose proof RW_trans as Rtrans. unfold tp_writeMessage, adapterWrite, loopWrite, setUB. rel_tac; try (apply RW_same; reflexivity); try (apply RW_emit; [discriminate|reflexivity|reflexivity]).
  destruct (w_txe _ <? 255); apply RW_same; reflexivity.
Qed.
Lemma RW_restore : rel RW (@restoreFactory A E).
Proof.
  pose proof RW_refl as Rrefl. pose proof RW_trans as Rtrans.
  assert (PW : forall a v, rel RW (@psWrite8 A a v)) by (intros; unfold psWrite8; rel_tac; first [apply RW_same; reflexivity|apply RW_emit; [discriminate|reflexivity|reflexivity]]).
  assert (NW : forall v, rel RW (@writeNicknameId A E v)) by (intros; apply tr_writeNicknameId; auto; intros; apply RW_same; reflexivity).
  apply tr_restoreFactory; auto; try (intros; apply RW_same; reflexivity); try (intros ?; apply RW_same; reflexivity); try (apply (RW_emit OAppRestore); [discriminate|reflexivity|reflexivity]).
Qed.
Lemma RW_api c w : w_st w = INIT \/ c <> AStartInit -> RW w (snd (doApi c w)).
Proof.
  intros SI. unfold doApi. rewrite bind_emit. set (w1 := set_out _ w).
  assert (R1 : RW w w1) by (apply (RW_emit (OApi c)); [discriminate|reflexivity|reflexivity]). assert (S1 : w_st w1 = INIT \/ c <> AStartInit) by exact SI. clearbody w1.
  apply (RW_trans _ w1); [exact R1|]. clear R1 SI w.
  pose proof RW_refl as Rrefl. pose proof RW_trans as Rtrans. pose proof RW_tx as HT.
  assert (PW : forall a v, rel RW (@psWrite8 A a v)) by (intros; unfold psWrite8; rel_tac; first [apply RW_same; reflexivity|apply RW_emit; [discriminate|reflexivity|reflexivity]]).
  destruct c.
  5:{ destruct S1 as [S1|S1]; [|congruence]. unfold startNodeSegmentInit. rewrite bind_get, S1. apply Rrefl. }
  5:{ apply RW_restore. }
  all: match goal with |- RW _ (snd (?m ?x)) => assert (P : rel RW m); [|apply P] end.
  all: try (apply rel_if; [|apply rel_ret; exact Rrefl]).
  all: unfold setAlarm, setTimeSinceEpoch, enableHeartbeat, log_enable, log_setLevel, ps_writeLogId, ps_writeZone, ps_writeSub, tp_getTransmitErrors.
  all: try (rel_tac; try (apply RW_same; reflexivity); try (apply RW_emit; [discriminate|reflexivity|reflexivity]); fail).
  apply tr_log_log; auto.
Qed.
Lemma disc_api c w : disc w -> disc (snd (doApi c w)).
Proof.
  intros D. destruct (state_eqb (w_st w) INIT) eqn:SI.
  - assert (SI' : w_st w = INIT) by (destruct (w_st w); try discriminate SI; reflexivity).
    destruct (RW_api c w (or_introl SI')) as (H1 & H2 & H3 & H4 & l & H5 & H6 & H7 & H8). apply (disc_ext w _ l); auto.
    + rewrite api_st. destruct c; auto.
    + intros _. split; [intros m; rewrite H7; intros []|]. unfold tval. rewrite H3, H4, H8. lia.
  - apply (RI_not w); [apply RI_parts|intros X; rewrite X in SI; discriminate SI].
Qed.
(* ---- a process call in discovery ---- *)
Lemma setAt_same ts i v : nth_error (timerSetAt ts i v) i = option_map (fun t => mkTimer (t_id t) v) (nth_error ts i).
Proof. revert i. induction ts as [|x ts IH]; intros [|i]; cbn [timerSetAt nth_error]; try reflexivity. apply IH. Qed.
Lemma history_prologue rd w : history (snd (prologue rd w)) = history w ++ OProcess :: match received rd w with Some m => [ORx m] | None => [] end.
Proof. unfold history. rewrite prologue_out, rev_app_distr. cbn [rev]. rewrite <- app_assoc. destruct (received rd w); reflexivity. Qed.
Hypothesis VE : valid_env E.
Lemma timers_apart w : reachable w -> timersNeeded cfg <= c_timers cfg -> w_tSt w = 0 /\ w_tEp w = 3 /\ length (w_tm w) = N.to_nat (c_timers cfg).
Proof.
  intros HR HT. destruct (reach_inv VE w HR) as (ps0 & HI). rewrite (i_tSt _ _ HI), (i_tEp _ _ HI). unfold tid.
  assert (4 <= c_timers cfg) by (unfold timersNeeded in HT; destruct (c_hb_node cfg); lia).
  destruct (N.ltb_spec 0 (c_timers cfg)); [|lia]. destruct (N.ltb_spec 3 (c_timers cfg)); [|lia]. repeat split.
  rewrite <- (map_length t_id), (proj1 (i_tm _ _ HI)). unfold tids. rewrite map_length, seq_length. reflexivity.
Qed.
Lemma tval_tick p w : reachable w -> timersNeeded cfg <= c_timers cfg -> tval (set_tm (timerProcess (w_tm w) p) w) = tval w - p.
Proof.
  intros HR HT. destruct (timers_apart w HR HT) as (T0 & _ & TL). destruct (reach_inv VE w HR) as (ps0 & HI). assert (TI := proj1 (i_tm _ _ HI)).
  unfold tval. wsimp. unfold timerProcess. rewrite nth_error_map, T0. change (N.to_nat 0) with 0%nat. assert (4 <= c_timers cfg) by (unfold timersNeeded in HT; destruct (c_hb_node cfg); lia).
  destruct (w_tm w) as [|t ts]; [cbn [length] in TL; lia|]. cbn [nth_error option_map]. unfold tids in TI. destruct (N.to_nat (c_timers cfg)) as [|k]; [cbn in TL; lia|].
  cbn [seq map] in TI. injection TI as TI _. rewrite TI. replace (N.of_nat 0 <? ntimers) with true by (unfold ntimers; destruct (c_hb_node cfg); reflexivity). reflexivity.
Qed.
Lemma disc_tick p w : reachable w -> disc w -> disc (snd (step (OpTick p) w)).
Proof.
  intros HR D. change (disc (set_tm (timerProcess (w_tm w) p) (set_out (OTick p :: w_out w) w))). apply (disc_ext w _ [OTick p]); auto.
  - intros [H|[]]; discriminate H.
  - intros _. split; [intros m []|]. intros HT. cbn [elapsed]. rewrite N.add_0_r. apply (tval_tick p w HR HT).
Qed.
Lemma tval_prologue rd w : reachable w -> timersNeeded cfg <= c_timers cfg -> tval (snd (prologue rd w)) = tval w.
Proof.
  intros HR HT. destruct (timers_apart w HR HT) as (T0 & T3 & _). unfold tval. assert (P : w_tSt (snd (prologue rd w)) = w_tSt w) by (apply pres_prologue; reflexivity). rewrite P.
  destruct (prologue_tm rd w) as [->|(_ & _ & ->)]; [reflexivity|]. unfold timerStart. rewrite timerSetAt_other; [reflexivity|]. rewrite T0, T3. discriminate.
Qed.
Lemma disc_prologue rd w : reachable w -> disc w -> (w_st w = INIT -> w_ist w = PROBE_WAIT -> forall m, received rd w = Some m -> ~ isAck (w_probe w) m) -> disc (snd (prologue rd w)).
Proof.
  intros HR D HA. destruct (state_eqb (w_st w) INIT) eqn:SI; [|intros X; rewrite prologue_st in X; rewrite X in SI; discriminate SI].
  assert (SI' : w_st w = INIT) by (destruct (w_st w); try discriminate SI; reflexivity).
  eapply (disc_ext w); [apply history_prologue|apply prologue_st|apply pres_prologue; reflexivity|apply pres_prologue; reflexivity| | |exact D].
  - destruct (received rd w); intros H; repeat (destruct H as [H|H]; [discriminate H|]); exact H.
  - intros HP. split.
    + intros m. destruct (received rd w) as [x|] eqn:RX; cbn; [|intros []]. intros [->|[]]. apply HA; auto.
    + intros HT. rewrite tval_prologue by assumption. destruct (received rd w); cbn [elapsed]; lia.
Qed.
(* one step of the discovery *)
Lemma disc_stateInit w : (timersNeeded cfg <= c_timers cfg -> w_tSt w = 0 /\ length (w_tm w) = N.to_nat (c_timers cfg)) -> w_st w = INIT ->
  (w_ist w = PROBE_WAIT -> w_rxv w = true -> ~ isAck (w_probe w) (w_rx w)) -> disc w -> disc (snd (stateInit w)).
Proof.
  intros HT SI HA D. assert (D0 := D). specialize (D SI). destruct D as (o & d & D1 & D2 & D3 & D4). unfold stateInit. rewrite !bind_get. destruct (w_ist w) eqn:IS.
  - (* PROBE_MASTER *)
    destruct (send_prot PT_NEW_NODE_ONLINE PRIO_7_LOW [NICK_SEGMENT_MASTER] w) as (ok & v & EQ & HO & K); [apply Nat.leb_le; reflexivity|].
    unfold bind at 1. rewrite EQ. cbn [fst snd]. destruct K as (K & _). unfold visible in K. injection K; intros.
    set (f := mkTx _ _ _ _ _) in *.
    assert (HH : forall w', w_out w' = OTx f ok :: w_out w -> history w' = o ++ discovery :: d ++ [OTx f ok]).
    { intros w' HW. unfold history in *. rewrite HW. cbn [rev]. rewrite D1, <- app_assoc. reflexivity. }
    assert (HD : ~ In discovery (d ++ [OTx f ok])) by (rewrite in_app_iff; intros [X|[X|[]]]; [auto|discriminate X]).
    destruct ok; intros _.
    + exists o, (d ++ [OTx f true]). unfold timer_start. rewrite bind_upd. unfold upd. cbn [snd]. rewrite (HH _) by exact HO. wsimp. repeat split; auto; discriminate.
    + exists o, (d ++ [OTx f false]). cbn [snd ret]. rewrite (HH _) by exact HO. repeat split; auto; congruence.
  - (* PROBE_MASTER_WAIT *)
    unfold timer_running. rewrite bind_get. destruct (timerRunning _ _); cbn [negb].
    + unfold rxIsProt. rewrite !bind_get. match goal with |- context [if ?c then _ else _] => destruct c end; [intros X; discriminate X|exact D0].
    + rewrite bind_upd. unfold upd. cbn [snd]. intros _. exists o, d. wsimp. repeat split; auto; [intros _; apply tried_first|discriminate].
  - (* PROBE *)
    destruct (send_prot PT_NEW_NODE_ONLINE PRIO_7_LOW [w_probe w] w) as (ok & v & EQ & HO & K); [apply Nat.leb_le; reflexivity|].
    rewrite bind_get. unfold bind at 1. rewrite EQ. cbn [fst snd]. destruct K as (K & KT & _). unfold visible in K. injection K; intros.
    set (f := mkTx _ _ _ _ _) in *.
    assert (HH : forall w', w_out w' = OTx f ok :: w_out w -> history w' = o ++ discovery :: d ++ [OTx f ok]).
    { intros w' HW. unfold history in *. rewrite HW. cbn [rev]. rewrite D1, <- app_assoc. reflexivity. }
    assert (HD : ~ In discovery (d ++ [OTx f ok])) by (rewrite in_app_iff; intros [X|[X|[]]]; [auto|discriminate X]).
    assert (PF : isProbe (w_probe w) f).
    { destruct (protFrame_mk 2 7 (w_nick w) [w_probe w]) as (P1 & P2 & P3 & _ & _ & P4); [apply Nat.leb_le; reflexivity|]. repeat split; assumption. }
    destruct ok.
    + destruct (w_probe w =? NICK_NOT_INIT) eqn:PR.
      * unfold bind at 1. unfold timer_stop, upd. cbn [snd]. unfold changeToStateIdle. rewrite bind_get. match goal with |- context [if ?c then _ else _] => destruct c eqn:CX end.
        -- rewrite bind_emit, bind_upd. destruct (c_idle_co cfg); intros X; discriminate X.
        -- exfalso. wsimp_in CX. match goal with H : w_st v = w_st w |- _ => rewrite H, SI in CX end. discriminate CX.
      * unfold timer_start. rewrite bind_upd. unfold upd. cbn [snd]. intros _. exists o, (d ++ [OTx f true]). rewrite (HH _) by exact HO. split; [reflexivity|]. split; [exact HD|].
        split; [discriminate|]. intros _. exists d, f, []. wsimp. replace (w_probe v) with (w_probe w) by congruence. split; [reflexivity|]. split; [auto|]. split; [exact PF|].
        split; [unfold NICK_NOT_INIT in PR; lia|]. split; [intros m []|]. intros T. destruct (HT T) as [T0 TL]. unfold tval. wsimp. replace (w_tSt v) with (w_tSt w) by congruence.
        unfold timerStart. rewrite setAt_same, KT.
        destruct (nth_error (w_tm w) (N.to_nat (w_tSt w))) as [t|] eqn:NE; cbn [option_map t_val]; [cbn [elapsed]; unfold u16; lia|].
        exfalso. apply nth_error_None in NE. rewrite T0, TL in NE. unfold timersNeeded in T. destruct (c_hb_node cfg); lia.
    + cbn [snd ret]. apply (disc_ext w v [OTx f false]); try congruence; try assumption.
      * unfold history. rewrite HO. reflexivity. * intros [X|[]]; discriminate X.
  - (* PROBE_WAIT *)
    unfold timer_running. rewrite !bind_get. destruct (timerRunning _ _) eqn:RU; cbn [negb].
    + unfold rxIsProt. rewrite !bind_get. match goal with |- context [if ?c then _ else _] => destruct c eqn:CX end; [|exact D0].
      exfalso. apply andb_true_iff in CX. destruct CX as [CX C4]. apply andb_true_iff in CX. destruct CX as [CX C3]. apply andb_true_iff in CX. destruct CX as [C1 C2].
      apply N.eqb_eq in C2, C3, C4. apply (HA eq_refl C1). repeat split; assumption.
    + intros X. exfalso. unfold bind at 1 in X. rewrite toActive_st in X. discriminate X.
Qed.

Lemma rxv_received rd w : w_rxv (snd (prologue rd w)) = match received rd w with Some _ => true | None => false end.
Proof. destruct (received rd w) as [m|] eqn:RX; [apply (prologue_rx rd w m RX)|apply (prologue_norx rd w RX)]. Qed.
Lemma epilogue_history rd w : let w2 := snd (dispatch (snd (prologue rd w))) in
  exists b, after w rd = set_out (ORet b :: w_out w2) (set_rxv false w2).
Proof. cbv zeta. unfold after, step. rewrite snd_then, process_state. cbn [snd]. eexists. reflexivity. Qed.
Lemma acked rd w m : reachable w -> w_st w = INIT -> w_ist w = PROBE_WAIT -> received rd w = Some m -> isAck (w_probe w) m -> disc w ->
  let w1 := snd (prologue rd w) in disc (snd (dispatch w1)).
Proof.
  intros HR SI IS RX (A1 & A2 & A3) D. cbv zeta. set (w1 := snd (prologue rd w)).
  assert (S1 : w_st w1 = INIT) by (unfold w1; rewrite prologue_st; exact SI).
  assert (I1 : w_ist w1 = PROBE_WAIT) by (unfold w1; rewrite <- IS; apply pres_prologue; reflexivity).
  assert (P1 : w_probe w1 = w_probe w) by (apply pres_prologue; reflexivity).
  assert (H1 : history w1 = history w ++ [OProcess; ORx m]) by (unfold w1; rewrite history_prologue, RX; reflexivity).
  destruct (prologue_rx rd w m RX) as [X1 V1]. fold w1 in X1, V1. clearbody w1.
  destruct (reach_inv VE w HR) as (ps0 & HI). assert (HB : w_probe w < 256) by apply (i_probe _ _ HI).
  destruct (D SI) as (o & d & D1 & D2 & _ & D4). destruct (D4 IS) as (d0 & f & rec & HD & T & PF & NF & _ & _).
  unfold dispatch. rewrite bind_get, S1. rewrite snd_retb. unfold stateInit, timer_running. rewrite !bind_get, I1. rewrite !bind_get. destruct (timerRunning _ _); cbn [negb].
  - unfold rxIsProt. rewrite !bind_get, V1, X1, A1, A2, A3, P1, N.eqb_refl. cbn [andb]. change (CLASS_PROTOCOL =? CLASS_PROTOCOL) with true. change (3 =? PT_PROBE_ACK) with true. change (0 =? CLASS_PROTOCOL) with true. cbn [andb].
    rewrite N.eqb_refl. unfold timer_stop. rewrite !bind_upd. unfold upd. cbn [snd]. intros _. exists o, (d ++ [OProcess; ORx m]). unfold history in *. wsimp. rewrite H1, D1, <- app_assoc. split; [reflexivity|].
    split; [rewrite in_app_iff; intros [X|[X|[X|[]]]]; [auto|discriminate X|discriminate X]|]. split; [|discriminate]. intros _.
    replace (u8 (w_probe w + 1)) with (w_probe w + 1) by (unfold u8; lia). rewrite HD, <- app_assoc. cbn [app].
    replace (rec ++ [OProcess; ORx m]) with ((rec ++ [OProcess]) ++ ORx m :: []) by (rewrite <- app_assoc; reflexivity).
    apply tried_next; repeat split; assumption || apply PF.
  - intros X. exfalso. unfold bind at 1 in X. rewrite toActive_st in X. discriminate X.
Qed.
Lemma isAck_dec n m : isAck n m \/ ~ isAck n m.
Proof.
  unfold isAck. destruct (N.eq_dec (m_class m) 0), (N.eq_dec (m_type m) 3), (N.eq_dec (m_oaddr m) n); try (left; repeat split; assumption); right; intros (? & ? & ?); contradiction.
Qed.
Lemma disc_dispatch rd w : reachable w -> disc w -> disc (snd (dispatch (snd (prologue rd w)))).
Proof.
  intros HR D. destruct (state_eqb (w_st w) INIT) eqn:SI.
  - assert (SI' : w_st w = INIT) by (destruct (w_st w); try discriminate SI; reflexivity). clear SI.
    assert (C : (exists m, received rd w = Some m /\ w_ist w = PROBE_WAIT /\ isAck (w_probe w) m) \/
                (w_ist w = PROBE_WAIT -> forall m, received rd w = Some m -> ~ isAck (w_probe w) m)).
    { destruct (received rd w) as [m|]; [|right; discriminate]. destruct (isAck_dec (w_probe w) m) as [HA|HA].
      - destruct (w_ist w); try (right; discriminate). left. eauto.
      - right. intros _ m' [= <-]. exact HA. }
    destruct C as [(m & RX & IS & HA)|C]; [eapply acked; eassumption|].
    assert (D1 : disc (snd (prologue rd w))) by (apply disc_prologue; auto). set (w1 := snd (prologue rd w)) in *.
    assert (S1 : w_st w1 = INIT) by (unfold w1; rewrite prologue_st; exact SI'). unfold dispatch. rewrite bind_get, S1, snd_retb.
    assert (HS : w_tSt w1 = w_tSt w) by (apply pres_prologue; reflexivity).
    assert (HL : length (w_tm w1) = length (w_tm w)).
    { unfold w1. destruct (prologue_tm rd w) as [->|(_ & _ & ->)]; [reflexivity|]. unfold timerStart. apply timerSetAt_length. }
    apply disc_stateInit; try assumption.
    + intros HT. rewrite HS, HL. destruct (timers_apart w HR HT) as (T0 & _ & TL). auto.
    + assert (HI1 : w_ist w1 = w_ist w) by (apply pres_prologue; reflexivity). assert (HP1 : w_probe w1 = w_probe w) by (apply pres_prologue; reflexivity).
      rewrite HI1, HP1. unfold w1. rewrite rxv_received. destruct (received rd w) as [m|] eqn:RX; [|discriminate]. rewrite (proj1 (prologue_rx rd w m RX)). intros IS _. apply (C IS). reflexivity.
  - assert (NI : w_st (snd (prologue rd w)) <> INIT) by (rewrite prologue_st; intros X; rewrite X in SI; discriminate SI).
    set (w1 := snd (prologue rd w)) in *. clearbody w1. clear HR D SI. destruct RI_parts as (RA & _ & RS & RP & RR).
    apply (RI_not w1); [|exact NI]. unfold dispatch. rewrite bind_get. destruct (w_st w1); rewrite ?snd_retb; try apply RI_refl; [apply RS|congruence|apply RP|apply RA|apply RR].
Qed.
Lemma disc_process rd w : reachable w -> disc w -> disc (after w rd).
Proof.
  intros HR D. pose proof (disc_dispatch rd w HR D) as D2. destruct (epilogue_history rd w) as (b & EQ). cbv zeta in EQ. rewrite EQ. set (w2 := snd (dispatch _)) in *. clearbody w2.
  apply (disc_ext w2 _ [ORet b]); try reflexivity; try assumption.
  - intros [X|[]]; discriminate X. - intros _. split; [intros m []|]. intros _. unfold tval. wsimp. cbn [elapsed]. lia.
Qed.
Theorem reach_disc w : reachable w -> disc w.
Proof.
  apply reach_stable.
  - intros ps a wr out ub ngub X. rewrite init_cases in X. destruct (fst _); discriminate X.
  - intros o v _ HR D. destruct o as [rd|p|c|].
    + apply (disc_process rd v HR D). + apply disc_tick; assumption. + apply disc_api, D.
    + intros X. rewrite step_init, init_cases in X. destruct (fst _); discriminate X.
Qed.

(* ---- how discovery ends ---- *)
Lemma nick_dispatch w : w_probe w < 256 -> w_st w = INIT -> w_st (snd (dispatch w)) = ACTIVE ->
  w_ist w = PROBE_WAIT /\ timerRunning (w_tm w) (w_tSt w) = false /\ w_nick (snd (dispatch w)) = w_probe w.
Proof.
  intros HB SI. unfold dispatch. rewrite bind_get, SI, snd_retb. unfold stateInit. rewrite !bind_get. intros X. destruct (w_ist w).
  - exfalso. unfold bind at 1 in X. match type of X with w_st (snd ((if ?c then _ else _) ?v)) = _ => assert (Y : w_st v = w_st w) by (apply sendProt_pres; reflexivity); destruct c end.
    + unfold timer_start in X. rewrite bind_upd in X. unfold upd in X. cbn [snd] in X. wsimp_in X. congruence.
    + cbn [snd ret] in X. congruence.
  - exfalso. unfold timer_running in X. rewrite bind_get in X. destruct (timerRunning _ _); cbn [negb] in X.
    + unfold rxIsProt in X. rewrite !bind_get in X. match type of X with context [if ?c then _ else _] => destruct c end; [discriminate X|cbn [snd ret] in X; congruence].
    + rewrite bind_upd in X. unfold upd in X. cbn [snd] in X. wsimp_in X. congruence.
  - exfalso. rewrite bind_get in X. unfold bind at 1 in X. match type of X with w_st (snd ((if ?c then _ else _) ?v)) = _ => assert (Y : w_st v = w_st w) by (apply sendProt_pres; reflexivity); destruct c end.
    + destruct (w_probe w =? NICK_NOT_INIT).
      * unfold timer_stop in X. rewrite bind_upd in X. unfold changeToStateIdle in X. rewrite bind_get in X. match type of X with context [if ?c then _ else _] => destruct c end.
        -- rewrite bind_emit, bind_upd in X. destruct (c_idle_co cfg); discriminate X. -- cbn [snd ret] in X. wsimp_in X. congruence.
      * unfold timer_start in X. rewrite bind_upd in X. unfold upd in X. cbn [snd] in X. wsimp_in X. congruence.
    + cbn [snd ret] in X. congruence.
  - unfold timer_running in *. rewrite !bind_get in *. destruct (timerRunning _ _); cbn [negb] in *.
    + exfalso. unfold rxIsProt in X. rewrite !bind_get in X. match type of X with context [if ?c then _ else _] => destruct c end.
      * unfold timer_stop in X. rewrite !bind_upd in X. unfold upd in X. cbn [snd] in X. wsimp_in X. congruence.
      * cbn [snd ret] in X. congruence.
    + split; [reflexivity|]. split; [reflexivity|]. unfold bind at 1. set (v := snd (writeNicknameId (w_probe w) w)).
      assert (NV : w_nick v = w_probe w) by (unfold v; rewrite writeNick_state by exact HB; reflexivity). rewrite <- NV. clearbody v.
      assert (P : pres w_nick (@changeToStateActive A E)); [|apply P]. unfold changeToStateActive, timer_start. pres_tac. apply sendProt_pres; reflexivity.
Qed.
Theorem adoption rd w : reachable w -> w_st w = INIT -> isActive (after w rd) = true ->
  exists older d f recent, let n := readNicknameId (after w rd) in
    history w = older ++ discovery :: d ++ OTx f true :: recent /\ ~ In discovery (d ++ OTx f true :: recent) /\ tried n d /\ isProbe n f /\ n <> 255 /\
    (forall m, In m (taken recent) -> ~ isAck n m) /\ (timersNeeded cfg <= c_timers cfg -> c_t_probe cfg mod 65536 <= elapsed recent).
Proof.
  intros HR SI HA. destruct (epilogue_history rd w) as (b & EQ). cbv zeta in EQ. rewrite EQ in *. unfold readNicknameId, isActive in *. wsimp. wsimp_in HA.
  set (w1 := snd (prologue rd w)) in *.
  assert (S1 : w_st w1 = INIT) by (unfold w1; rewrite prologue_st; exact SI). assert (P1 : w_probe w1 = w_probe w) by (apply pres_prologue; reflexivity).
  assert (I1 : w_ist w1 = w_ist w) by (apply pres_prologue; reflexivity). assert (T1 : w_tSt w1 = w_tSt w) by (apply pres_prologue; reflexivity).
  destruct (reach_inv VE w HR) as (ps0 & HI). assert (HB : w_probe w < 256) by apply (i_probe _ _ HI).
  destruct (nick_dispatch w1) as (IS & TR & NK); [rewrite P1; exact HB|exact S1|destruct (w_st (snd (dispatch w1))); try discriminate HA; reflexivity|].
  destruct (reach_disc w HR SI) as (o & d & D1 & D2 & _ & D4). rewrite I1 in IS. destruct (D4 IS) as (d0 & f & rec & -> & T & PF & NF & NA & TV).
  exists o, d0, f, rec. rewrite NK, P1. split; [exact D1|]. repeat (split; [assumption|]). intros HT. specialize (TV HT).
  assert (TW : tval w1 = tval w) by (apply tval_prologue; assumption). unfold timerRunning in TR. unfold tval in *. destruct (nth_error (w_tm w1) (N.to_nat (w_tSt w1))) as [t|]; lia.
Qed.

(* ---- waiting for the segment controller ---- *)
Definition asking w : Prop := (w_st w = INIT /\ w_ist w = PROBE_MASTER_WAIT) \/ w_st w = PREACTIVE.
Definition master w : Prop := asking w -> exists older f rec, history w = older ++ OTx f true :: rec /\ isProbe 0 f /\
  (timersNeeded cfg <= c_timers cfg -> tval w = c_t_init cfg mod 65536 - elapsed rec) /\ (w_st w = PREACTIVE -> exists m, In m (taken rec) /\ isAck 0 m).
Lemma master_ext w w' l : history w' = history w ++ l -> w_st w' = w_st w -> w_ist w' = w_ist w ->
  (timersNeeded cfg <= c_timers cfg -> tval w' = tval w - elapsed l) -> master w -> master w'.
Proof.
  intros HH H1 H2 HT M AS. unfold asking in AS. rewrite H1, H2 in AS. destruct (M AS) as (o & f & rec & M1 & M2 & M3 & M4). exists o, f, (rec ++ l).
  rewrite HH, M1, <- app_assoc, H1. split; [reflexivity|]. split; [exact M2|]. split; [intros T; rewrite HT, M3, elapsed_app by exact T; lia|].
  intros PA. destruct (M4 PA) as (m & I1 & I2). exists m. split; [|exact I2]. unfold taken in *. rewrite flat_map_app, in_app_iff. left. exact I1.
Qed.
Lemma master_away w : ~ asking w -> master w. Proof. intros H AS. contradiction. Qed.
Definition RM w w' : Prop := ~ asking w -> ~ asking w'.
Lemma RM_same w w' : w_st w' = w_st w -> w_ist w' = w_ist w -> RM w w'.
Proof. intros H1 H2 NA. unfold asking in *. rewrite H1, H2. exact NA. Qed.
Lemma RM_toInit b w : ~ asking (snd (changeToStateInit b w)) \/ snd (changeToStateInit b w) = w.
Proof.
  unfold changeToStateInit. rewrite bind_get. destruct (state_eqb (w_st w) INIT) eqn:SI; cbn [negb]; [right; reflexivity|]. left. rewrite bind_emit, bind_upd.
  destruct b; cbn [negb]; rewrite bind_assoc, !bind_upd; unfold asking; intros [[_ X]|X]; discriminate X.
Qed.
Lemma RM_parts : rel RM (@stateActive A E) /\ rel RM (@stateStartup A E) /\ rel RM (@stateReset A).
Proof.
  pose (R := RM). assert (Rrefl : forall w, R w w) by (intros w H; exact H). assert (Rtrans : forall a b c, R a b -> R b c -> R a c) by (intros a b c H1 H2 H; apply H2, H1, H).
  assert (S : forall w w', w_st w' = w_st w -> w_ist w' = w_ist w -> R w w') by exact RM_same.
  assert (X_away : forall w w', ~ asking w' -> R w w') by (intros w w' H _; exact H).
  assert (s_init : forall b, rel R (changeToStateInit b)).
  { intros b w H. destruct (RM_toInit b w) as [X|X]; [exact X|rewrite X; exact H]. }
  change (rel R (@stateActive A E) /\ rel R (@stateStartup A E) /\ rel R (@stateReset A)). clearbody R.
  assert (s_idle : rel R changeToStateIdle).
  { unfold changeToStateIdle, emit. rel_tac; try (apply S; reflexivity); try (apply X_away; intros [[X _]|X]; discriminate X). }
  assert (s_reset : forall t, rel R (changeToStateReset t)).
  { unfold changeToStateReset, timer_start, timer_stop, emit. rel_tac; try (apply S; reflexivity); apply X_away; intros [[X _]|X]; discriminate X. }
  Ltac lm S := intros; try (unfold setUB, setNgUB, timer_start, timer_stop, emit); first [apply rel_upd; intros; apply S; reflexivity | apply S; reflexivity].
  tr_active2 R ltac:(lm S).
  assert (s_act : rel R changeToStateActive).
  { assert (X_on : rel R (emit (OLamp LampOn))) by (lm S). unfold changeToStateActive. rel_tac; try (apply X_away; intros [[X _]|X]; discriminate X). }
  split; [exact t_active|]. split.
  - apply tr_stateStartup; tr_fill ltac:(lm S).
  - unfold stateReset, timer_running, emit. rel_tac; apply S; reflexivity.
Qed.
Lemma toActive_not w : ~ asking (snd (changeToStateActive w)).
Proof. unfold asking. rewrite toActive_st. intros [[X _]|X]; discriminate X. Qed.
(* one step *)
Lemma master_stateInit w : (timersNeeded cfg <= c_timers cfg -> w_tSt w = 0 /\ length (w_tm w) = N.to_nat (c_timers cfg)) -> w_st w = INIT ->
  (w_rxv w = true -> exists h, history w = h ++ [ORx (w_rx w)]) -> (w_rxv w = false -> True) -> master w -> master (snd (stateInit w)).
Proof.
  intros HT SI HX _ M. unfold stateInit. rewrite !bind_get. destruct (w_ist w) eqn:IS.
  - destruct (send_prot PT_NEW_NODE_ONLINE PRIO_7_LOW [NICK_SEGMENT_MASTER] w) as (ok & v & EQ & HO & K); [apply Nat.leb_le; reflexivity|].
    unfold bind at 1. rewrite EQ. cbn [fst snd]. destruct K as (K & KT & _). unfold visible in K. injection K; intros. set (f := mkTx _ _ _ _ _) in *. destruct ok.
    + unfold timer_start. rewrite bind_upd. unfold upd. cbn [snd]. intros _. exists (history w), f, []. unfold history. wsimp. rewrite HO. split; [reflexivity|].
      split. { destruct (protFrame_mk 2 7 (w_nick w) [NICK_SEGMENT_MASTER]) as (P1 & P2 & P3 & _ & _ & P4); [apply Nat.leb_le; reflexivity|]. repeat split; assumption. }
      split; [|intros X; exfalso; congruence]. intros T. destruct (HT T) as [T0 TL]. unfold tval. wsimp. replace (w_tSt v) with (w_tSt w) by congruence. unfold timerStart. rewrite setAt_same, KT.
      destruct (nth_error (w_tm w) (N.to_nat (w_tSt w))) as [t|] eqn:NE; cbn [option_map t_val]; [cbn [elapsed]; unfold u16; lia|].
      exfalso. apply nth_error_None in NE. rewrite T0, TL in NE. unfold timersNeeded in T. destruct (c_hb_node cfg); lia.
    + cbn [snd ret]. apply master_away. unfold asking. intros [[_ X]|X]; congruence.
  - unfold timer_running. rewrite bind_get. destruct (timerRunning _ _); cbn [negb].
    + unfold rxIsProt. rewrite !bind_get. match goal with |- context [if ?c then _ else _] => destruct c eqn:CX end; [|exact M].
      apply andb_true_iff in CX. destruct CX as [CX C4]. apply andb_true_iff in CX. destruct CX as [CX C3]. apply andb_true_iff in CX. destruct CX as [C1 C2].
      apply N.eqb_eq in C2, C3, C4. intros _. destruct (M (or_introl (conj SI IS))) as (o & f & rec & M1 & M2 & M3 & M4). exists o, f, rec. unfold changeToStatePreActive, upd. cbn [snd].
      split; [exact M1|]. split; [exact M2|]. split; [exact M3|]. intros _. exists (w_rx w). split; [|repeat split; assumption].
      destruct (HX C1) as (h & HH). rewrite HH in M1. destruct rec as [|x rec] using rev_ind.
      * exfalso. apply app_inj_tail in M1. destruct M1 as [_ X]. discriminate X.
      * clear IHrec. rewrite app_comm_cons, app_assoc in M1. apply app_inj_tail in M1. destruct M1 as [_ <-]. unfold taken. rewrite flat_map_app, in_app_iff. right. left. reflexivity.
    + rewrite bind_upd. unfold upd. cbn [snd]. apply master_away. intros [[_ X]|X]; wsimp_in X; congruence.
  - unfold bind at 1. match goal with |- context [snd (get ?f ?v)] => change (snd (get f v)) with v end. cbn [fst get].
    destruct (send_prot PT_NEW_NODE_ONLINE PRIO_7_LOW [w_probe w] w) as (ok & v & EQ & HO & K); [apply Nat.leb_le; reflexivity|].
    unfold bind at 1. rewrite EQ. cbn [fst snd]. destruct K as (K & KT & _). unfold visible in K. injection K; intros. apply master_away. destruct ok.
    + destruct (w_probe w =? NICK_NOT_INIT).
      * unfold timer_stop. rewrite bind_upd. unfold changeToStateIdle. rewrite bind_get. match goal with |- context [if ?c then _ else _] => destruct c eqn:CX end.
        -- rewrite bind_emit, bind_upd. destruct (c_idle_co cfg); intros [[X _]|X]; discriminate X.
        -- cbn [snd ret]. intros [[_ X]|X]; wsimp_in X; congruence.
      * unfold timer_start. rewrite bind_upd. unfold upd. cbn [snd]. intros [[_ X]|X]; wsimp_in X; congruence.
    + cbn [snd ret]. intros [[_ X]|X]; congruence.
  - unfold timer_running. rewrite !bind_get. apply master_away. destruct (timerRunning _ _); cbn [negb].
    + unfold rxIsProt. rewrite !bind_get. match goal with |- context [if ?c then _ else _] => destruct c eqn:CX end.
      * unfold timer_stop. rewrite !bind_upd. unfold upd. cbn [snd]. intros [[_ X]|X]; wsimp_in X; congruence.
      * cbn [snd ret]. intros [[_ X]|X]; congruence.
    + unfold bind at 1. apply toActive_not.
Qed.
Lemma master_pre w : w_st w = PREACTIVE -> master w -> master (snd (statePreActive w)).
Proof.
  intros SI M. unfold statePreActive, timer_running. rewrite !bind_get. destruct (timerRunning _ _); cbn [negb].
  - unfold rxIsProt, rxd. rewrite !bind_get. match goal with |- context [if ?c then _ else _] => destruct c eqn:CX end; [|exact M].
    apply master_away. unfold bind at 1 2 3. apply toActive_not.
  - destruct (RM_toInit false w) as [X|X]; [apply master_away, X|rewrite X; exact M].
Qed.
Lemma master_step o w : reachable w -> master w -> master (snd (step o w)).
Proof.
  intros HR HM. destruct o as [rd|p|c|].
  - change (master (after w rd)). destruct (epilogue_history rd w) as (b & EQ). cbv zeta in EQ. rewrite EQ. clear EQ. set (w1 := snd (prologue rd w)).
    assert (M1 : master w1).
    { eapply (master_ext w); [apply history_prologue|apply prologue_st|apply pres_prologue; reflexivity| |exact HM].
      intros HT. unfold w1. rewrite tval_prologue by assumption. destruct (received rd w); cbn [elapsed]; lia. }
    apply (master_ext (snd (dispatch w1)) _ [ORet b]); try reflexivity.
    { intros _. unfold tval. wsimp. cbn [elapsed]. lia. }
    assert (S1 : w_st w1 = w_st w) by apply prologue_st. unfold dispatch. rewrite bind_get. destruct RM_parts as (RA & RS & RR).
    assert (G : forall m : M A unit, rel RM m -> ~ asking w1 -> master (snd (m w1))) by (intros m Hm NA; apply master_away, Hm, NA).
    destruct (w_st w1) eqn:ST; rewrite ?snd_retb; try exact M1.
    + apply G; [exact RS|]. intros [[X _]|X]; congruence.
    + apply master_stateInit; try assumption; try (intros; exact Logic.I).
      * intros HT. destruct (timers_apart w HR HT) as (T0 & _ & TL). split; [rewrite <- T0; apply pres_prologue; reflexivity|]. rewrite <- TL.
        unfold w1. destruct (prologue_tm rd w) as [->|(_ & _ & ->)]; [reflexivity|]. unfold timerStart. apply timerSetAt_length.
      * unfold w1. rewrite rxv_received, history_prologue. destruct (received rd w) as [m|] eqn:RX; [|discriminate]. intros _. rewrite (proj1 (prologue_rx rd w m RX)).
        exists (history w ++ [OProcess]). rewrite <- app_assoc. reflexivity.
    + apply master_pre; assumption.
    + apply master_away, RA. intros [[X _]|X]; congruence.
    + apply G; [exact RR|]. intros [[X _]|X]; congruence.
  - change (master (set_tm (timerProcess (w_tm w) p) (set_out (OTick p :: w_out w) w))). apply (master_ext w _ [OTick p]); auto.
    intros HT. cbn [elapsed]. rewrite N.add_0_r. apply (tval_tick p w HR HT).
  - cbn [step]. destruct (state_eqb (w_st w) INIT) eqn:SI; [|destruct c].
    6:{ unfold step. apply master_away. unfold doApi. rewrite bind_emit. unfold startNodeSegmentInit. rewrite bind_get. wsimp. rewrite SI. cbn [negb].
        match goal with |- ~ asking (snd (changeToStateInit true ?v)) => destruct (RM_toInit true v) as [X|X]; [exact X|] end. exfalso. apply (f_equal w_st) in X. rewrite toInit_st in X. wsimp_in X. rewrite <- X in SI. discriminate SI. }
    all: match goal with |- master (snd (?m ?c _)) => assert (NS : w_st w = INIT \/ c <> AStartInit) by (first [right; discriminate|left; destruct (w_st w); try discriminate SI; reflexivity]);
           destruct (RW_api c w NS) as (H1 & H2 & H3 & H4 & ll & H5 & H6 & H7 & H8); apply (master_ext w _ ll); auto; try (intros _; unfold tval; rewrite H3, H4, H8; lia); rewrite api_st; try reflexivity end.
    destruct c; try reflexivity. destruct (w_st w); try discriminate SI; reflexivity.
  - rewrite step_init. apply master_away. unfold asking. rewrite init_cases. destruct (fst _); intros [[X _]|X]; discriminate X.
Qed.
Theorem reach_master w : reachable w -> master w.
Proof.
  apply reach_stable.
  - intros ps a wr out ub ngub. apply master_away. unfold asking. rewrite init_cases. destruct (fst _); intros [[X _]|X]; discriminate X.
  - intros o v _ HR M. apply master_step; assumption.
Qed.
End D.
