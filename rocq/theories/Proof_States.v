(* Proof_States.v - the states of a node *)
From Verif Require Export Spec_States Senders Proof_Serve.

Section S.
Context {A : Type} {E : Env A}.
Implicit Types w : World A.

Lemma snd_retb {T U} (m : M A T) (r : U) w : snd ((m ;; ret r) w) = snd (m w). Proof. reflexivity. Qed.
(* ---- one process call, by state ---- *)
Lemma after_state rd w : w_st (after w rd) = w_st (snd (dispatch (snd (prologue rd w)))).
Proof. unfold after, step. rewrite snd_then, process_state. reflexivity. Qed.
Lemma prologue_st rd w : w_st (snd (prologue rd w)) = w_st w.
Proof. apply pres_prologue; reflexivity. Qed.

Definition onlyTo (l : list State) w w' : Prop := w_st w' = w_st w \/ In (w_st w') l.
Ltac st_leaf := intros; try (unfold setUB, setNgUB, emit, timer_start, timer_stop); try (apply rel_upd; intros); first [left; reflexivity | solve [auto]].
Lemma active_to : rel (onlyTo [INIT; IDLE; RESET]) (@stateActive A E).
Proof.
  assert (Rrefl : forall w, onlyTo [INIT; IDLE; RESET] w w) by (intros w; left; reflexivity).
  assert (Rtrans : forall (a b c : World A), onlyTo [INIT; IDLE; RESET] a b -> onlyTo [INIT; IDLE; RESET] b c -> onlyTo [INIT; IDLE; RESET] a c)
    by (unfold onlyTo; intros a b c [H1|H1] [H2|H2]; rewrite ?H2, ?H1 in *; auto).
  assert (Rsame : forall (w w' : World A), w_st w' = w_st w -> onlyTo [INIT; IDLE; RESET] w w') by (intros; left; assumption).
  assert (s_init : forall b, rel (onlyTo [INIT; IDLE; RESET]) (@changeToStateInit A E b)).
  { intros b w. unfold changeToStateInit. rewrite bind_get. destruct (w_st w) eqn:S; cbn [state_eqb negb]; [..|]; try (left; reflexivity);
      (right; left; rewrite bind_emit, bind_upd; destruct b; cbn [negb]; unfold writeNicknameId; reflexivity). }
  assert (s_idle : rel (onlyTo [INIT; IDLE; RESET]) (@changeToStateIdle A E)).
  { intros w. unfold changeToStateIdle. rewrite bind_get. destruct (w_st w) eqn:S; cbn [state_eqb negb]; [..|]; try (left; reflexivity);
      (right; right; left; rewrite bind_emit, bind_upd; destruct (c_idle_co cfg); reflexivity). }
  assert (s_reset : forall t, rel (onlyTo [INIT; IDLE; RESET]) (@changeToStateReset A t)).
  { intros t w. unfold changeToStateReset. rewrite bind_get. destruct (w_st w) eqn:S; cbn [state_eqb negb]; [..|]; try (left; reflexivity);
      (right; right; right; left; rewrite bind_emit, !bind_upd, bind_get; destruct (0 <? t); reflexivity). }
  pose (R := @onlyTo [INIT; IDLE; RESET]). change (forall w w', w_st w' = w_st w -> R w w') in Rsame.
  change (forall w, R w w) in Rrefl. change (forall a b c, R a b -> R b c -> R a c) in Rtrans.
  change (forall b, rel R (@changeToStateInit A E b)) in s_init. change (rel R (@changeToStateIdle A E)) in s_idle. change (forall t, rel R (@changeToStateReset A t)) in s_reset.
  change (rel R (@stateActive A E)). clearbody R.
  Ltac l1 R Rsame := intros; try (unfold setUB, setNgUB, emit, timer_start, timer_stop); try (apply rel_upd; intros); first [apply Rsame; reflexivity | solve [auto]].
  tr_active R ltac:(l1 R Rsame). exact t_active.
Qed.

(* state changes *)
Lemma sendProt_pres {T} (f : World A -> T) t p d : (forall v w, f (set_wr v w) = f w) -> (forall v w, f (set_out v w) = f w) -> (forall v w, f (set_txe v w) = f w) ->
  (forall v w, f (set_loop v w) = f w) -> (forall v w, f (set_ub v w) = f w) -> pres f (sendProt t p d).
Proof.
  intros H1 H2 H3 H4 H5. unfold sendProt, tp_writeMessage, adapterWrite, loopWrite, setUB. pres_tac; auto. destruct (w_txe _ <? 255); auto.
Qed.
Lemma toInit_st b w : w_st (snd (changeToStateInit b w)) = INIT.
Proof.
  unfold changeToStateInit. rewrite bind_get. destruct (w_st w) eqn:S; cbn [state_eqb negb]; try exact S;
    rewrite bind_emit, bind_upd; destruct b; cbn [negb]; unfold writeNicknameId; reflexivity.
Qed.
Lemma toActive_st w : w_st (snd (changeToStateActive w)) = ACTIVE.
Proof.
  unfold changeToStateActive. rewrite bind_get. destruct (w_st w) eqn:S; cbn [state_eqb negb]; try exact S;
  (rewrite bind_emit, bind_upd; match goal with |- w_st (snd (?m ?w1)) = _ => assert (P : pres w_st m); [|rewrite (P w1); reflexivity] end;
   unfold timer_start; pres_tac; try (apply sendProt_pres; reflexivity); reflexivity).
Qed.
Lemma startInit_st w : w_st (snd (startNodeSegmentInit w)) = INIT.
Proof.
  unfold startNodeSegmentInit. rewrite bind_get. destruct (w_st w) eqn:S; cbn [state_eqb negb]; try exact S; apply toInit_st.
Qed.
Lemma pres_dd_getGUID {T} (f : World A -> T) i : pres f (dd_getGUID i).
Proof. unfold dd_getGUID, ps_readGUID, psReadIdx, psRead8. pres_tac. Qed.

(* what a not active node does, with a relation R that holds for the few things it may do *)
Section Passive.
Variable R : World A -> World A -> Prop.
Hypothesis Rrefl : forall w, R w w.
Hypothesis Rtrans : forall a b c, R a b -> R b c -> R a c.
Hypothesis Hinit : forall b, rel R (changeToStateInit b).
Hypothesis Hactive : rel R changeToStateActive.
Hypothesis Hguid : forall v w, R w (set_guidSt v w).
Hypothesis Hts : forall id v, rel R (timer_start id v).
Hypothesis Htp : forall id, rel R (timer_stop id).
Lemma startup_guid : c_silent cfg = true -> forall w, w_st w = STARTUP -> R w (snd (handleGuidDrop w)).
Proof.
  intros HS w ST. unfold handleGuidDrop, rxSize, rxd. rewrite !bind_get.
  match goal with |- context [if ?c then _ else _] => destruct c end; [|apply Rrefl]. rewrite bind_get.
  set (id := w_tGuid w). set (d0 := at0 _ 0).
  set (w1 := snd ((when d0 =? 0 do (upd (set_guidSt 0) ;; timer_start id (c_t_multi cfg))) w)).
  assert (R1 : R w w1 /\ w_st w1 = STARTUP) by (unfold w1; destruct (d0 =? 0); [split; [apply (Rtrans _ (set_guidSt 0 w)); [apply Hguid|apply Hts]|exact ST]|split; [apply Rrefl|exact ST]]).
  unfold bind at 1. fold w1. clearbody w1. destruct R1 as [R1 S1]. unfold timer_running. rewrite bind_get. destruct (timerRunning (w_tm w1) id); cbn [negb]; [|apply (Rtrans _ w1); [exact R1|apply Hguid]].
  rewrite !bind_get. unfold bind at 1. set (w2 := snd (dd_getGUID _ w1)). unfold bind at 1. set (w3 := snd (dd_getGUID _ w2)). unfold bind at 1. set (w4 := snd (dd_getGUID _ w3)).
  unfold bind at 1. set (w5 := snd (dd_getGUID _ w4)).
  assert (G : w5 = w1) by (unfold w5, w4, w3, w2; rewrite !(pres_dd_getGUID (fun w => w)); reflexivity). clearbody w5. subst w5. clearbody w2 w3 w4.
  unfold bind at 1. match goal with |- context [(if ?c then ?m else ret tt) w1] => set (w6 := snd ((if c then m else ret tt) w1)) end.
  assert (R6 : R w1 w6 /\ w_st w6 = STARTUP) by (unfold w6; match goal with |- context [if ?c then _ else _] => destruct c end; [split; [apply Hguid|exact S1]|split; [apply Rrefl|exact S1]]).
  clearbody w6. destruct R6 as [R6 S6]. rewrite bind_get. match goal with |- context [if ?c then _ else _] => destruct c end; [|apply (Rtrans _ w1); assumption].
  unfold bind at 1. set (w7 := snd (timer_stop id w6)). assert (R7 : R w6 w7 /\ w_st w7 = STARTUP) by (split; [apply Htp|exact S6]). clearbody w7. destruct R7 as [R7 S7].
  rewrite bind_upd, bind_get. wsimp. rewrite S7, HS. cbn [andb state_eqb]. apply (Rtrans _ w1); [exact R1|]. apply (Rtrans _ w6); [exact R6|]. apply (Rtrans _ w7); [exact R7|].
  apply (Rtrans _ (set_guidSt 0 w7)); [apply Hguid|]. unfold startNodeSegmentInit. rewrite bind_get. match goal with |- context [if ?c then _ else _] => destruct c end; [apply Hinit|apply Rrefl].
Qed.
Lemma startup_rel w : w_st w = STARTUP -> R w (snd (stateStartup w)).
Proof.
  intros ST. unfold stateStartup. rewrite bind_get. destruct (w_nick w =? NICK_NOT_INIT); [|apply Hactive]. destruct (c_silent cfg) eqn:HS.
  - rewrite bind_get. match goal with |- context [if ?c then _ else _] => destruct c end; [apply startup_guid; assumption|apply Rrefl].
  - unfold getStartUpControl, ps_readCtrl, psRead8. rewrite bind_assoc, bind_get, bind_ret. match goal with |- context [if ?c then _ else _] => destruct c end; [apply Hinit|apply Rrefl].
Qed.
Hypothesis Hsend : forall prio x, rel R (sendProt 2 prio [x]).
Hypothesis Hsend7 : forall prio, rel R (sendProt 7 prio []).
Hypothesis Hist : forall v w, R w (set_ist v w).
Hypothesis Hprobe : forall v w, R w (set_probe v w).
Hypothesis Hpre : rel R changeToStatePreActive.
Hypothesis Hidle : rel R changeToStateIdle.
Hypothesis Hnick : forall v, rel R (writeNicknameId v).
Hint Resolve tr_running tr_rxIsProt tr_rxd : core.
Lemma init_rel : rel R stateInit.
Proof. unfold stateInit. rel_tac. Qed.
Lemma preactive_rel : rel R statePreActive.
Proof. unfold statePreActive. rel_tac. Qed.
End Passive.

Lemma dispatch_st w : In (w_st (snd (dispatch w))) (successors (w_st w)).
Proof.
  unfold dispatch. rewrite bind_get. destruct (w_st w) eqn:ST; cbn [successors]; rewrite ?snd_retb.
  - (* STARTUP *) pose (R := @onlyTo [INIT; ACTIVE]).
    assert (G : R w (snd (stateStartup w))).
    { apply startup_rel; try assumption; try (intros; left; reflexivity).
      - unfold R, onlyTo. intros a b c [H1|H1] [H2|H2]; rewrite ?H2, ?H1 in *; auto.
      - intros b w1. right. left. symmetry. apply toInit_st.
      - intros w1. right. right. left. symmetry. apply toActive_st. }
    destruct G as [G|G]; [left; congruence|right; exact G].
  - (* INIT *) assert (G : onlyTo [PREACTIVE; ACTIVE; IDLE] w (snd (stateInit w))).
    { apply init_rel; try (intros; left; reflexivity).
      - unfold onlyTo. intros a b c [H1|H1] [H2|H2]; rewrite ?H2, ?H1 in *; auto.
      - intros w1. right. right. left. symmetry. apply toActive_st.
      - intros p d w1. left. apply sendProt_pres; reflexivity.
      - intros w1. right. left. reflexivity.
      - intros w1. unfold changeToStateIdle. rewrite bind_get. destruct (w_st w1) eqn:S; cbn [state_eqb negb]; [..|]; try (left; reflexivity);
          (right; right; right; left; rewrite bind_emit, bind_upd; destruct (c_idle_co cfg); reflexivity). }
    destruct G as [G|G]; [left; congruence|right; exact G].
  - assert (G : onlyTo [INIT; ACTIVE] w (snd (statePreActive w))).
    { apply preactive_rel; try (intros; left; reflexivity).
      - unfold onlyTo. intros a b c [H1|H1] [H2|H2]; rewrite ?H2, ?H1 in *; auto.
      - intros b w1. right. left. symmetry. apply toInit_st.
      - intros w1. right. right. left. symmetry. apply toActive_st.
      - intros p w1. left. apply sendProt_pres; reflexivity. }
    destruct G as [G|G]; [left; congruence|right; exact G].
  - destruct (active_to w) as [G|G]; [left; congruence|right; exact G].
  - left. symmetry. exact ST.
  - left. rewrite <- ST. symmetry.
    assert (P : pres w_st (@stateReset A)); [|apply P]. unfold stateReset, timer_running, timer_start. pres_tac.
  - left. symmetry. exact ST.
Qed.

(* ---- what a not active node does ---- *)
Definition quietly (s : State) w w' : Prop :=
  exists d, w_out w' = d ++ w_out w /\ Forall (mayDo s) d /\ registers w' = registers w /\
    forall a, a <> ps_nick cfg -> w_ps w' a = w_ps w a.
Lemma quietly_refl s w : quietly s w w.
Proof. exists []. repeat split; constructor. Qed.
Lemma quietly_trans s a b c : quietly s a b -> quietly s b c -> quietly s a c.
Proof.
  intros (d1 & O1 & F1 & R1 & P1) (d2 & O2 & F2 & R2 & P2). exists (d2 ++ d1). rewrite O2, O1, app_assoc. split; [reflexivity|].
  split; [apply Forall_app; auto|]. split; [congruence|]. intros x Hx. rewrite P2, P1; auto.
Qed.
Lemma quietly_same s w w' : w_out w' = w_out w -> registers w' = registers w -> w_ps w' = w_ps w -> quietly s w w'.
Proof. intros H1 H2 H3. exists []. rewrite H1, H2, H3. repeat split; constructor. Qed.
Lemma quietly_emit s o w : mayDo s o -> quietly s w (set_out (o :: w_out w) w).
Proof. intros H. exists [o]. wsimp. repeat split. constructor; [exact H|constructor]. Qed.
Section Q.
Variable s : State.
Hypothesis Hs : In s [STARTUP; INIT; PREACTIVE].
Lemma q_send ty prio d : (length d <= 8)%nat -> (ty = 2 \/ (ty = 7 /\ s = PREACTIVE)) -> rel (quietly s) (@sendProt A E ty prio d).
Proof.
  intros HL HT w. destruct (send_prot ty prio d w HL) as (ok & v & EQ & HO & K). rewrite EQ. exists [OTx (mkTx CLASS_PROTOCOL ty prio (w_nick w) d) ok].
  split; [exact HO|]. split; [constructor; [split; [reflexivity|cbn [m_type mkTx]; tauto]|constructor]|]. 
  destruct K as [K _]. unfold visible in K. injection K. intros. cbn [snd]. unfold registers. split; [congruence|]. intros a _. congruence.
Qed.
Lemma q_nick v : rel (quietly s) (@writeNicknameId A E v).
Proof.
  intros w. unfold writeNicknameId, ps_writeNicknameId, ps_readNicknameId, psWrite8, psRead8. rewrite !bind_assoc, bind_upd, bind_emit, bind_get.
  eexists [_]. unfold upd. cbn [fst snd]. wsimp. cbn [app]. split; [reflexivity|]. split; [constructor; [split; [reflexivity|exact Hs]|constructor]|]. split; [reflexivity|].
  intros a Ha. unfold fupd. destruct (a =? _) eqn:X; [apply N.eqb_eq in X; contradiction|reflexivity].
Qed.
Lemma q_upd f : (forall w, w_out (f w) = w_out w /\ registers (f w) = registers w /\ w_ps (f w) = w_ps w) -> rel (quietly s) (@upd A f).
Proof. intros H w. destruct (H w) as (H1 & H2 & H3). apply quietly_same; assumption. Qed.
Lemma q_emit o : mayDo s o -> rel (quietly s) (@emit A o).
Proof. intros H w. apply quietly_emit, H. Qed.
Ltac qt := pose proof (quietly_refl s) as Rrefl; pose proof (quietly_trans s) as Rtrans; pose proof q_nick; rel_tac;
  try (apply quietly_same; reflexivity); try (apply q_emit; exact Hs).
Lemma q_init b : rel (quietly s) (@changeToStateInit A E b).
Proof. unfold changeToStateInit. qt. Qed.
Lemma q_active : rel (quietly s) (@changeToStateActive A E).
Proof. unfold changeToStateActive, timer_start. qt. apply q_send; [apply Nat.leb_le; reflexivity|left; reflexivity]. Qed.
Lemma q_idle : s = INIT -> rel (quietly s) (@changeToStateIdle A E).
Proof. intros HI. unfold changeToStateIdle. qt. apply q_emit. exact HI. Qed.
End Q.

Lemma dispatch_quiet w : w_st w <> ACTIVE -> quietly (w_st w) w (snd (dispatch w)).
Proof.
  intros NA. unfold dispatch. rewrite bind_get. set (s := w_st w). assert (HS : s = w_st w) by reflexivity. clearbody s. subst s.
  pose proof (fun s => quietly_refl s) as Rrefl. pose proof (fun s => quietly_trans s) as Rtrans.
  destruct (w_st w) eqn:ST; rewrite ?snd_retb; try apply Rrefl; try congruence.
  - assert (Hs : In STARTUP [STARTUP; INIT; PREACTIVE]) by (cbn; tauto).
    apply startup_rel; try assumption; try apply Rrefl; try apply Rtrans; try (intros; intros ?; apply quietly_same; reflexivity); try (intros; apply quietly_same; reflexivity).
    + intros b. apply q_init, Hs. + apply q_active, Hs.
  - assert (Hs : In INIT [STARTUP; INIT; PREACTIVE]) by (cbn; tauto).
    apply init_rel; try apply Rrefl; try apply Rtrans; try (intros; intros ?; apply quietly_same; reflexivity); try (intros; apply quietly_same; reflexivity).
    + apply q_active, Hs.
    + intros p x. apply q_send; [exact Hs|apply Nat.leb_le; reflexivity|tauto].
    + apply q_idle; reflexivity || exact Hs.
    + intros v. apply q_nick, Hs.
  - assert (Hs : In PREACTIVE [STARTUP; INIT; PREACTIVE]) by (cbn; tauto).
    apply preactive_rel; try apply Rrefl; try apply Rtrans; try (intros; intros ?; apply quietly_same; reflexivity); try (intros; apply quietly_same; reflexivity).
    + intros b. apply q_init, Hs.
    + apply q_active, Hs.
    + intros p. apply q_send; [exact Hs|apply Nat.leb_le; reflexivity|tauto].
    + intros v. apply q_nick, Hs.
  - specialize (Rrefl RESET). specialize (Rtrans RESET).
    match goal with |- quietly RESET w (snd (?m w)) => assert (P : rel (quietly RESET) m); [|apply P] end.
    unfold stateReset, timer_running, timer_start. rel_tac; try (apply quietly_same; reflexivity). apply q_emit. reflexivity.
Qed.
Lemma prologue_quiet s rd w : quietly s w (snd (prologue rd w)).
Proof.
  exists ((match received rd w with Some m => [ORx m] | None => [] end) ++ [OProcess]). split; [rewrite prologue_out, <- app_assoc; reflexivity|].
  split; [destruct (received rd w); repeat constructor|]. split; [apply pres_prologue; reflexivity|].
  intros a _. assert (H : w_ps (snd (prologue rd w)) = w_ps w) by (apply pres_prologue; reflexivity). rewrite H. reflexivity.
Qed.
Lemma process_quiet rd w : w_st w <> ACTIVE -> quietly (w_st w) w (after w rd).
Proof.
  intros NA. unfold after, step. rewrite snd_then, process_state. cbn [snd].
  apply (quietly_trans _ w (snd (prologue rd w))); [apply prologue_quiet|].
  apply (quietly_trans _ _ (snd (dispatch (snd (prologue rd w))))).
  - rewrite <- (prologue_st rd w). apply dispatch_quiet. rewrite prologue_st. exact NA.
  - match goal with |- quietly _ ?a _ => apply (quietly_trans _ _ (set_rxv false a)); [apply quietly_same; reflexivity|apply (quietly_emit _ (ORet _) (set_rxv false a) Logic.I)] end.
Qed.

(* ---- initialisation ---- *)
Lemma toError_st w : w_st (snd (changeToStateError w)) = ERROR.
Proof.
  unfold changeToStateError. rewrite bind_get. destruct (w_st w) eqn:S; cbn [state_eqb negb]; try exact S; rewrite bind_emit, bind_upd; destruct (c_err_co cfg); reflexivity.
Qed.
Lemma init_cases w : w_st (snd (core_init w)) = if fst (initTimers (snd (initHead w))) then STARTUP else ERROR.
Proof.
  rewrite core_init_eq. destruct (initHead_frame w) as (_ & _ & S1). set (wh := snd (initHead w)) in *.
  destruct (initTimers_frame wh) as (_ & _ & S2). set (wt := snd (initTimers wh)) in *. assert (ST : w_st wt = STARTUP) by congruence. clearbody wt.
  destruct (fst (initTimers wh)); unfold initTail, getStartUpControl, ps_readCtrl, psRead8; rewrite !bind_assoc, !bind_get, !bind_ret;
    match goal with |- context [if ?c then restoreFactory else _] => destruct c end; cbn [negb]; unfold bind at 1; cbn [fst snd ret].
  - unfold bind, ret. cbn [fst snd]. rewrite (restore_pres w_st) by reflexivity. exact ST.
  - exact ST.
  - apply toError_st.
  - apply toError_st.
Qed.
Lemma init_state (VE : valid_env E) w : reachable w -> w_st (snd (step OpInit w)) = if timersNeeded cfg <=? c_timers cfg then STARTUP else ERROR.
Proof.
  intros HR. destruct (reach_inv VE w HR) as (ps0 & HI). rewrite step_init, init_cases. destruct (initHead_ok ps0 VE w (inv_pre ps0 w HI)) as [H1 _].
  destruct (initTimers_ok ps0 VE _ H1) as (_ & R2 & _). rewrite R2. reflexivity.
Qed.
Lemma api_st c w : w_st (snd (doApi c w)) = match c with AStartInit => INIT | _ => w_st w end.
Proof.
  destruct c; unfold doApi; rewrite bind_emit.
  5:{ rewrite startInit_st. reflexivity. }
  5:{ rewrite (restore_pres w_st) by reflexivity. reflexivity. }
  all: match goal with |- w_st (snd (?m ?w1)) = _ => assert (P : pres w_st m); [|rewrite (P w1); reflexivity] end.
  all: unfold tp_writeMessage, adapterWrite, loopWrite, setAlarm, setTimeSinceEpoch, enableHeartbeat, log_enable, log_setLevel, setUB, ps_writeLogId, ps_writeZone, ps_writeSub, psWrite8, tp_getTransmitErrors.
  all: pres_tac.
  all: try (destruct (w_txe _ <? 255); reflexivity).
  assert (T : forall m, pres w_st (tp_writeMessage m)) by (intros m; unfold tp_writeMessage, adapterWrite, loopWrite, setUB; pres_tac; destruct (w_txe _ <? 255); reflexivity).
  apply (tr_log_log (fun w w' => w_st w' = w_st w)); try exact T; intros; congruence.
Qed.
End S.
