(* Proof_ExampleAvr.v - lemmas for the application of the AVR example (properties C79, C80) *)
From Verif Require Export Spec_ExampleAvr Walk Proof_Heartbeat Proof_Protect.
Notation World := (World bool).
Implicit Types w v : World.

Lemma avr_valid : valid_env avrEnv.
Proof.
  constructor.
  - constructor; cbn; try lia; try discriminate; try (intros; reflexivity); try tauto; try (intros [? ?]; discriminate); repeat constructor.
  - intros a p r v. cbn. unfold avrWrite. destruct (p =? 0), (r =? 0), (r =? 1); repeat constructor.
  - intros; constructor.
  - intros; constructor.
  - intros a x p m. cbn. unfold avrAction. destruct (x =? 1), (x =? 2); repeat constructor; cbn; unfold u8; try lia; apply N.mod_lt; lia.
  - intros; constructor.
Qed.

(* -- C80: what every operation does -- *)
Definition led0 (o : Obs) (b : bool) : bool := match o with OAction a _ _ => if a =? 1 then true else if a =? 2 then false else b | _ => b end.
Lemma ledAfter_app l1 l2 b : ledAfter b (actions (l1 ++ l2)) = ledAfter (ledAfter b (actions l1)) (actions l2).
Proof. unfold ledAfter, actions. rewrite flat_map_app, fold_left_app. reflexivity. Qed.
(* l: the effects, oldest first *)
Definition follows (ps : N -> N) (l : list Obs) : Prop := forall l1 a p m l2, l = l1 ++ OAction a p m :: l2 -> reported (u8 (memAfter ps l1 (ps_nick avrCfg))) a l2.
Definition RA w v : Prop := exists l, w_out v = rev l ++ w_out w /\ w_app v = ledAfter (w_app w) (actions l) /\ (forall x, w_ps v x = memAfter (w_ps w) l x) /\ follows (w_ps w) l.
Lemma reported_app n a l r : reported n a l -> reported n a (l ++ r).
Proof. intros [H1 H2]. split; intros H; [destruct (H1 H) as (f & ok & x & K & ->)|destruct (H2 H) as (f & ok & x & K & ->)]; exists f, ok, (x ++ r); auto. Qed.
Lemma split_app {T} (x : T) l1 l2 a b : l1 ++ x :: l2 = a ++ b ->
  (exists c, a = l1 ++ x :: c /\ l2 = c ++ b) \/ (exists c, l1 = a ++ c /\ b = c ++ x :: l2).
Proof.
  revert l1. induction a as [|y a IH]; intros l1 H.
  - right. exists l1. auto.
  - destruct l1 as [|z l1]; cbn in H; injection H; intros H2 ->.
    + left. exists a. split; [reflexivity|assumption].
    + destruct (IH _ H2) as [(c & -> & ->)|(c & -> & ->)]; [left|right]; exists c; auto.
Qed.
Lemma RA_trans a b c : RA a b -> RA b c -> RA a c.
Proof.
  intros (l1 & O1 & A1 & P1 & F1) (l2 & O2 & A2 & P2 & F2). exists (l1 ++ l2). split; [rewrite O2, O1, rev_app_distr, app_assoc; reflexivity|].
  split; [rewrite ledAfter_app, A2, A1; reflexivity|]. split; [intros x; rewrite P2, mem_app; apply mem_ext, P1|].
  intros k1 i p m k2 H. symmetry in H. apply split_app in H. destruct H as [(d & -> & ->)|(d & -> & ->)].
  - apply reported_app. apply (F1 k1 i p m d). reflexivity.
  - rewrite mem_app, <- (mem_ext _ _ _ P1). apply (F2 d i p m k2). reflexivity.
Qed.
Definition noAction (o : Obs) : Prop := match o with OAction _ _ _ | OPs _ _ => False | _ => True end.
Lemma RA_quiet w v l : w_out v = rev l ++ w_out w -> w_app v = w_app w -> w_ps v = w_ps w -> Forall noAction l -> RA w v.
Proof.
  intros H1 H2 H3 H4. exists l. split; [exact H1|].
  assert (H5 : actions l = []). { clear -H4. induction H4 as [|o l H H4 IH]; [reflexivity|]. destruct o; try exact IH; destruct H. }
  split; [rewrite H5; exact H2|]. split.
  - intros x. rewrite H3. clear -H4. revert x. generalize (w_ps w). induction H4 as [|o l H H4 IH]; intros ps x; [reflexivity|]. destruct o; try apply IH; destruct H.
  - intros l1 a p m l2 ->. apply Forall_app in H4. destruct H4 as [_ H4]. inversion H4 as [|? ? X _]. destruct X.
Qed.
Lemma RA_refl w : RA w w. Proof. apply (RA_quiet w w []); auto. Qed.
Lemma RA_set f : neutral f -> forall w, RA w (f w).
Proof. intros H w. destruct (H w) as (H1 & H2 & _ & H4 & _). apply (RA_quiet _ _ []); auto. Qed.
Lemma RA_emit o : noAction o -> rel RA (@emit bool o).
Proof. intros H w. apply (RA_quiet _ _ [o]); auto. Qed.
Lemma RA_walk o : walkObs o = true -> rel RA (@emit bool o).
Proof. intros H. apply RA_emit. destruct o; try exact Logic.I; discriminate H. Qed.
Lemma RA_upd g : (forall w, w_out (g w) = w_out w /\ w_app (g w) = w_app w /\ w_ps (g w) = w_ps w) -> rel RA (upd g).
Proof. intros H w. destruct (H w) as (H1 & H2 & H3). apply (RA_quiet _ _ []); auto. Qed.
Lemma RA_ps a x : rel RA (psWrite8 a x).
Proof.
  intros w. exists [OPs a (u8 x)]. split; [reflexivity|]. split; [reflexivity|]. split; [intros y; reflexivity|].
  intros [|o l1] i p m l2 H; [discriminate H|]. destruct l1; discriminate H.
Qed.
Lemma tx_RA f w : exists o, (o = OTxDrop f \/ exists ok, o = OTx f ok) /\ w_out (snd (tp_writeMessage f w)) = o :: w_out w /\
  w_app (snd (tp_writeMessage f w)) = w_app w /\ w_ps (snd (tp_writeMessage f w)) = w_ps w.
Proof. destruct (tx_any f w) as (o & H1 & H2 & (K & _)). exists o. unfold visible in K. repeat split; auto; congruence. Qed.
Lemma RA_tx f : rel RA (tp_writeMessage f).
Proof. intros w. destruct (tx_RA f w) as (o & H1 & H2 & H3 & H4). apply (RA_quiet _ _ [o]); auto. constructor; [|constructor]. destruct H1 as [->|[ok ->]]; exact Logic.I. Qed.
Ltac ra := repeat first [assumption | match goal with
  | |- rel _ (psWrite8 _ _) => apply RA_ps | |- rel _ (tp_writeMessage _) => apply RA_tx | |- rel _ (emit _) => apply RA_emit; exact Logic.I
  | |- rel _ (upd _) => apply RA_upd; intros; repeat split; reflexivity | |- rel _ (get _) => apply rel_get, RA_refl | |- rel _ (ret _) => apply rel_ret, RA_refl
  | |- rel _ (bind _ _) => apply rel_bind; [exact RA_trans| |intros] | H : forall b, rel RA (?f b) |- rel _ (?f _) => apply H
  | |- rel _ (if ?b then _ else _) => destruct b | |- rel _ (match ?b with _ => _ end) => destruct b end
  | progress unfold writeNicknameId, ps_writeNicknameId, ps_readNicknameId, psRead8, sendProt, timer_start, timer_stop, timer_running, rxIsProt, rxd].
Lemma A_init b : rel RA (changeToStateInit b). Proof. unfold changeToStateInit. ra. Qed.
Lemma A_active : rel RA changeToStateActive. Proof. unfold changeToStateActive. ra. Qed.
Lemma A_idle : rel RA changeToStateIdle. Proof. unfold changeToStateIdle. ra. Qed.
Lemma A_reset t : rel RA (changeToStateReset t). Proof. unfold changeToStateReset. ra. Qed.
Lemma A_error : rel RA changeToStateError. Proof. unfold changeToStateError. ra. Qed.
Lemma A_stateInit : rel RA stateInit. Proof. unfold stateInit, changeToStatePreActive. assert (X := A_idle). assert (Y := A_active). ra. Qed.
Lemma A_statePre : rel RA statePreActive. Proof. unfold statePreActive. assert (X := A_init). assert (Y := A_active). ra. Qed.
Lemma A_restore : rel RA restoreFactory.
Proof.
  apply wk_restoreFactory; auto using RA_refl, RA_set, RA_walk, RA_ps, RA_tx; try exact RA_trans.
  apply rel_bind; [exact RA_trans|apply RA_emit; exact Logic.I|intros _]. apply RA_upd. intros w. repeat split; reflexivity.
Qed.
Lemma A_api c : rel RA (doApi c).
Proof.
  rewrite doApi_body. apply rel_bind; [exact RA_trans|apply RA_emit; exact Logic.I|intros _].
  apply wk_apiBody; auto using RA_refl, RA_set, RA_walk, RA_ps, RA_tx, A_init, A_active, A_idle, A_reset, A_restore. exact RA_trans.
Qed.
Lemma A_forM l : rel RA (forM l doApi).
Proof. apply rel_forM; auto using RA_refl, A_api. exact RA_trans. Qed.
Lemma send_eq f w : m_size f <= 8 -> exists ok, let v := snd (forM [ASend f] doApi w) in
  w_out v = OTx f ok :: OApi (ASend f) :: w_out w /\ w_app v = w_app w /\ w_ps v = w_ps w.
Proof.
  intros L. cbn [forM]. unfold doApi. rewrite !bind_assoc, bind_emit. set (w1 := set_out _ w).
  destruct (tx_RA f w1) as (o & H1 & H2 & H3 & H4). destruct (tx_out f w1 L) as (ok & _ & H5). exists ok.
  unfold bind, ret. destruct (tp_writeMessage f w1) as [b u]. cbn [snd fst] in *. rewrite H5, H3, H4. auto.
Qed.
Lemma A_action a p m : rel RA (actionExecute a p m).
Proof.
  intros w. unfold actionExecute. rewrite bind_emit, bind_get, bind_upd. set (w1 := set_out (OAction a p m :: w_out w) w).
  change (app_action (w_app w1, w_ps w1) a p m) with (avrAction (w_app w, w_ps w) a p m). unfold avrAction. cbn [snd fst].
  destruct (a =? 1) eqn:E1; [|destruct (a =? 2) eqn:E2].
  - cbn [fst snd]. set (f := infoFrame 3 _). destruct (send_eq f (set_app true w1)) as (ok & H1 & H2 & H3); [cbn; lia|]. cbv zeta in *.
    exists [OAction a p m; OApi (ASend f); OTx f ok]. split; [exact H1|]. split; [rewrite H2; unfold ledAfter; cbn; rewrite E1; reflexivity|].
    split; [intros x; rewrite H3; reflexivity|]. intros [|o l1] i q k l2 H; injection H; intros.
    + subst. split; intros Hi; [|lia]. exists f, ok, []. split; [repeat split|reflexivity].
    + exfalso. destruct l1 as [|o1 l1]; cbn in *; try discriminate. destruct l1 as [|o2 l1]; cbn in *; try discriminate. destruct l1; discriminate.
  - cbn [fst snd]. set (f := infoFrame 4 _). destruct (send_eq f (set_app false w1)) as (ok & H1 & H2 & H3); [cbn; lia|]. cbv zeta in *.
    exists [OAction a p m; OApi (ASend f); OTx f ok]. split; [exact H1|]. split; [rewrite H2; unfold ledAfter; cbn; rewrite E1, E2; reflexivity|].
    split; [intros x; rewrite H3; reflexivity|]. intros [|o l1] i q k l2 H; injection H; intros.
    + subst. split; intros Hi; [lia|]. exists f, ok, []. split; [repeat split|reflexivity].
    + exfalso. destruct l1 as [|o1 l1]; cbn in *; try discriminate. destruct l1 as [|o2 l1]; cbn in *; try discriminate. destruct l1; discriminate.
  - exists [OAction a p m]. split; [reflexivity|]. split; [unfold ledAfter; cbn; rewrite E1, E2; reflexivity|].
    split; [intros x; reflexivity|]. intros [|o l1] i q k l2 H; injection H; intros.
    + subst. split; intros Hi; lia.
    + exfalso. destruct l1; discriminate.
Qed.
Ltac co := repeat first [apply A_forM | apply RA_emit; exact Logic.I | apply rel_ret, RA_refl | apply rel_bind; [exact RA_trans| |intros]].
Lemma A_set {T} (g : World -> T) (h : T -> bool) (k : T -> M bool N) : (forall w, h (g w) = w_app w) -> (forall r, rel RA (k r)) -> rel RA (r <- get g ;; upd (set_app (h r)) ;; k r).
Proof. intros H K w. rewrite bind_get, bind_upd. apply (RA_trans _ (set_app (h (g w)) w)); [apply (RA_quiet _ _ []); auto; apply H|apply K]. Qed.
Lemma A_process rd : rel RA (process rd).
Proof.
  apply walk_process; auto using RA_refl, RA_set, RA_walk, RA_ps, RA_tx, A_init, A_active, A_idle, A_reset, A_restore, A_action; try exact RA_trans.
  - intros w _. apply A_statePre.
  - intros w _. apply A_stateInit.
  - intros p a. unfold appRead. apply rel_bind; [exact RA_trans|apply RA_emit; exact Logic.I|intros _].
    intros w. rewrite bind_get, bind_upd. apply (RA_quiet _ _ []); auto.
  - intros p a x. unfold appWrite. apply rel_bind; [exact RA_trans|apply RA_emit; exact Logic.I|intros _].
    intros w. rewrite bind_get, bind_upd. match goal with |- RA w (snd (bind _ _ ?v)) => apply (RA_trans _ v) end.
    + apply (RA_quiet _ _ []); auto. cbn. unfold avrWrite. destruct (p =? 0), (a =? 0), (a =? 1); reflexivity.
    + match goal with |- RA ?v (snd (?m ?v)) => enough (rel RA m) by auto end. co.
  - intros m. unfold provideEvent. apply rel_bind; [exact RA_trans|apply RA_emit; exact Logic.I|intros _].
    intros w. rewrite bind_get, bind_upd. apply (RA_quiet _ _ []); auto.
  - intros m. unfold provideProtocolEvent. apply rel_bind; [exact RA_trans|apply RA_emit; exact Logic.I|intros _].
    intros w. rewrite bind_get, bind_upd. apply (RA_quiet _ _ []); auto.
  - unfold customHeartbeat. apply rel_bind; [exact RA_trans|apply RA_emit; exact Logic.I|intros _].
    intros w. rewrite bind_get, bind_upd. apply (RA_quiet _ _ []); auto.
Qed.
Lemma A_core_init : rel RA core_init.
Proof.
  intros w. rewrite core_init_eq. assert (H1 : rel RA initTimers).
  { apply wk_initTimers; auto using RA_refl, RA_set, RA_walk. exact RA_trans. }
  assert (H2 : forall b, rel RA (initTail b)).
  { intros. apply wk_initTail; auto using RA_refl, RA_set, RA_walk, A_error, A_restore. exact RA_trans. }
  assert (H3 : rel RA initHead). { unfold initHead, tp_init, dm_init. ra. }
  eapply RA_trans; [apply H3|]. eapply RA_trans; [apply H1|]. apply H2.
Qed.
Lemma A_step o : rel RA (step o).
Proof.
  destruct o as [rd|p|c|]; cbn [step].
  - apply rel_bind; [exact RA_trans|apply A_process|intros; apply rel_ret, RA_refl].
  - apply rel_bind; [exact RA_trans|apply RA_emit; exact Logic.I|intros]. apply RA_upd. intros; repeat split; reflexivity.
  - apply A_api.
  - apply rel_bind; [exact RA_trans|apply A_core_init|intros; apply rel_ret, RA_refl].
Qed.

(* -- C79 -- *)
From Verif Require Import Proof_Regs Proof_Serve Proof_RW Proof_PS Proof_Request.
Lemma avr_appreg a : a < 128 -> isAppRegister 0 a.
Proof.
  intros Ha. apply app_register; [lia|lia| |reflexivity|exact ext_doApi].
  unfold dm_isDecisionMatrix. reflexivity.
Qed.
Lemma avr_writable_zone w a (v : N) : writable w -> a < 2 -> v < 256 ->
  let x := if a =? 0 then ps_zone avrCfg else ps_sub avrCfg in let c := if a =? 0 then AWriteZone v else AWriteSubZone v in
  writeRegister 0 a v w = ((v, false), set_ps (fupd (w_ps w) x v) (set_out (OPs x v :: OApi c :: OAppWrite 0 a v :: w_out w) w)).
Proof.
  intros HW Ha Hv x c. rewrite writeRegister_open by (lia || assumption). change (c_dm cfg && dm_isDecisionMatrix 0 a) with false. change (c_dm_ng cfg && ng_isDecisionMatrix 0 a) with false. cbv iota.
  assert (U : u8 v = v) by (apply N.mod_small; lia).
  assert (C : a = 0 \/ a = 1) by lia. destruct C as [-> | ->]; unfold x, c, appWrite, emit, bind, upd, get, ret, forM, doApi, ps_writeZone, ps_writeSub, psWrite8; cbn [fst snd app_write avrEnv avrWrite N.eqb Pos.eqb]; wsimp; rewrite ?U; destruct w; reflexivity.
Qed.
Lemma avr_stores w a (v : N) l : a < 2 -> v < 256 -> stores w (zoneField a) 0 v (set_ps (fupd (w_ps w) (if a =? 0 then ps_zone avrCfg else ps_sub avrCfg) v) (set_out l w)).
Proof.
  intros Ha Hv. split; [destruct w; reflexivity|]. intros g j Hj. assert (C : a = 0 \/ a = 1) by lia.
  assert (L : j < fieldLen avrCfg g) by exact Hj. unfold stored. rewrite !readField_eq by exact Hj. wsimp. unfold fupd.
  change (@cfg bool avrEnv) with avrCfg. remember (fieldBase avrCfg g) as b eqn:HB. remember (fieldLen avrCfg g) as n eqn:HN.
  remember (ps_zone avrCfg) as z eqn:HZ. remember (ps_sub avrCfg) as u eqn:HU. vm_compute in HZ, HU. subst z u.
  destruct g; vm_compute in HB, HN; subst b n; destruct C as [-> | ->]; cbn [N.eqb zoneField field_eqb andb];
    repeat match goal with |- context [?x =? ?y] => destruct (N.eqb_spec x y) end; try reflexivity; try lia.
  all: replace j with 0 by lia; reflexivity.
Qed.
(* the frame that serves a write request to register 0 or 1 *)
Lemma avr_write_served w rd m a (v : N) : request w rd m 11 [w_nick w; a; v] -> a < 2 -> writable w ->
  exists f ok x w1, protFrame f 10 3 (w_nick w) [a; v] /\ stores w (zoneField a) 0 v w1 /\
    served w (after w rd) m [OAppWrite 0 a v; OApi (if a =? 0 then AWriteZone v else AWriteSubZone v); OPs x v; OTx f ok] w1.
Proof.
  intros HQ Ha HW. set (x := if a =? 0 then ps_zone avrCfg else ps_sub avrCfg). set (c := if a =? 0 then AWriteZone v else AWriteSubZone v).
  destruct (served_by avr_valid (fun l w1 => exists f ok, l = [OAppWrite 0 a v; OApi c; OPs x v; OTx f ok] /\ protFrame f 10 3 (w_nick w) [a; v] /\ v < 256 /\ w1 = set_ps (fupd (w_ps w) x v) (set_out (w_out w) w)) w rd m 11 _ HQ)
    as (l & w1 & (f & ok & -> & PF & HV & ->) & HS); [|exists f, ok, x; eexists; split; [exact PF|]; split; [apply avr_stores; assumption|exact HS]].
  intros w0 S0 RX WF HT HP NK. change (heard w m) with w in S0. assert (HV : v < 256) by (apply (payload_byte m v WF); rewrite HP; cbn [In]; auto).
  rewrite <- NK in HP. pose proof (write_handler w0 m a v RX WF HT HP) as HA.
  assert (W0 : writable w0). { unfold writable in *. rewrite (stored_ps w0 w); [exact HW|]. exact (same_ps _ _ S0). }
  pose proof (avr_writable_zone w0 a v W0 Ha HV) as EQ. cbv zeta in EQ. fold x c in EQ.
  unfold answered in HA. rewrite EQ in HA. cbn [fst snd] in HA. destruct HA as (ok & G1 & G2). wsimp_in G1.
  eexists. eexists. split; [|split; [rewrite G1|split]].
  - eexists. exists ok. split; [reflexivity|]. split; [|split; [exact HV|reflexivity]]. rewrite <- NK. apply protFrame_mk. cbn; lia.
  - reflexivity.
  - apply (same_trans _ _ _ (keeps_same _ _ G2)). rewrite <- (same_ps _ _ S0). samet S0.
  - intros _. eapply undisturbed_trans; [|apply keeps_undisturbed; exact G2]. repeat split; auto.
Qed.
