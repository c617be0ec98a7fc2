(* Proof_Turns.v - lemmas for the decision matrix and rule set of applications whose actions change the memory (C15, C16, C21, C22) *)
From Verif Require Export Proof_Quiet Spec_Turns.

Section Turns.
Context {A : Type} {E : Env A}.
Implicit Types w v : World A.
Definition plain (o : Obs) : Prop := match o with OAction _ _ _ | OEvent _ | OProtEvent _ | OHeartbeatCustom => False | OPs _ v => v < 256 | _ => True end.
(* no event, and only bytes are written *)
Definition noEv (o : Obs) : Prop := match o with OEvent _ | OProtEvent _ => False | OPs _ v => v < 256 | _ => True end.
Lemma noEv_noEvent l : Forall noEv l -> Forall noEvent l. Proof. apply Forall_impl. intros []; cbn; tauto. Qed.
Lemma noEv_bytes l : Forall noEv l -> forall ps, (forall x, ps x < 256) -> forall x, memAfter ps l x < 256.
Proof. induction 1 as [|o l H _ IH]; intros ps HP x; [apply HP|]. cbn [memAfter]. destruct o; try (apply IH; exact HP). apply IH. intros y. destruct (y =? a); [exact H|apply HP]. Qed.
Lemma plain_actions l : Forall plain l -> actions l = [].
Proof. induction 1 as [|o l H _ IH]; [reflexivity|]. change (o :: l) with ([o] ++ l). rewrite actions_app, IH. destruct o; try reflexivity. destruct H. Qed.
Lemma action_trace a p m w : exists e, let v := snd (actionExecute a p m w) in
  w_out v = rev (OAction a p m :: e) ++ w_out w /\ (forall x, w_ps v x = memAfter (w_ps w) e x) /\ Forall plain e.
Proof.
  unfold actionExecute. rewrite bind_emit, bind_get, bind_upd. cbv zeta.
  match goal with |- context[forM ?l doApi ?x] => destruct (Q_forM plain ltac:(auto) l x) as (e & H1 & H2 & H3) end.
  exists e. rewrite H1. cbn [rev]. rewrite <- app_assoc. split; [reflexivity|]. split; [exact H2|exact H3].
Qed.
Lemma row_mem w v ps m i : c_dm cfg = true -> i < c_dm_rows cfg -> (forall x, w_ps v x = ps x) -> rowActions (inMem ps w) m i = rowActions v m i.
Proof. intros HD Hi H. apply rowActions_same; try assumption. intros f j _ Hj. apply stored_ext; [|exact Hj]. intros x. symmetry. apply H. Qed.
Lemma rows_trace u m : c_dm cfg = true -> msg_wf m -> forall rows, (forall i, In i rows -> i < c_dm_rows cfg) -> forall w ps, (forall x, w_ps w x = ps x) ->
  exists l, let v := snd (forM rows (dm_step actionExecute m) w) in
    w_out v = rev l ++ w_out w /\ (forall x, w_ps v x = memAfter ps l x) /\ Forall noEv l /\ rowsRun u m rows ps l.
Proof.
  intros HD Hm. induction rows as [|i rows IH]; intros HR w ps HP; cbn [forM].
  - exists []. repeat split; auto; constructor.
  - cbv zeta. assert (EQ : snd ((dm_step actionExecute m i ;; forM rows (dm_step actionExecute m)) w) = snd (forM rows (dm_step actionExecute m) (snd (dm_step actionExecute m i w)))).
    { unfold bind. destruct (dm_step actionExecute m i w). reflexivity. }
    rewrite EQ. clear EQ. rewrite dm_step_spec by (auto with datatypes).
    assert (RA := row_mem u w ps m i HD (HR i (or_introl eq_refl)) HP). rewrite (rowActions_spec w) in RA.
    destruct (rowResult w m i) as [[a p]|].
    + destruct (action_trace a p m w) as (e & H1 & H2 & H3).
      destruct (IH (fun j Hj => HR j (or_intror Hj)) (snd (actionExecute a p m w)) (memAfter ps e)) as (l & G1 & G2 & G3 & G4).
      { intros x. rewrite H2. apply mem_ext. exact HP. }
      exists (OAction a p m :: e ++ l). split; [rewrite G1, H1; cbn [rev]; rewrite rev_app_distr, <- !app_assoc; reflexivity|].
      split; [intros x; cbn [memAfter]; rewrite mem_app; apply G2|]. split.
      * constructor; [exact Logic.I|]. apply Forall_app. split; [|exact G3]. revert H3. apply Forall_impl. intros []; cbn; tauto.
      * apply rows_act; [exact RA|apply plain_actions, H3|exact G4].
    + destruct (IH (fun j Hj => HR j (or_intror Hj)) w ps HP) as (l & G1 & G2 & G3 & G4). exists l. repeat split; try assumption. apply rows_skip; assumption.
Qed.

(* ---- rules ---- *)
Lemma ng_mem u v ps i : (forall x, w_ps v x = ps x) -> ngByte (inMem ps u) i = ngByte v i.
Proof. intros H. apply ngByte_ext. intros x. symmetry. apply H. Qed.
Lemma rules_trace u m : forall n fuel r t w ps o, (n < fuel)%nat -> (n <= 255)%nat -> goodRule r -> length (map Some r ++ t) = 40%nat ->
  w_ngCnt w = N.of_nat n -> w_ngIdx w = o -> o + 40 * N.of_nat (S n) < 65536 -> (forall x, w_ps w x = ps x) ->
  exists l1 l2, let v := snd (ng_rules fuel actionExecute m (map Some r ++ t) w) in
    w_out v = rev (l1 ++ l2) ++ w_out w /\ (forall x, w_ps v x = memAfter ps (l1 ++ l2) x) /\ Forall noEv (l1 ++ l2) /\
    (bytesActions m r = [] /\ l1 = [] \/ exists a p e, bytesActions m r = [(a, p, m)] /\ l1 = OAction a p m :: e /\ actions e = []) /\
    rulesRun u m bytesActions n o r (memAfter ps l1) l2.
Proof.
  induction n as [n IH] using (well_founded_induction lt_wf). intros fuel r t w ps o Hf Hn HG HL HC HI Ho HP.
  destruct fuel as [|fuel]; [lia|]. cbn [ng_rules]. cbv zeta.
  destruct (rule_step actionExecute m r t w HG) as (w1 & (e' & r' & p' & D) & HR).
  rewrite snd_bind, HR. clear HR.
  set (w2 := snd (if ruleDecides m r then actionExecute (nth 1 r 0) (nth 2 r 0) m w1 else (tt, w1))).
  assert (S2 : exists l1, w_out w2 = rev l1 ++ w_out w /\ (forall x, w_ps w2 x = memAfter ps l1 x) /\ Forall noEv l1 /\ w_ngCnt w2 = w_ngCnt w /\ w_ngIdx w2 = w_ngIdx w /\
    (bytesActions m r = [] /\ l1 = [] \/ exists a p e, bytesActions m r = [(a, p, m)] /\ l1 = OAction a p m :: e /\ actions e = [])).
  { unfold w2, bytesActions. destruct (ruleDecides m r).
    - destruct (action_trace (nth 1 r 0) (nth 2 r 0) m w1) as (e & H1 & H2 & H3).
      destruct (action_calm (nth 1 r 0) (nth 2 r 0) m w1) as (_ & C1 & C2).
      exists (OAction (nth 1 r 0) (nth 2 r 0) m :: e). split; [rewrite H1; subst w1; reflexivity|]. split.
      { intros x. rewrite H2. cbn [memAfter]. apply mem_ext. intros y. subst w1. apply HP. }
      split. { constructor; [exact Logic.I|]. revert H3. apply Forall_impl. intros []; cbn; tauto. }
      split; [subst w1; apply C1|]. split; [subst w1; apply C2|].
      right. exists (nth 1 r 0), (nth 2 r 0), e. split; [reflexivity|]. split; [reflexivity|]. apply plain_actions, H3.
    - exists []. subst w1. cbn [snd]. repeat split; auto. }
  clearbody w2. clear D w1. destruct S2 as (l1 & T1 & TM & TE & T4 & T5 & TA).
  rewrite snd_bind, (next_spec n o) by (congruence || lia).
  destruct n as [|k].
  - cbn [fst snd]. exists l1, []. rewrite app_nil_r. repeat split; try assumption. constructor.
  - assert (HB : forall i, ngByte (inMem (memAfter ps l1) u) i = ngByte w2 i) by (intros i; apply ng_mem; exact TM).
    destruct (N.ltb_spec 40 (ngByte w2 o)) as [L|L].
    + cbn [fst snd]. exists l1, []. rewrite app_nil_r. repeat split; try assumption. apply rules_long. rewrite HB. exact L.
    + cbn [fst snd].
      destruct (N.eq_dec (ngByte w2 o) 0) as [Z|Z].
      * rewrite Z in *. change (bytesAt w2 o 0) with (@nil N) in *. cbn [map app N.to_nat skipn].
        destruct (IH k ltac:(lia) fuel r t (set_ngCnt (N.of_nat k) (set_ngIdx (o + 0) w2)) (memAfter ps l1) (o + 0)) as (k1 & k2 & G1 & G2 & G3 & G4 & G5); try lia; try assumption; try reflexivity.
        exists l1, (k1 ++ k2). rewrite G1. wsimp. rewrite T1. split; [rewrite (rev_app_distr l1), app_assoc; reflexivity|].
        split; [intros x; rewrite mem_app; apply G2|]. split; [apply Forall_app; auto|]. split; [exact TA|].
        apply rules_next with (r := r); rewrite ?HB, ?Z; try assumption; try lia; try reflexivity.
      * assert (NE : bytesAt w2 o (ngByte w2 o) <> []) by (intros X; pose proof (bytesAt_length w2 o (ngByte w2 o)) as BL; rewrite X in BL; cbn in BL; lia).
        destruct (IH k ltac:(lia) fuel (bytesAt w2 o (ngByte w2 o)) (skipn (N.to_nat (ngByte w2 o)) (map Some r ++ t))
                  (set_ngCnt (N.of_nat k) (set_ngIdx (o + ngByte w2 o) w2)) (memAfter ps l1) (o + ngByte w2 o)) as (k1 & k2 & G1 & G2 & G3 & G4 & G5); try lia; try assumption; try reflexivity.
        { apply bytesAt_good; assumption. }
        { rewrite app_length, map_length, bytesAt_length, skipn_length, HL. lia. }
        exists l1, (k1 ++ k2). rewrite G1. wsimp. rewrite T1. split; [rewrite (rev_app_distr l1), app_assoc; reflexivity|].
        split; [intros x; rewrite mem_app; apply G2|]. split; [apply Forall_app; auto|]. split; [exact TA|].
        apply rules_next with (r := bytesAt w2 o (ngByte w2 o)); rewrite ?HB; try assumption.
        replace (ngByte w2 o =? 0) with false by lia. unfold bytesAt. apply map_ext. intros j. symmetry. apply HB.
Qed.
Lemma rules_all u m w ps : (forall x, w_ps w x = ps x) -> ngByte w 0 < 256 -> (ngByte w 0 <> 0 -> ngByte w 1 <> 0) ->
  exists l, let v := snd (ng_executeActions actionExecute m w) in
    w_out v = rev l ++ w_out w /\ (forall x, w_ps v x = memAfter ps l x) /\ Forall noEv l /\ rulesRun u m bytesActions (N.to_nat (ngByte w 0)) 1 [] ps l.
Proof.
  intros HP HC HF. unfold ng_executeActions. cbv zeta. rewrite snd_bind, first_run.
  match goal with |- context[ng_getNextRule _ ?x] => set (w1 := x) end.
  assert (HB : forall i, ngByte w1 i = ngByte w i) by (apply ngByte_ext; reflexivity).
  assert (HC1 : w_ngCnt w1 = ngByte w 0) by reflexivity.
  assert (HI1 : w_ngIdx w1 = 1 /\ w_out w1 = w_out w /\ w_ps w1 = w_ps w) by (repeat split; reflexivity). clearbody w1. destruct HI1 as (HI1 & HO1 & HP1).
  assert (HU : forall i, ngByte (inMem ps u) i = ngByte w i) by (intros i; apply ng_mem; exact HP).
  set (n := N.to_nat (ngByte w 0)) in *.
  rewrite (next_spec n 1 _ w1); [|rewrite HC1; unfold n; lia|exact HI1|lia|reflexivity|unfold n; lia].
  destruct n as [|k] eqn:En; [exists []; unfold ret; cbn [fst snd]; rewrite HO1, HP1; repeat split; auto; constructor|]. rewrite HB.
  destruct (N.ltb_spec 40 (ngByte w 1)) as [L|L].
  { exists []. unfold ret. cbn [fst snd]. rewrite HO1, HP1. split; [reflexivity|]. split; [exact HP|]. split; [constructor|]. apply rules_long. rewrite HU. exact L. }
  cbn [fst snd].
  assert (HF1 : bytesAt w1 1 (ngByte w 1) <> []).
  { intros X. pose proof (bytesAt_length w1 1 (ngByte w 1)) as BL. rewrite X in BL. cbn [length] in BL. assert (ngByte w 1 <> 0) by (apply HF; lia). lia. }
  rewrite snd_bind. unfold dbgClrError. cbn [bind upd fst snd].
  set (r := bytesAt w1 1 (ngByte w 1)) in *.
  assert (HG : goodRule r) by (unfold r in *; rewrite <- (HB 1) in HF1, L |- *; apply bytesAt_good; [exact L|exact HF1]).
  destruct (rules_trace u m k 256 r (skipn (N.to_nat (ngByte w 1)) (repeat None (N.to_nat NG_RULE_MAX_SIZE)))
     (set_ngPos 0 (set_ngRule 0 (set_ngErr false (set_ngCnt (N.of_nat k) (set_ngIdx (1 + ngByte w 1) w1))))) ps (1 + ngByte w 1)) as (l1 & l2 & G1 & G2 & G3 & G4 & G5); try lia; try assumption; try reflexivity.
  - unfold r. rewrite app_length, map_length, bytesAt_length, skipn_length, repeat_length. unfold NG_RULE_MAX_SIZE. lia.
  - intros x. wsimp. rewrite HP1. apply HP.
  - exists (l1 ++ l2). split; [rewrite <- HO1; exact G1|]. split; [exact G2|]. split; [exact G3|].
    apply rules_next with (r := r); rewrite ?HU; try assumption.
    assert (ngByte w 1 <> 0) by (apply HF; lia). replace (ngByte w 1 =? 0) with false by lia.
    unfold r, bytesAt. apply map_ext. intros j. rewrite HB. symmetry. apply HU.
Qed.
End Turns.

(* ---- a whole process call ---- *)
Section Process.
Context {A : Type} {E : Env A}.
Implicit Types w v : World A.
Definition noAction (o : Obs) : Prop := match o with OAction _ _ _ => False | OPs _ v => v < 256 | _ => True end.
Lemma noAction_bytes l : Forall noAction l -> forall ps, (forall x, ps x < 256) -> forall x, memAfter ps l x < 256.
Proof. induction 1 as [|o l H _ IH]; intros ps HP x; [apply HP|]. cbn [memAfter]. destruct o; try (apply IH; exact HP). apply IH. intros y. destruct (y =? a); [exact H|apply HP]. Qed.
Lemma noAction_actions l : Forall noAction l -> actions l = [].
Proof. induction 1 as [|o l H _ IH]; [reflexivity|]. change (o :: l) with ([o] ++ l). rewrite actions_app, IH. destruct o; try reflexivity. destruct H. Qed.
(* nothing is written *)
Definition quietW (o : Obs) : Prop := plain o /\ noWrite o.
Definition RW w v : Prop := exists l, w_out v = rev l ++ w_out w /\ (forall x, w_ps v x = w_ps w x) /\ Forall quietW l.
Lemma RW_refl w : RW w w. Proof. exists []. repeat split; constructor. Qed.
Lemma RW_trans a b c : RW a b -> RW b c -> RW a c.
Proof.
  intros (l1 & O1 & M1 & F1) (l2 & O2 & M2 & F2). exists (l1 ++ l2). split; [rewrite O2, O1, rev_app_distr, app_assoc; reflexivity|].
  split; [intros x; rewrite M2; apply M1|apply Forall_app; auto].
Qed.
Lemma RW_same w v : w_out v = w_out w -> w_ps v = w_ps w -> RW w v.
Proof. intros H1 H2. exists []. rewrite H1, H2. repeat split; constructor. Qed.
Lemma RW_e o : quietW o -> rel RW (@emit A o).
Proof. intros H w. exists [o]. split; [reflexivity|]. split; [reflexivity|repeat constructor; apply H]. Qed.
Lemma RW_tx m : rel RW (tp_writeMessage m).
Proof.
  intros w. destruct (tx_any m w) as (o & OO & HO & (K & _)). exists [o]. split; [exact HO|].
  assert (w_ps (snd (tp_writeMessage m w)) = w_ps w) as K1 by (unfold visible in K; injection K; intros; assumption).
  split; [intros x; rewrite K1; reflexivity|]. repeat constructor; destruct OO as [->|[ok ->]]; exact Logic.I.
Qed.
Ltac rw := intros; apply RW_same; reflexivity.
Lemma W_xpage h : rel RW (count <- get w_xcount ;; (if 0 <? count then extendedPageRead ;; ret true else @ret A bool h)).
Proof.
  assert (R1 := RW_refl). assert (R2 := RW_trans). assert (T := RW_tx).
  apply rel_bind; [assumption|apply rel_get; assumption|intros c; apply rel_if; [|apply rel_ret; assumption]].
  apply rel_bind; [assumption| |intros _; apply rel_ret; assumption].
  apply wk_extendedPageRead; try assumption.
  - intros f H w. destruct (H w) as (H1 & _ & _ & H4 & _). apply RW_same; assumption.
  - intros o Ho. apply RW_e. destruct o; try (split; exact Logic.I); discriminate Ho.
Qed.
(* what follows the message: either nothing is written, or the heartbeat callout comes first *)
Lemma after_trace h w : exists l, let v := snd ((activeHeartbeat ;; count <- get w_xcount ;; (if 0 <? count then extendedPageRead ;; ret true else ret h)) w) in
  w_out v = rev l ++ w_out w /\ Forall noAction l /\ Forall noEvent l /\ (Forall noWrite l \/ exists t, l = OHeartbeatCustom :: t).
Proof.
  cbv zeta. rewrite snd_bind. set (w1 := snd (activeHeartbeat w)).
  destruct (W_xpage h w1) as (l2 & O2 & _ & F2). rewrite O2.
  assert (N1 : forall l, Forall quietW l -> Forall noAction l /\ Forall noEvent l /\ Forall noWrite l).
  { intros l H. repeat split; revert H; apply Forall_impl; intros o [H1 H2]; destruct o; cbn in *; tauto. }
  assert (H1 : RW w w1 \/ exists t, w_out w1 = rev (OHeartbeatCustom :: t) ++ w_out w /\ Forall plain t).
  { unfold w1, activeHeartbeat. destruct (c_hb_node cfg); [|left; apply RW_refl]. rewrite !bind_get. unfold timer_running. rewrite bind_get.
    destruct (_ && _); [|left; apply RW_refl]. destruct (c_custom_hb cfg).
    - right. rewrite snd_bind. unfold customHeartbeat. rewrite bind_emit, bind_get, bind_upd.
      match goal with |- context[forM ?l doApi ?x] => destruct (Q_forM plain ltac:(auto) l x) as (e & H1 & H2 & H3) end.
      exists e. split; [|exact H3]. unfold timer_start, upd. cbn [snd]. wsimp. etransitivity; [exact H1|]. cbn [rev]. rewrite <- app_assoc. reflexivity.
    - left. match goal with |- RW w (snd (?m w)) => enough (rel RW m) by auto end.
      apply rel_bind; [exact RW_trans| |intros; unfold timer_start; apply rel_upd; rw].
      apply tr_sendNodeHeartbeat; auto using RW_refl, RW_tx. exact RW_trans. }
  destruct H1 as [(l1 & O1 & _ & F1)|(t & O1 & F1)].
  - exists (l1 ++ l2). destruct (N1 _ F1) as (A1 & A2 & A3), (N1 _ F2) as (B1 & B2 & B3).
    split; [rewrite O1, rev_app_distr, app_assoc; reflexivity|]. split; [apply Forall_app; auto|]. split; [apply Forall_app; auto|]. left. apply Forall_app; auto.
  - exists (OHeartbeatCustom :: t ++ l2). destruct (N1 _ F2) as (B1 & B2 & B3).
    split; [rewrite O1; cbn [rev]; rewrite rev_app_distr, <- !app_assoc; reflexivity|].
    split; [|split; [|right; eauto]]; (constructor; [exact Logic.I|apply Forall_app; split; [|assumption]]); revert F1; apply Forall_impl; intros []; cbn; tauto.
Qed.
Lemma process_trace (VE : valid_env E) rd w m :
  reachable w -> (forall x, rd = Some x -> msg_wf x) -> isActive w = true -> received rd w = Some m ->
  exists before matrix rules after,
    effects w (snd (process rd w)) = before ++ matrix ++ rules ++ after ++ [ORet true] /\
    actions before = [] /\ actions after = [] /\
    (m_class m <> 0 -> exists calls, before = [OProcess; ORx m; OEvent m] ++ calls /\ Forall noEvent calls) /\
    Forall noEvent (matrix ++ rules ++ after) /\
    (Forall noWrite after \/ exists t, after = OHeartbeatCustom :: t) /\
    (if c_dm cfg then rowsRun w m (Nseq (c_dm_rows cfg)) (memAfter (w_ps w) before) matrix else matrix = []) /\
    (let ps := memAfter (w_ps w) (before ++ matrix) in let first := ngByte (inMem ps w) in
     if c_dm_ng cfg then (first 0 <> 0 -> first 1 <> 0) -> rulesRun w m bytesActions (N.to_nat (first 0)) 1 [] ps rules else rules = []).
Proof.
  intros HR Hrd HAct Hm. destruct (reach_inv VE w HR) as [ps0 HI].
  pose proof (read_wf ps0 VE rd w m HI Hrd Hm) as Hwf.
  rewrite process_state. cbv zeta. rewrite Hm. cbn [snd]. set (w1 := snd (prologue rd w)).
  destruct (prologue_rx rd w m Hm) as [Hrx Hrxv]. fold w1 in Hrx, Hrxv.
  assert (S1 : w_st w1 = ACTIVE).
  { unfold w1. rewrite (pres_prologue w_st) by reflexivity. unfold isActive in HAct. destruct (w_st w); try discriminate HAct. reflexivity. }
  assert (PS : forall a, w_ps w1 a = w_ps w a) by (intros a; unfold w1; rewrite (pres_prologue (fun v => w_ps v a)) by reflexivity; reflexivity).
  assert (O1 : w_out w1 = rev [OProcess; ORx m] ++ w_out w) by (unfold w1; rewrite prologue_out, Hm; reflexivity).
  unfold dispatch. rewrite bind_get, S1. unfold stateActive. rewrite snd_bind.
  set (h := fst (activeMessage w1)). set (w2 := snd (activeMessage w1)).
  destruct (after_trace h w2) as (la & OA & FA1 & FA2 & FA3).
  match goal with |- context[set_out (_ :: w_out (snd ?x)) _] => set (w5 := snd x) in * end.
  change (w_out w5 = rev la ++ w_out w2) in OA. clearbody w5.
  assert (HM : exists lb lm lr, w_out w2 = rev (lb ++ lm ++ lr) ++ w_out w /\ actions lb = [] /\
    (m_class m <> 0 -> exists calls, lb = [OProcess; ORx m; OEvent m] ++ calls /\ Forall noEvent calls) /\ Forall noEvent (lm ++ lr) /\
    (if c_dm cfg then rowsRun w m (Nseq (c_dm_rows cfg)) (memAfter (w_ps w) lb) lm else lm = []) /\
    (let ps := memAfter (w_ps w) (lb ++ lm) in let first := ngByte (inMem ps w) in
     if c_dm_ng cfg then (first 0 <> 0 -> first 1 <> 0) -> rulesRun w m bytesActions (N.to_nat (first 0)) 1 [] ps lr else lr = [])).
  2:{ destruct HM as (lb & lm & lr & OM & F1 & F2 & F3 & F4 & F5). exists lb, lm, lr, la.
      split; [erewrite effects_app with (d := ORet true :: rev la ++ rev (lb ++ lm ++ lr))|].
      - cbn [rev]. rewrite rev_app_distr, !rev_involutive, <- !app_assoc. reflexivity.
      - wsimp. rewrite OA, OM. cbn [app]. rewrite <- ?app_assoc. reflexivity.
      - split; [exact F1|]. split; [apply noAction_actions, FA1|]. split; [exact F2|]. split; [rewrite app_assoc; apply Forall_app; auto|]. split; [exact FA3|]. split; [exact F4|exact F5]. }
  clear OA FA1 FA2 FA3 w5 la. unfold w2, activeMessage. rewrite bind_get, Hrxv. cbv iota. rewrite bind_get, Hrx.
  rewrite snd_bind.
  match goal with |- context[(if m_class m =? CLASS_PROTOCOL then ?x else ?y) w1] => set (hm := if m_class m =? CLASS_PROTOCOL then x else y) end.
  assert (HE : exists le, w_out (snd (hm w1)) = rev le ++ w_out w1 /\ (forall x, w_ps (snd (hm w1)) x = memAfter (w_ps w1) le x) /\ Forall noAction le /\
     (m_class m <> 0 -> exists calls, le = OEvent m :: calls /\ Forall noEvent calls)).
  { unfold hm. destruct (N.eqb_spec (m_class m) CLASS_PROTOCOL) as [C|C].
    - assert (HQ : forall o, match o with OAction _ _ _ | OEvent _ | OProtEvent _ | OHeartbeatCustom => False | OPs _ v => v < 256 | _ => True end -> noAction o) by (intros []; cbn; tauto).
      assert (RQ noAction w1 (snd ((if c_prot_ev cfg then handled <- provideProtocolEvent m ;; when negb handled do handleProtocolClassType else handleProtocolClassType) w1))) as (l & L1 & L2 & L3).
      { match goal with |- RQ _ w1 (snd (?x w1)) => enough (rel (RQ noAction) x) by auto end.
        destruct (c_prot_ev cfg); [|apply Q_protocol, HQ]. apply rel_bind; [exact (RQ_trans noAction)|apply Q_prot; [exact HQ|exact Logic.I]|].
        intros b. destruct (negb b); [apply Q_protocol, HQ|apply rel_ret, RQ_refl]. }
      exists l. repeat split; try assumption. intros X. exfalso. apply X. exact C.
    - unfold provideEvent. rewrite bind_emit, bind_get, bind_upd.
      match goal with |- context[forM ?l doApi ?x] => destruct (Q_forM plain ltac:(auto) l x) as (e & H1 & H2 & H3) end.
      exists (OEvent m :: e). split; [etransitivity; [exact H1|]; cbn [rev]; rewrite <- app_assoc; reflexivity|]. split; [exact H2|].
      split; [constructor; [exact Logic.I|]; revert H3; apply Forall_impl; intros []; cbn; tauto|].
      intros _. exists e. split; [reflexivity|]. revert H3. apply Forall_impl. intros []; cbn; tauto. }
  set (wE := snd (hm w1)) in *. clearbody wE. clear hm. destruct HE as (le & E1 & E2 & E3 & E4).
  set (lb := [OProcess; ORx m] ++ le).
  assert (MB : forall x, w_ps wE x = memAfter (w_ps w) lb x).
  { intros x. rewrite E2. unfold lb. rewrite mem_app. apply mem_ext. exact PS. }
  assert (OB : w_out wE = rev lb ++ w_out w) by (unfold lb; rewrite E1, O1, rev_app_distr, app_assoc; reflexivity).
  assert (AB : actions lb = []) by (unfold lb; rewrite actions_app, (noAction_actions le E3); reflexivity).
  assert (BB : forall x, w_ps wE x < 256).
  { intros x. rewrite MB. apply noAction_bytes; [|apply (i_ps _ _ HI)]. unfold lb. apply Forall_app. split; [repeat constructor|exact E3]. }
  assert (EB : m_class m <> 0 -> exists calls, lb = [OProcess; ORx m; OEvent m] ++ calls /\ Forall noEvent calls).
  { intros H. destruct (E4 H) as (calls & -> & H2). exists calls. split; [reflexivity|exact H2]. }
  clearbody lb. clear E1 E2 E3 E4 le.
  assert (HD : exists lm, w_out (snd ((when c_dm cfg do dm_executeActions actionExecute m) wE)) = rev lm ++ w_out wE /\
    (forall x, w_ps (snd ((when c_dm cfg do dm_executeActions actionExecute m) wE)) x = memAfter (memAfter (w_ps w) lb) lm x) /\ Forall noEv lm /\
    (if c_dm cfg then rowsRun w m (Nseq (c_dm_rows cfg)) (memAfter (w_ps w) lb) lm else lm = [])).
  { destruct (c_dm cfg) eqn:HD; [|exists []; repeat split; auto; constructor].
    apply (rows_trace w m HD Hwf); [|exact MB]. intros i Hi. unfold Nseq in Hi. apply in_map_iff in Hi. destruct Hi as (k & <- & Hk). apply in_seq in Hk. lia. }
  rewrite snd_bind. set (wD := snd ((when c_dm cfg do dm_executeActions actionExecute m) wE)) in *. clearbody wD. destruct HD as (lm & D1 & D2 & D3 & D4).
  rewrite snd_bind. unfold ret. cbn [snd].
  assert (MD : forall x, w_ps wD x = memAfter (w_ps w) (lb ++ lm) x) by (intros x; rewrite D2, mem_app; reflexivity).
  assert (HN : exists lr, w_out (snd ((when c_dm_ng cfg do ng_executeActions actionExecute m) wD)) = rev lr ++ w_out wD /\ Forall noEvent lr /\
    (let ps := memAfter (w_ps w) (lb ++ lm) in let first := ngByte (inMem ps w) in
     if c_dm_ng cfg then (first 0 <> 0 -> first 1 <> 0) -> rulesRun w m bytesActions (N.to_nat (first 0)) 1 [] ps lr else lr = [])).
  { cbv zeta. destruct (c_dm_ng cfg) eqn:HN; [|exists []; repeat split; auto; constructor].
    rewrite !(ng_mem w wD _ _ MD).
    assert (B0 : ngByte wD 0 < 256).
    { unfold ngByte, stored. cbn [readField]. unfold ps_readNG, psReadIdx. destruct (0 <? _); [|cbn; lia]. change (w_ps wD (ps_ng cfg + 0) < 256).
      rewrite D2. apply noEv_bytes; [exact D3|]. intros x. rewrite <- MB. apply BB. }
    assert (DEC : (ngByte wD 0 <> 0 -> ngByte wD 1 <> 0) \/ ~ (ngByte wD 0 <> 0 -> ngByte wD 1 <> 0)) by (destruct (N.eq_dec (ngByte wD 0) 0), (N.eq_dec (ngByte wD 1) 0); tauto).
    destruct DEC as [HF|HF].
    - destruct (rules_all w m wD _ MD B0 HF) as (lr & R1 & R2 & R3 & R4). exists lr. split; [exact R1|]. split; [apply noEv_noEvent, R3|]. intros _. exact R4.
    - destruct (wk_ng_executeActions (RQ noEv) (RQ_refl _) (RQ_trans _) (RQ_set _)) with (m := m) (w := wD) as (lr & R1 & R2 & R3).
      all: try (intros; apply RQ_walk; [intros []; cbn; tauto|assumption]).
      all: try (intros; apply Q_action; [intros []; cbn; tauto|exact Logic.I]).
      exists lr. split; [exact R1|]. split; [apply noEv_noEvent, R3|]. intros X. contradiction (HF X). }
  destruct HN as (lr & R1 & R2 & R3). exists lb, lm, lr.
  split; [etransitivity; [exact R1|]; rewrite D1, OB, !rev_app_distr, <- !app_assoc; reflexivity|].
  split; [exact AB|]. split; [exact EB|]. split; [apply Forall_app; split; [apply noEv_noEvent, D3|exact R2]|]. split; [exact D4|exact R3].
Qed.
End Process.
