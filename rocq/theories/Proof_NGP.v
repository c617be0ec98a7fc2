(* Proof_NGP.v - stored rule sets and the actions of a whole process call *)
From Verif Require Export Proof_NG.

Lemma nth_map_Nseq {T} (f : N -> T) n d k : (k < N.to_nat n)%nat -> nth k (map f (Nseq n)) d = f (N.of_nat k).
Proof.
  intros H. unfold Nseq. rewrite map_map. rewrite (nth_indep _ d (f (N.of_nat 0))) by (rewrite map_length, seq_length; exact H).
  rewrite (map_nth (fun x => f (N.of_nat x))). rewrite seq_nth by exact H. reflexivity.
Qed.
Lemma ruleCode_length r : length (ruleCode r) = (3 + length (exprCode (ru_expr r)))%nat.
Proof. unfold ruleCode. cbn [length]. lia. Qed.
Lemma bytesActions_code m r : msg_wf m -> ruleOk r -> bytesActions m (ruleCode r) = ruleActions m r.
Proof.
  intros Hm (H1 & H2 & H3 & H4). unfold bytesActions, ruleDecides, ruleActions.
  pose proof (exprCode_length (ru_expr r)). rewrite ruleCode_length in *. replace (Nat.leb 6 _) with true by (symmetry; apply Nat.leb_le; lia).
  unfold ruleCode. cbn [nth skipn andb]. destruct (decision_expr m (ru_expr r) [] Hm H3) as (D1 & D2 & D3). rewrite app_nil_r in *. rewrite D1, D2. reflexivity.
Qed.

Section P.
Context {A : Type} {E : Env A}.
Implicit Type w : World A.
Lemma rulesFrom_code w : forall rs o, Forall ruleOk rs ->
  (forall i, (i < length (concat (map ruleCode rs)))%nat -> ngByte w (o + N.of_nat i) = nth i (concat (map ruleCode rs)) 0) ->
  rulesFrom w (length rs) o = map ruleCode rs.
Proof.
  induction rs as [|r rs IH]; intros o HO HB; [reflexivity|]. cbn [length rulesFrom map concat] in *. inversion HO as [|x y (R1 & R2 & R3 & R4) HO2]; subst x y.
  assert (HL : ngByte w o = N.of_nat (length (ruleCode r))).
  { specialize (HB 0%nat). rewrite N.add_0_r in HB. rewrite HB by (rewrite app_length, ruleCode_length; lia). unfold ruleCode. cbn [app nth length]. lia. }
  rewrite HL. replace (40 <? _) with false by lia. f_equal.
  - apply (nth_ext _ _ 0 0).
    + unfold Nseq. rewrite !map_length, seq_length. lia.
    + intros k Hk. unfold Nseq in Hk. rewrite !map_length, seq_length in Hk. rewrite nth_map_Nseq by lia.
      rewrite HB by (rewrite app_length; lia). apply app_nth1. lia.
  - apply IH; [exact HO2|]. intros i Hi. rewrite <- N.add_assoc. rewrite <- Nat2N.inj_add, HB by (rewrite app_length; lia). apply app_nth2_plus.
Qed.
Lemma storedRules_code w rs : storesRules w rs -> storedRules w = map ruleCode rs.
Proof.
  intros (H1 & H2 & H3 & H4). unfold storedRules.
  assert (H0 : ngByte w 0 = N.of_nat (length rs)) by (apply (H4 0%nat); cbn; lia).
  rewrite H0, Nat2N.id. apply rulesFrom_code; [exact H2|]. intros i Hi. replace (1 + N.of_nat i) with (N.of_nat (S i)) by lia. rewrite H4; [reflexivity|].
  unfold ruleSetCode. cbn [length]. lia.
Qed.
Lemma stored_actions m w rs : msg_wf m -> storesRules w rs ->
  flat_map (bytesActions m) (inEffect [] (storedRules w)) = flat_map (ruleActions m) rs /\ (ngByte w 0 <> 0 -> ngByte w 1 <> 0).
Proof.
  intros Hm HS. pose proof HS as (_ & HO & _).
  assert (HN : Forall (fun r : list N => r <> []) (storedRules w)).
  { rewrite (storedRules_code w rs HS). apply Forall_forall. intros x Hx. apply in_map_iff in Hx. destruct Hx as (r & <- & _). discriminate. }
  split; [|intros H0; destruct (N.leb_spec (ngByte w 1) 40); [apply first_nonempty; assumption|lia]].
  rewrite inEffect_id by exact HN. rewrite (storedRules_code w rs HS). clear HN HS.
  induction HO as [|r rs HO1 HO2 IH]; [reflexivity|]. cbn [map flat_map]. rewrite IH, bytesActions_code by assumption. reflexivity.
Qed.

(* ---- the matrix, for any application ---- *)
Lemma action_once a p m w : exists l, w_out (snd (actionExecute a p m w)) = l ++ OAction a p m :: w_out w /\ actions l = [].
Proof.
  unfold actionExecute. rewrite bind_emit, bind_get, bind_upd.
  match goal with |- context[forM ?l doApi ?x] => destruct (calmA_calls l x) as ((d & H1 & H2) & _) end.
  exists d. split; [exact H1|exact H2].
Qed.
Lemma exec_rows_any m : c_dm cfg = true -> msg_wf m ->
  forall rows, (forall i, In i rows -> i < c_dm_rows cfg) -> forall w,
  exists l, w_out (snd (forM rows (dm_step actionExecute m) w)) = l ++ w_out w /\ actions (rev l) = rowsInTurn m rows w.
Proof.
  intros HD Hm. induction rows as [|i rows IH]; intros HR w; cbn [forM rowsInTurn].
  - exists []. auto.
  - unfold bind at 1. rewrite dm_step_spec by (auto with datatypes). rewrite rowActions_spec.
    destruct (rowResult w m i) as [[a p]|]; cbn [fold_left fst snd app].
    + destruct (action_once a p m w) as (l1 & H1 & H2).
      destruct (IH (fun j Hj => HR j (or_intror Hj)) (snd (actionExecute a p m w))) as (l2 & H4 & H5).
      exists (l2 ++ l1 ++ [OAction a p m]). rewrite H4, H1. split; [rewrite <- !app_assoc; reflexivity|].
      rewrite !rev_app_distr, !actions_app, H5, (actions_rev l1 H2). reflexivity.
    + destruct (IH (fun j Hj => HR j (or_intror Hj)) w) as (l2 & H4 & H5). exists l2. auto.
Qed.

(* one stored rule: the action is executed after the only decision, so the application does not matter *)
Lemma exec_one m w : ngByte w 0 = 1 -> ngByte w 1 <> 0 ->
  exists l, w_out (snd (ng_executeActions actionExecute m w)) = l ++ w_out w /\ actions (rev l) = flat_map (bytesActions m) (storedRules w).
Proof.
  intros H0 HF. unfold ng_executeActions. unfold bind at 1. rewrite first_run.
  match goal with |- context[ng_getNextRule _ ?x] => set (w1 := x) end.
  assert (HB : forall i, ngByte w1 i = ngByte w i) by (apply ngByte_ext; reflexivity).
  assert (HC1 : w_ngCnt w1 = ngByte w 0) by reflexivity.
  assert (HI1 : w_ngIdx w1 = 1 /\ w_out w1 = w_out w) by (split; reflexivity). clearbody w1. destruct HI1 as [HI1 HO1].
  unfold storedRules. rewrite H0 in *. change (N.to_nat 1) with 1%nat.
  rewrite (next_spec 1 1 _ w1); [|rewrite HC1; reflexivity|exact HI1|lia|reflexivity|lia]. cbn [rulesFrom]. rewrite HB.
  assert (HBs : map (fun j => ngByte w (1 + j)) (Nseq (ngByte w 1)) = bytesAt w1 1 (ngByte w 1)) by (unfold bytesAt; apply map_ext; intros j; rewrite HB; reflexivity).
  rewrite HBs.
  destruct (N.ltb_spec 40 (ngByte w 1)) as [L|L]; [exists []; split; [exact HO1|reflexivity]|]. cbn [fst snd].
  assert (HF1 : bytesAt w1 1 (ngByte w 1) <> []).
  { intros X. pose proof (bytesAt_length w1 1 (ngByte w 1)) as BL. rewrite X in BL. cbn [length] in BL. lia. }
  unfold bind at 1. unfold dbgClrError. cbn [bind upd fst snd].
  set (r := bytesAt w1 1 (ngByte w 1)) in *.
  assert (HG : goodRule r) by (unfold r in *; rewrite <- (HB 1) in HF1, L |- *; apply bytesAt_good; [exact L|exact HF1]).
  cbn [ng_rules]. unfold bind at 1.
  match goal with |- context[ng_rule actionExecute m (map Some r ++ ?t) ?x] => destruct (rule_step actionExecute m r t x HG) as (w2 & (e' & r' & p' & D) & HR) end.
  rewrite HR. clear HR.
  assert (S1 : w_out w2 = w_out w /\ w_ngCnt w2 = 0) by (subst w2; split; [exact HO1|reflexivity]). clear D. destruct S1 as [T1 T2].
  assert (NX : forall x b, w_ngCnt x = 0 -> ng_getNextRule b x = ((NG_NO_RULE, b), x)) by (intros x b X; unfold ng_getNextRule; rewrite bind_get, X; reflexivity).
  cbn [flat_map]. rewrite app_nil_r. unfold bytesActions. destruct (ruleDecides m r).
  - destruct (action_once (nth 1 r 0) (nth 2 r 0) m w2) as (d & D1 & D2).
    destruct (action_calm (nth 1 r 0) (nth 2 r 0) m w2) as (_ & C1 & _).
    destruct (actionExecute (nth 1 r 0) (nth 2 r 0) m w2) as [u w3]. cbn [fst snd] in *.
    rewrite T2 in C1. unfold bind at 1. rewrite (NX w3 _ C1). cbn [fst snd ret].
    exists (d ++ [OAction (nth 1 r 0) (nth 2 r 0) m]). rewrite D1, T1, <- app_assoc. split; [reflexivity|].
    rewrite rev_app_distr, actions_app, (actions_rev d D2). reflexivity.
  - cbn [snd]. unfold bind at 1. rewrite (NX w2 _ T2). cbn [fst snd ret]. exists []. split; [exact T1|reflexivity].
Qed.

(* ---- events that are equal on the wire ---- *)
Lemma buf_wire m1 m2 k : m_size m1 = m_size m2 -> payload m1 = payload m2 -> k < m_size m1 -> bufByte m1 k = bufByte m2 k.
Proof.
  intros HS HP HK. change (at0 (m_data m1) k = at0 (m_data m2) k). rewrite <- !evByte_in by lia. unfold evByte. rewrite HP. reflexivity.
Qed.
Lemma matrixActions_wire w m1 m2 : onWire m1 m2 -> zoneComplete m1 -> map fst (matrixActions w m1) = map fst (matrixActions w m2).
Proof.
  intros (_ & HC & HT & HO & HH & HS & HP) HZ. unfold matrixActions. rewrite !flat_map_concat_map, !concat_map, !map_map. f_equal. apply map_ext. intros i.
  assert (EV : forall k, evByte m1 k = evByte m2 k) by (intros k; unfold evByte; rewrite HP; reflexivity).
  assert (R : rowMatches w m1 i = rowMatches w m2 i).
  { unfold rowMatches. rewrite HC, HT, HO, HH. destruct (zonePosition (m_class m2) (m_type m2)) as [k|] eqn:Z; [|reflexivity].
    assert (k + 2 <= m_size m1) by (apply HZ; rewrite HC, HT; exact Z). rewrite !(buf_wire m1 m2) by (assumption || lia). reflexivity. }
  assert (X : extMatches w m1 i = extMatches w m2 i) by (unfold extMatches; cbn [forallb]; rewrite !EV, HS; reflexivity).
  unfold rowActions. rewrite R, X. destruct (_ && _); [|reflexivity]. destruct (isExtended w i); [|reflexivity]. destruct (extMatches w m2 i); reflexivity.
Qed.

(* ---- a whole process call ---- *)
Lemma holds_wire m1 m2 e : onWire m1 m2 -> zoneComplete m1 -> holds m1 e = holds m2 e.
Proof.
  intros (HPr & HC & HT & HO & HH & HS & HP) HZ.
  assert (C : forall c, condHolds m1 c = condHolds m2 c).
  { intros c. unfold condHolds. replace (parOf m1 (cd_par c)) with (parOf m2 (cd_par c)); [reflexivity|].
    destruct (cd_par c); cbn [parOf]; unfold dataByte; rewrite ?HP, ?HPr, ?HO, ?HH, ?HS, ?HC, ?HT; try reflexivity.
    - destruct (zonePosition (m_class m2) (m_type m2)) as [k|] eqn:Z; [|reflexivity].
      symmetry. apply buf_wire; try assumption. assert (k + 2 <= m_size m1) by (apply HZ; rewrite HC, HT; exact Z). lia.
    - destruct (zonePosition (m_class m2) (m_type m2)) as [k|] eqn:Z; [|reflexivity].
      symmetry. apply buf_wire; try assumption. assert (k + 2 <= m_size m1) by (apply HZ; rewrite HC, HT; exact Z). lia. }
  induction e as [c|c e IH|c e IH]; cbn [holds]; rewrite C, ?IH; reflexivity.
Qed.
Lemma leaves_rules l : Forall leavesMatrix l -> Forall leavesRules l.
Proof. apply Forall_impl. intros []; cbn; tauto. Qed.
Lemma sameNg_trans a b c : (forall i, ngByte b i = @ngByte A E a i) -> (forall i, ngByte c i = ngByte b i) -> forall i, ngByte c i = ngByte a i.
Proof. intros H1 H2 i. rewrite H2. apply H1. Qed.
Lemma dm_keeps_rules m w : (forall s x y e, Forall leavesRules (fst (app_action s x y e))) -> forall i, ngByte (snd (dm_executeActions actionExecute m w)) i = ngByte w i.
Proof.
  intros HA. set (R := fun w w' => forall i, ngByte w' i = @ngByte A E w i). change (R w (snd (dm_executeActions actionExecute m w))). revert w.
  assert (Rrefl : forall w, R w w) by (intros w i; reflexivity). assert (Rtrans : forall a b c, R a b -> R b c -> R a c) by exact sameNg_trans.
  assert (HX : forall a p m, rel R (actionExecute a p m)).
  { intros a p m' w i. destruct (calmN_action a p m' HA w) as (w1 & _ & U2 & _ & _ & _ & V3 & _). rewrite V3. apply U2. }
  clearbody R. assert (H1 := tr_rowEnabled R Rrefl Rtrans). assert (H2 := tr_readRow R Rrefl Rtrans). assert (H3 := tr_readExtRow R Rrefl Rtrans).
  assert (H4 : rel R dd_getZone) by (apply tr_getZone; assumption). assert (H5 : rel R dd_getSubZone) by (apply tr_getSub; assumption).
  change (rel R (dm_executeActions actionExecute m)). unfold dm_executeActions, dm_step. rel_tac.
Qed.
Lemma process_both (VE : valid_env E) rd w m :
  (forall s e, Forall leavesMatrix (fst (app_event s e))) -> (forall s x y e, Forall leavesMatrix (fst (app_action s x y e))) ->
  (forall s, Forall leavesMatrix (fst (app_hb s))) ->
  reachable w -> (forall x, rd = Some x -> msg_wf x) -> isActive w = true -> received rd w = Some m -> m_class m <> 0 ->
  (c_dm_ng cfg = true -> ngByte w 0 <> 0 -> ngByte w 1 <> 0) ->
  actions (effects w (snd (process rd w))) = (if c_dm cfg then matrixActions w m else []) ++ (if c_dm_ng cfg then flat_map (bytesActions m) (inEffect [] (storedRules w)) else []).
Proof.
  intros HEv HA HH HR Hrd HAct Hm HC HF. destruct (reach_inv VE w HR) as [ps0 HI].
  pose proof (read_wf ps0 VE rd w m HI Hrd Hm) as Hwf.
  assert (HAr : forall s x y e, Forall leavesRules (fst (app_action s x y e))) by (intros; apply leaves_rules, HA).
  assert (R1 := @calm_refl A E). assert (R2 := @calm_trans A E). assert (T := @calm_tx A E).
  rewrite process_state. cbv zeta. rewrite Hm. cbn [snd]. set (w1 := snd (prologue rd w)).
  destruct (prologue_rx rd w m Hm) as [Hrx Hrxv]. fold w1 in Hrx, Hrxv.
  assert (S1 : w_st w1 = ACTIVE).
  { unfold w1. rewrite (pres_prologue w_st) by reflexivity. unfold isActive in HAct. destruct (w_st w); try discriminate HAct. reflexivity. }
  assert (PS : forall a, w_ps w1 a = w_ps w a) by (intros a; unfold w1; rewrite (pres_prologue (fun v => w_ps v a)) by reflexivity; reflexivity).
  assert (C1 : sameMatrix w w1) by (intros f i _ Hi; apply stored_ext; [exact PS|exact Hi]).
  assert (G1 : forall i, ngByte w1 i = ngByte w i) by (apply ngByte_ext; exact PS).
  unfold dispatch. rewrite bind_get, S1. unfold stateActive.
  unfold bind at 1. set (w2 := snd (activeMessage w1)). set (h := fst (activeMessage w1)).
  assert (CB : rel calm (activeHeartbeat ;; count <- get w_xcount ;; (if 0 <? count then extendedPageRead ;; ret true else ret h))).
  { apply rel_bind; [assumption| |intros _; apply rel_bind; [assumption|apply rel_get; assumption|intros c; apply rel_if; [|apply rel_ret; assumption]]].
    - unfold activeHeartbeat, customHeartbeat. 
      assert (HB : rel calm customHeartbeat).
      { intros v. unfold customHeartbeat. rewrite bind_emit, bind_get, bind_upd.
        eapply calm_trans; [apply (calm_emit OHeartbeatCustom I)|]. eapply calm_trans; [|apply calm_calls, HH]. apply calm_same; reflexivity. }
      fold (@customHeartbeat A E). assert (rel calm sendNodeHeartbeat) by (apply tr_sendNodeHeartbeat; assumption).
      unfold timer_running, timer_start. rel_tac; calm_upd.
    - apply rel_bind; [assumption| |intros _; apply rel_ret; assumption].
      apply tr_extendedPageRead; try assumption; try calm_upd.
      + unfold setUB. rel_tac; calm_upd.
      + intros o Ho. apply calm_emit. destruct o; try exact I; discriminate Ho.
      + rel_tac; calm_upd. }
  specialize (CB w2). destruct CB as [(lb & HB1 & HB2) _].
  match goal with |- actions (effects w (set_out (_ :: w_out (snd ?x)) _)) = _ => set (w3 := snd x) in * end.
  change (w_out w3 = lb ++ w_out w2) in HB1.
  assert (HM : exists l, w_out w2 = l ++ w_out w1 /\ actions (rev l) = (if c_dm cfg then matrixActions w m else []) ++ (if c_dm_ng cfg then flat_map (bytesActions m) (inEffect [] (storedRules w)) else [])).
  { unfold w2, activeMessage. rewrite bind_get, Hrxv. cbv iota. rewrite bind_get, Hrx.
    replace (m_class m =? CLASS_PROTOCOL) with false by (unfold CLASS_PROTOCOL; lia).
    assert (CE : forall v, calm v (snd (provideEvent m v)) /\ forall i, ngByte (snd (provideEvent m v)) i = ngByte v i).
    { intros v. unfold provideEvent. rewrite bind_emit, bind_get, bind_upd. split.
      - eapply calm_trans; [apply (calm_emit (OEvent m) I)|]. eapply calm_trans; [|apply calm_calls, HEv]. apply calm_same; reflexivity.
      - match goal with |- forall i, ngByte (snd (forM ?l doApi ?x)) i = _ => destruct (calmN_calls l (leaves_rules _ (HEv _ _)) x) as (_ & U & _) end.
        intros i. rewrite U. apply ngByte_ext. reflexivity. }
    unfold bind at 1. destruct (CE w1) as [[(le & HE1 & HE2) HE3] HE4]. set (wE := snd (provideEvent m w1)) in *. clearbody wE. clear CE.
    assert (HD : exists ld, w_out (snd ((when c_dm cfg do dm_executeActions actionExecute m) wE)) = ld ++ w_out wE /\ actions (rev ld) = (if c_dm cfg then matrixActions w m else []) /\
      forall i, ngByte (snd ((when c_dm cfg do dm_executeActions actionExecute m) wE)) i = ngByte wE i).
    { destruct (c_dm cfg) eqn:HD; [|exists []; auto].
      destruct (exec_rows m HD Hwf HA (Nseq (c_dm_rows cfg))) with (w0 := w) (w := wE) as (l & HL1 & HL2 & _).
      - intros i Hi. unfold Nseq in Hi. apply in_map_iff in Hi. destruct Hi as (k & <- & Hk). apply in_seq in Hk. lia.
      - intros f i Hf Hi. rewrite (HE3 f i Hf Hi). apply C1; assumption.
      - exists l. split; [exact HL1|]. split; [exact HL2|]. apply dm_keeps_rules, HAr. }
    unfold bind at 1. set (wD := snd ((when c_dm cfg do dm_executeActions actionExecute m) wE)) in *. clearbody wD. destruct HD as (ld & D1 & D2 & D3).
    assert (G2 : forall i, ngByte wD i = ngByte w i) by (intros i; rewrite D3, HE4; apply G1).
    assert (ST : storedRules wD = storedRules w).
    { unfold storedRules. rewrite G2. generalize 1. induction (N.to_nat (ngByte w 0)) as [|n IH]; intros o; [reflexivity|]. cbn [rulesFrom]. rewrite !G2, IH. destruct (40 <? _); [reflexivity|].
      f_equal. apply map_ext. intros j. apply G2. }
    assert (HN : exists ln, w_out (snd ((when c_dm_ng cfg do ng_executeActions actionExecute m) wD)) = ln ++ w_out wD /\ actions (rev ln) = (if c_dm_ng cfg then flat_map (bytesActions m) (inEffect [] (storedRules w)) else [])).
    { destruct (c_dm_ng cfg) eqn:HN; [|exists []; auto]. rewrite <- ST. apply exec_all; [exact HAr| |rewrite !G2; exact (HF eq_refl)].
      rewrite G2. unfold ngByte, stored. cbn [readField]. unfold ps_readNG, psReadIdx. destruct (0 <? _); [apply (i_ps _ _ HI)|cbn; lia]. }
    unfold bind at 1. set (wN := snd ((when c_dm_ng cfg do ng_executeActions actionExecute m) wD)) in *. clearbody wN. destruct HN as (ln & N1 & N2).
    unfold ret. cbn [snd]. exists (ln ++ ld ++ le). rewrite N1, D1, HE1, <- !app_assoc. split; [reflexivity|].
    rewrite !rev_app_distr, !actions_app, N2, D2, (actions_rev le HE2). reflexivity. }
  destruct HM as (l & HL1 & HL2).
  erewrite effects_app with (d := ORet true :: lb ++ l ++ [ORx m; OProcess]).
  2:{ wsimp. rewrite HB1, HL1. unfold w1. rewrite prologue_out, Hm. cbn [app]. rewrite <- !app_assoc. reflexivity. }
  cbn [rev]. rewrite !rev_app_distr, !actions_app, HL2, (actions_rev lb HB2). cbn. rewrite !app_nil_r. reflexivity.
Qed.
End P.
