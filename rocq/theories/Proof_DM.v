(* Proof_DM.v - lemmas for Prop_DM.v *)
From Verif Require Export Spec_DM Proof_Init Proof_Zone Proof_Process.

Lemma nth_firstn' {T} (l : list T) d : forall n k, nth k (firstn n l) d = if Nat.ltb k n then nth k l d else d.
Proof.
  induction l as [|x l IH]; intros [|n] [|k]; try reflexivity.
  - cbn [firstn nth]. destruct (Nat.ltb _ _); reflexivity.
  - cbn [firstn nth]. rewrite IH. reflexivity.
Qed.
Lemma evByte_in m k : k < m_size m -> evByte m k = at0 (m_data m) k.
Proof. intros H. unfold evByte, payload, at0. rewrite nth_firstn'. replace (Nat.ltb _ _) with true; [reflexivity|]. symmetry. apply Nat.ltb_lt. lia. Qed.
Lemma nth_Nrange a n j : j < n -> nth (N.to_nat j) (Nrange a n) 0 = a + j.
Proof.
  intros H. unfold Nrange. rewrite (nth_indep _ 0 (a + N.of_nat 0)) by (rewrite map_length, seq_length; lia).
  rewrite (map_nth (fun i => a + N.of_nat i)), seq_nth by lia. lia.
Qed.
Lemma at0_map_Nrange f a n j : j < n -> at0 (map f (Nrange a n)) j = f (a + j).
Proof.
  intros H. unfold at0. rewrite (nth_indep _ 0 (f 0)) by (unfold Nrange; rewrite !map_length, seq_length; lia).
  rewrite map_nth, nth_Nrange by assumption. reflexivity.
Qed.
Lemma none_if {T} (b : bool) (x : option T) : (if b then None else x) = (if negb b then x else None).
Proof. destruct b; reflexivity. Qed.
Lemma if_if {T} (b c : bool) (x : option T) : (if b then (if c then x else None) else None) = (if b && c then x else None).
Proof. destruct b; reflexivity. Qed.

Section D.
Context {A : Type} {E : Env A}.
Implicit Type w : World A.

(* the row structures read from memory are the specification's bytes *)
Definition specRow w i : Row := mkRow (dmByte w i 0) (dmByte w i 1) (dmByte w i 2) (dmByte w i 3) (dmByte w i 4) (dmByte w i 5) (dmByte w i 6) (dmByte w i 7).
Definition specExtRow w i : ExtRow :=
  mkExtRow (dmxByte w i 0) (dmxByte w i 1) (dmxByte w i 2) (dmxByte w i 3) (dmxByte w i 4) (dmxByte w i 5) (dmxByte w i 6) (dmxByte w i 7).
Lemma dmByte_eq w i j : c_dm cfg = true -> i < c_dm_rows cfg -> j < 8 -> dmByte w i j = w_ps w (ps_dm cfg + i * 8 + j).
Proof.
  intros H Hi Hj. unfold dmByte, stored.
  rewrite readField_eq by (cbn [fieldLen]; rewrite H; lia). unfold fieldBase. f_equal. lia.
Qed.
Lemma dmxByte_eq w i j : c_dm_ext cfg = true -> i < c_dm_rows cfg -> j < 8 -> dmxByte w i j = w_ps w (ps_dmx cfg + i * 8 + j).
Proof.
  intros H Hi Hj. unfold dmxByte, stored.
  rewrite readField_eq by (cbn [fieldLen]; rewrite H; lia). unfold fieldBase. f_equal. lia.
Qed.
Lemma readRow_spec w i : c_dm cfg = true -> i < c_dm_rows cfg -> dm_readRow i w = (specRow w i, w).
Proof.
  intros H Hi. unfold dm_readRow, ps_readDMRow, specRow. rewrite !dmByte_eq by (assumption || lia).
  assert (HS : sz_dm cfg = c_dm_rows cfg * 8) by (unfold sz_dm, b2n; rewrite H; reflexivity).
  replace (i * 8 + 8 <=? sz_dm cfg) with true by lia. unfold psReadMultiple, bind, get, ret. cbn [fst snd]. unfold rowOf.
  rewrite !at0_map_Nrange by lia. reflexivity.
Qed.
Lemma readExtRow_spec w i : c_dm_ext cfg = true -> i < c_dm_rows cfg -> dm_readExtRow i w = (specExtRow w i, w).
Proof.
  intros H Hi. unfold dm_readExtRow, ps_readDMExtRow, specExtRow. rewrite !dmxByte_eq by (assumption || lia).
  assert (HS : sz_dmx cfg = c_dm_rows cfg * 8) by (unfold sz_dmx, b2n; rewrite H; reflexivity).
  replace (i * 8 + 8 <=? sz_dmx cfg) with true by lia. unfold psReadMultiple, bind, get, ret. cbn [fst snd]. unfold extRowOf.
  rewrite !at0_map_Nrange by lia. reflexivity.
Qed.
Lemma rowEnabled_spec w i : c_dm cfg = true -> i < c_dm_rows cfg -> dm_rowEnabled i w = (flag w i 7, w).
Proof.
  intros H Hi. unfold dm_rowEnabled, flag, bitset, FLAG_ENABLE, dmByte, stored. cbn [readField]. unfold ps_readDM, psReadIdx.
  replace (8 * i + 1) with (i * 8 + 1) by lia. destruct (i * 8 + 1 <? sz_dm cfg); reflexivity.
Qed.
Lemma zone_spec w : dd_getZone w = (nodeZone w, w).
Proof. unfold dd_getZone, nodeZone. destruct (d_zone_ps cfg); reflexivity. Qed.
Lemma sub_spec w : dd_getSubZone w = (nodeSubZone w, w).
Proof. unfold dd_getSubZone, nodeSubZone. destruct (d_sub_ps cfg); reflexivity. Qed.

(* the decision of one row *)
Definition rowResult w m i : option (N * N) :=
  if negb (dmByte w i 6 =? 0) && rowMatches w m i then
    if isExtended w i then (if extMatches w m i then Some (dmxByte w i 6, dmxByte w i 7) else None)
    else Some (dmByte w i 6, dmByte w i 7)
  else None.
Lemma rowAction_spec w m i x : msg_wf m -> flag w i 7 = true ->
  (c_dm_ext cfg = true -> x = specExtRow w i) ->
  dm_rowAction (nodeZone w) (nodeSubZone w) (specRow w i) x m = rowResult w m i.
Proof.
  intros Hm HE HX. unfold dm_rowAction. cbv zeta. unfold specRow. cbn [r_oaddr r_flags r_cmask r_cfilter r_tmask r_tfilter r_action r_par].
  replace (c_dm_ext cfg && (dmByte w i 6 =? ACTION_EXT)) with (isExtended w i) by reflexivity.
  unfold bitset, FLAG_CHECK_OADDR, FLAG_HARDCODED, FLAG_MATCH_ZONE, FLAG_MATCH_SUB_ZONE, FLAG_CLASS_MASK_BIT8, FLAG_CLASS_FILTER_BIT8, ACTION_NOP.
  fold (flag w i 0) (flag w i 1) (flag w i 3) (flag w i 4) (flag w i 5) (flag w i 6).
  rewrite !none_if.
  assert (XF : forall (r : option (N * N)), (if isExtended w i then
      if negb (N.testbit (dmByte w i 7) 0 && ((m_size m =? 0) || negb (x_p0 x =? at0 (m_data m) 0))) then
      if negb (N.testbit (dmByte w i 7) 1 && ((m_size m <=? 3) || negb (x_p3 x =? at0 (m_data m) 3))) then
      if negb (N.testbit (dmByte w i 7) 2 && ((m_size m <=? 4) || negb (x_p4 x =? at0 (m_data m) 4))) then
      if negb (N.testbit (dmByte w i 7) 3 && ((m_size m <=? 5) || negb (x_p5 x =? at0 (m_data m) 5))) then
        Some (x_action x, x_par x) else None else None else None else None else r) =
      (if isExtended w i then (if extMatches w m i then Some (dmxByte w i 6, dmxByte w i 7) else None) else r)).
  { intros r. destruct (isExtended w i) eqn:EX; [|reflexivity]. unfold isExtended in EX.
    assert (CX : c_dm_ext cfg = true) by (destruct (c_dm_ext cfg); [reflexivity|discriminate EX]).
    rewrite (HX CX). unfold specExtRow. cbn [x_p0 x_p3 x_p4 x_p5 x_action x_par]. rewrite !if_if.
    replace (extMatches w m i) with
      (negb (N.testbit (dmByte w i 7) 0 && ((m_size m =? 0) || negb (dmxByte w i 2 =? at0 (m_data m) 0))) &&
       (negb (N.testbit (dmByte w i 7) 1 && ((m_size m <=? 3) || negb (dmxByte w i 3 =? at0 (m_data m) 3))) &&
        (negb (N.testbit (dmByte w i 7) 2 && ((m_size m <=? 4) || negb (dmxByte w i 4 =? at0 (m_data m) 4))) &&
         negb (N.testbit (dmByte w i 7) 3 && ((m_size m <=? 5) || negb (dmxByte w i 5 =? at0 (m_data m) 5)))))).
    - destruct (negb (_ && _)); cbn [andb]; [|reflexivity]. rewrite !andb_assoc. reflexivity.
    - unfold extMatches. cbn [forallb]. rewrite andb_true_r.
      assert (C : forall b k j, negb (N.testbit (dmByte w i 7) b && ((m_size m <=? k) || negb (dmxByte w i j =? at0 (m_data m) k)))
                 = implb (N.testbit (dmByte w i 7) b) ((k <? m_size m) && (evByte m k =? dmxByte w i j))).
      { intros b k j. destruct (N.testbit (dmByte w i 7) b); [|reflexivity]. cbn [andb implb].
        destruct (N.ltb_spec k (m_size m)) as [L|L].
        - rewrite (evByte_in m k L). replace (m_size m <=? k) with false by lia. cbn [orb andb]. rewrite negb_involutive, N.eqb_sym. reflexivity.
        - replace (m_size m <=? k) with true by lia. reflexivity. }
      rewrite <- (C 0 0 2), <- (C 1 3 3), <- (C 2 4 4), <- (C 3 5 5). repeat f_equal. lia. }
  rewrite XF. clear XF. unfold rowResult. rewrite !if_if.
  match goal with |- (if ?a then _ else _) = (if ?b then _ else _) => assert (HAB : a = b); [|rewrite HAB; reflexivity] end.
  unfold rowMatches. rewrite HE. cbn [andb]. cbv zeta. rewrite <- !andb_assoc. f_equal.
  f_equal; [destruct (flag w i 6); [cbn; rewrite negb_involutive; apply N.eqb_sym|reflexivity]|].
  f_equal; [destruct (flag w i 5), (m_hard m); reflexivity|].
  rewrite !andb_assoc. f_equal; [f_equal|].
  - destruct Hm as (_ & _ & HT & _). rewrite (zone_table_eq (m_class m) (m_type m) HT).
    destruct (zonePosition (m_class m) (m_type m)) as [k|] eqn:ZP.
    + destruct (zonePosition_range _ _ _ ZP) as [K|K].
      all: subst k; cbn [N.ltb N.compare L1_DATA_SIZE Pos.compare Pos.compare_cont].
      all: unfold addresses; unfold bufByte; fold (at0 (m_data m) 0) (at0 (m_data m) 1) (at0 (m_data m) 2) (at0 (m_data m) 3).
      all: assert (ZX : (if isExtended w i then x_zone x else nodeZone w) = (if isExtended w i then dmxByte w i 0 else nodeZone w) /\
                        (if isExtended w i then x_sub x else nodeSubZone w) = (if isExtended w i then dmxByte w i 1 else nodeSubZone w))
             by (destruct (isExtended w i) eqn:EX; [|auto]; unfold isExtended in EX;
                 assert (CX : c_dm_ext cfg = true) by (destruct (c_dm_ext cfg); [reflexivity|discriminate EX]); rewrite (HX CX); auto).
      all: destruct ZX as [-> ->]; unfold ZONE_BROADCAST, SUBZONE_BROADCAST, bitset; fold (flag w i 3) (flag w i 4).
      all: destruct (flag w i 4), (flag w i 3); cbn [andb orb implb negb]; try reflexivity.
      all: rewrite ?andb_true_r, ?orb_false_r, ?negb_orb, ?negb_andb, ?negb_involutive; reflexivity.
    + cbn. destruct (flag w i 4), (flag w i 3); reflexivity.
  - rewrite negb_andb, !negb_involutive. f_equal. rewrite N.eqb_sym, (N.land_comm (m_class m)). reflexivity.
  - rewrite negb_andb, !negb_involutive. f_equal. rewrite N.eqb_sym, (N.land_comm (m_type m)). reflexivity.
Qed.

Lemma rowActions_spec w m i : rowActions w m i = match rowResult w m i with Some (a, p) => [(a, p, m)] | None => [] end.
Proof. unfold rowActions, rowResult. destruct (_ && _); [|reflexivity]. destruct (isExtended w i); [destruct (extMatches w m i)|]; reflexivity. Qed.
Lemma dm_step_spec exec w m i : c_dm cfg = true -> i < c_dm_rows cfg -> msg_wf m ->
  dm_step exec m i w = match rowResult w m i with Some (a, p) => exec a p m w | None => (tt, w) end.
Proof.
  intros H Hi Hm. unfold dm_step. unfold bind at 1. rewrite rowEnabled_spec by assumption. cbn [fst snd].
  destruct (flag w i 7) eqn:HE.
  - unfold bind at 1. rewrite readRow_spec by assumption. cbn [fst snd]. unfold bind at 1.
    assert (HX : exists x, (if c_dm_ext cfg then dm_readExtRow i else ret (extRowOf [])) w = (x, w) /\ (c_dm_ext cfg = true -> x = specExtRow w i)).
    { destruct (c_dm_ext cfg) eqn:CX.
      - exists (specExtRow w i). split; [apply readExtRow_spec; assumption|auto].
      - exists (extRowOf []). split; [reflexivity|discriminate]. }
    destruct HX as (x & HX1 & HX2). rewrite HX1. cbn [fst snd]. unfold bind at 1. rewrite zone_spec. cbn [fst snd].
    unfold bind at 1. rewrite sub_spec. cbn [fst snd]. rewrite (rowAction_spec w m i x Hm HE HX2).
    destruct (rowResult w m i) as [[a p]|]; reflexivity.
  - replace (rowResult w m i) with (@None (N * N)); [reflexivity|]. unfold rowResult, rowMatches. rewrite HE. cbn [andb]. rewrite andb_false_r. reflexivity.
Qed.

(* what an action leaves unchanged *)
Definition sameMatrix w w' : Prop :=
  forall f i, f = FDm \/ f = FDmx \/ f = FZone \/ f = FSub -> i < fieldLen cfg f -> stored w' f i = stored w f i.
Definition calm w w' : Prop :=
  (exists l, w_out w' = l ++ w_out w /\ actions l = []) /\ sameMatrix w w'.
Lemma calm_refl w : calm w w. Proof. split; [exists []; auto|intros f i _ _; reflexivity]. Qed.
Lemma actions_app l1 l2 : actions (l1 ++ l2) = actions l1 ++ actions l2.
Proof. unfold actions. apply flat_map_app. Qed.
Lemma calm_trans a b c : calm a b -> calm b c -> calm a c.
Proof.
  intros [(l1 & H1 & H2) H3] [(l2 & H4 & H5) H6]. split.
  - exists (l2 ++ l1). rewrite H4, H1, app_assoc, actions_app, H5, H2. auto.
  - intros f i Hf Hi. rewrite H6, H3 by assumption. reflexivity.
Qed.
Lemma calm_same w w' : w_out w' = w_out w -> w_ps w' = w_ps w -> calm w w'.
Proof.
  intros H1 H2. split; [exists []; auto|]. intros f i _ Hi. apply stored_ext; [|exact Hi]. intros a. rewrite H2. reflexivity.
Qed.
Lemma calm_write f i v : ~ (f = FDm \/ f = FDmx \/ f = FZone \/ f = FSub) -> i < fieldLen cfg f -> rel calm (psWrite8 (fieldBase cfg f + i) v).
Proof.
  intros Hf Hi w. unfold psWrite8, emit, bind, upd. cbn [fst snd]. split.
  - exists [OPs (fieldBase cfg f + i) (u8 v)]. wsimp. auto.
  - intros g j Hg Hj. unfold stored. rewrite !readField_eq by exact Hj. wsimp. unfold fupd.
    rewrite field_addr_inj by assumption. destruct (field_eqb g f && (j =? i)) eqn:X; [|reflexivity].
    apply andb_prop in X. destruct X as [X _]. exfalso. apply Hf. destruct f, g; try discriminate X; tauto.
Qed.
Lemma calm_emit o : (match o with OAction _ _ _ => False | _ => True end) -> rel calm (emit o).
Proof. intros H w. split; [exists [o]; split; [reflexivity|destruct o; tauto]|]. intros f i _ Hi. apply stored_ext; [|exact Hi]. reflexivity. Qed.
Ltac calm_upd := intros; apply calm_same; reflexivity.
Lemma calm_tx m : rel calm (tp_writeMessage m).
Proof.
  assert (R1 := calm_refl). assert (R2 := calm_trans).
  unfold tp_writeMessage, adapterWrite, loopWrite, setUB. rel_tac; try calm_upd; try (apply calm_emit; exact I).
  destruct (_ <? _); calm_upd.
Qed.
Lemma calm_nick v : rel calm (writeNicknameId v).
Proof.
  assert (R1 := calm_refl). assert (R2 := calm_trans).
  unfold writeNicknameId, ps_writeNicknameId, ps_readNicknameId, psRead8. rel_tac; try calm_upd.
  replace (ps_nick cfg) with (fieldBase cfg FNick + 0) by (cbn; lia). apply calm_write; [intuition discriminate|cbn; lia].
Qed.
Lemma calm_doApi c : leavesMatrix c -> rel calm (doApi c).
Proof.
  assert (R1 := calm_refl). assert (R2 := calm_trans). assert (T := calm_tx). assert (NI := calm_nick).
  assert (L : forall f n i l e d, rel calm (log_loop f n i l e d)) by (apply tr_log_loop; assumption).
  intros H. unfold doApi. apply rel_bind; [assumption|apply calm_emit; exact I|]. intros _. destruct c; try contradiction H.
  all: unfold setAlarm, setTimeSinceEpoch, enableHeartbeat, startNodeSegmentInit, changeToStateInit, log_enable, log_setLevel, log_log, log_sendLogEvent,
         ps_writeLogId, tp_getTransmitErrors.
  all: destruct (c_logger cfg) eqn:CL; cbv iota; rel_tac; try calm_upd; try (apply calm_emit; exact I).
  replace (ps_log cfg) with (fieldBase cfg FLog + 0) by (cbn; lia). apply calm_write; [intuition discriminate|cbn; rewrite CL; lia].
Qed.
Lemma calm_action a p m : (forall s x y e, Forall leavesMatrix (fst (app_action s x y e))) ->
  forall w, exists l, w_out (snd (actionExecute a p m w)) = l ++ OAction a p m :: w_out w /\ actions l = [] /\ sameMatrix w (snd (actionExecute a p m w)).
Proof.
  intros H w. unfold actionExecute. unfold bind at 1. unfold emit, upd. cbn [fst snd].
  set (w1 := set_out (OAction a p m :: w_out w) w). unfold bind, get. cbn [fst snd].
  set (r := app_action (w_app w1, w_ps w1) a p m). set (w2 := set_app (snd r) w1).
  assert (HC : rel calm (forM (fst r) doApi)).
  { specialize (H (w_app w1, w_ps w1) a p m). fold r in H. induction H as [|c l Hc Hl IH]; cbn [forM]; [apply rel_ret, calm_refl|].
    apply rel_bind; [apply calm_trans|apply calm_doApi; assumption|intros _; exact IH]. }
  destruct (HC w2) as [(l & H1 & H2) H3]. exists l. split; [exact H1|]. split; [exact H2|].
  intros f i Hf Hi. etransitivity; [exact (H3 f i Hf Hi)|]. apply stored_ext; [|exact Hi]. reflexivity.
Qed.
(* the actions of a row depend only on the matrix *)
Lemma rowActions_same w w' m i : c_dm cfg = true -> i < c_dm_rows cfg -> sameMatrix w w' -> rowActions w' m i = rowActions w m i.
Proof.
  intros HD Hi H.
  assert (B : forall j, j < 8 -> dmByte w' i j = dmByte w i j).
  { intros j Hj. apply H; [auto|]. cbn [fieldLen]. rewrite HD. lia. }
  assert (X : isExtended w' i = isExtended w i) by (unfold isExtended; rewrite B by lia; reflexivity).
  assert (BX : isExtended w i = true -> forall j, j < 8 -> dmxByte w' i j = dmxByte w i j).
  { intros HX j Hj. unfold isExtended in HX. apply andb_prop in HX. apply H; [auto|]. cbn [fieldLen]. rewrite (proj1 HX). lia. }
  assert (Z : nodeZone w' = nodeZone w).
  { unfold nodeZone. destruct (d_zone_ps cfg) eqn:Z; [|reflexivity]. apply H; [auto|]. cbn [fieldLen]. rewrite Z. lia. }
  assert (S : nodeSubZone w' = nodeSubZone w).
  { unfold nodeSubZone. destruct (d_sub_ps cfg) eqn:Z'; [|reflexivity]. apply H; [auto|]. cbn [fieldLen]. rewrite Z'. lia. }
  assert (F : forall b, flag w' i b = flag w i b) by (intros b; unfold flag; rewrite B by lia; reflexivity).
  unfold rowActions, rowMatches, extMatches. cbn [forallb]. rewrite X, Z, S, !F, !B by lia.
  destruct (isExtended w i); [rewrite !BX by (reflexivity || lia)|]; reflexivity.
Qed.
Lemma exec_rows m : c_dm cfg = true -> msg_wf m ->
  (forall s x y e, Forall leavesMatrix (fst (app_action s x y e))) ->
  forall rows, (forall i, In i rows -> i < c_dm_rows cfg) -> forall w0 w, sameMatrix w0 w ->
  exists l, w_out (snd (forM rows (dm_step actionExecute m) w)) = l ++ w_out w /\
    actions (rev l) = flat_map (rowActions w0 m) rows /\ sameMatrix w0 (snd (forM rows (dm_step actionExecute m) w)).
Proof.
  intros HD Hm HA. induction rows as [|i rows IH]; intros HR w0 w HS; cbn [forM flat_map].
  - exists []. auto.
  - unfold bind at 1 2. rewrite dm_step_spec by (auto with datatypes).
    rewrite <- (rowActions_same w0 w m i HD (HR i (or_introl eq_refl)) HS), rowActions_spec.
    destruct (rowResult w m i) as [[a p]|].
    + destruct (calm_action a p m HA w) as (l1 & H1 & H2 & H3).
      destruct (IH (fun j Hj => HR j (or_intror Hj)) w0 (snd (actionExecute a p m w))) as (l2 & H4 & H5 & H6).
      { intros f j Hf Hj. rewrite (H3 f j Hf Hj). apply HS; assumption. }
      exists (l2 ++ l1 ++ [OAction a p m]). rewrite H4, H1. split; [rewrite <- !app_assoc; reflexivity|]. split; [|exact H6].
      rewrite !rev_app_distr, !actions_app, H5. change (actions (rev [OAction a p m])) with [(a, p, m)].
      replace (actions (rev l1)) with (@nil (N * N * Msg)); [reflexivity|].
      clear -H2. induction l1 as [|o l1 IH]; [reflexivity|]. cbn [rev]. rewrite actions_app.
      change (o :: l1) with ([o] ++ l1) in H2. rewrite actions_app in H2. apply app_eq_nil in H2. destruct H2 as [A1 A2]. rewrite A1, <- (IH A2). reflexivity.
    + cbn [fst snd]. destruct (IH (fun j Hj => HR j (or_intror Hj)) w0 w HS) as (l2 & H4 & H5 & H6). exists l2. auto.
Qed.
End D.

Ltac calm_upd := intros; apply calm_same; reflexivity.
Section DP.
Context {A : Type} {E : Env A}.
Implicit Type w : World A.
Lemma read_wf ps0 (VE : valid_env E) rd w m : Inv ps0 w -> (forall x, rd = Some x -> msg_wf x) -> received rd w = Some m -> msg_wf m.
Proof. intros HI Hrd H. destruct (ok_tp_readMessage ps0 rd Hrd w HI) as (_ & _ & H3). unfold received in H. rewrite H in H3. exact (H3 m eq_refl). Qed.
Lemma calm_calls l : Forall leavesMatrix l -> rel calm (forM l doApi).
Proof.
  induction 1 as [|c l Hc Hl IH]; cbn [forM]; [apply rel_ret, calm_refl|].
  apply rel_bind; [apply calm_trans|apply calm_doApi; assumption|intros _; exact IH].
Qed.
Lemma actions_rev l : actions l = [] -> actions (rev l) = [].
Proof.
  induction l as [|o l IH]; [reflexivity|]. intros H. cbn [rev]. rewrite actions_app.
  change (o :: l) with ([o] ++ l) in H. rewrite actions_app in H. apply app_eq_nil in H. rewrite (IH (proj2 H)), (proj1 H). reflexivity.
Qed.
Lemma process_actions (VE : valid_env E) rd w m :
  c_dm cfg = true -> c_dm_ng cfg = false ->
  (forall s e, Forall leavesMatrix (fst (app_event s e))) -> (forall s x y e, Forall leavesMatrix (fst (app_action s x y e))) ->
  (forall s, Forall leavesMatrix (fst (app_hb s))) ->
  reachable w -> (forall x, rd = Some x -> msg_wf x) -> isActive w = true -> received rd w = Some m -> m_class m <> 0 ->
  actions (effects w (snd (process rd w))) = matrixActions w m.
Proof.
  intros HD HN HEv HA HH HR Hrd HAct Hm HC. destruct (reach_inv VE w HR) as [ps0 HI].
  pose proof (read_wf ps0 VE rd w m HI Hrd Hm) as Hwf.
  assert (R1 := @calm_refl A E). assert (R2 := @calm_trans A E). assert (T := @calm_tx A E).
  rewrite process_state. cbv zeta. rewrite Hm. cbn [snd]. set (w1 := snd (prologue rd w)).
  destruct (prologue_rx rd w m Hm) as [Hrx Hrxv]. fold w1 in Hrx, Hrxv.
  assert (S1 : w_st w1 = ACTIVE).
  { unfold w1. rewrite (pres_prologue w_st) by reflexivity. unfold isActive in HAct. destruct (w_st w); try discriminate HAct. reflexivity. }
  assert (C1 : sameMatrix w w1).
  { intros f i _ Hi. apply stored_ext; [|exact Hi]. intros a. unfold w1. rewrite (pres_prologue (fun v => w_ps v a)) by reflexivity. reflexivity. }
  unfold dispatch. rewrite bind_get, S1. unfold stateActive.
  unfold bind at 1. set (w2 := snd (activeMessage w1)). set (h := fst (activeMessage w1)).
  assert (CB : rel calm (activeHeartbeat ;; count <- get w_xcount ;; (if 0 <? count then extendedPageRead ;; ret true else ret h))).
  { apply rel_bind; [assumption| |intros _; apply rel_bind; [assumption|apply rel_get; assumption|intros c; apply rel_if; [|apply rel_ret; assumption]]].
    - unfold activeHeartbeat, customHeartbeat. 
      assert (HB : rel calm customHeartbeat).
      { intros v. unfold customHeartbeat. rewrite bind_emit, bind_get, bind_upd.
        eapply calm_trans; [apply (calm_emit OHeartbeatCustom I)|]. eapply calm_trans; [|apply calm_calls, HH]. apply calm_same; reflexivity. }
      fold (@customHeartbeat A E). assert (rel calm sendNodeHeartbeat) by (apply tr_sendNodeHeartbeat; assumption).
      unfold timer_running, timer_start. rel_tac; calm_upd.
    - apply rel_bind; [assumption| |intros _; apply rel_ret; assumption].
      apply tr_extendedPageRead; try assumption; try calm_upd.
      + unfold setUB. rel_tac; calm_upd.
      + intros o Ho. apply calm_emit. destruct o; try exact I; discriminate Ho.
      + rel_tac; calm_upd. }
  specialize (CB w2). destruct CB as [(lb & HB1 & HB2) _].
  match goal with |- actions (effects w (set_out (_ :: w_out (snd ?x)) _)) = _ => set (w3 := snd x) in * end.
  change (w_out w3 = lb ++ w_out w2) in HB1.
  (* the message *)
  assert (HM : exists l, w_out w2 = l ++ w_out w1 /\ actions (rev l) = matrixActions w m).
  { unfold w2, activeMessage. rewrite bind_get, Hrxv. cbv iota. rewrite bind_get, Hrx.
    replace (m_class m =? CLASS_PROTOCOL) with false by (unfold CLASS_PROTOCOL; lia).
    assert (CE : rel calm (provideEvent m)).
    { intros v. unfold provideEvent. rewrite bind_emit, bind_get, bind_upd.
      eapply calm_trans; [apply (calm_emit (OEvent m) I)|]. eapply calm_trans; [|apply calm_calls, HEv]. apply calm_same; reflexivity. }
    unfold bind at 1. destruct (CE w1) as [(le & HE1 & HE2) HE3]. set (wE := snd (provideEvent m w1)) in *.
    rewrite HD, HN. unfold bind at 1. unfold bind, ret. cbn [snd].
    destruct (exec_rows m HD Hwf HA (Nseq (c_dm_rows cfg))) with (w0 := w) (w := wE) as (l & HL1 & HL2 & _).
    - intros i Hi. unfold Nseq in Hi. apply in_map_iff in Hi. destruct Hi as (k & <- & Hk). apply in_seq in Hk. lia.
    - intros f i Hf Hi. rewrite (HE3 f i Hf Hi). apply C1; assumption.
    - exists (l ++ le). unfold dm_executeActions. rewrite HL1, HE1, app_assoc. split; [reflexivity|].
      rewrite rev_app_distr, actions_app, HL2, (actions_rev le HE2). reflexivity. }
  destruct HM as (l & HL1 & HL2).
  erewrite effects_app with (d := ORet true :: lb ++ l ++ [ORx m; OProcess]).
  2:{ wsimp. rewrite HB1, HL1. unfold w1. rewrite prologue_out, Hm. cbn [app]. rewrite <- !app_assoc. reflexivity. }
  cbn [rev]. rewrite !rev_app_distr, !actions_app, HL2, (actions_rev lb HB2). cbn. rewrite !app_nil_r. reflexivity.
Qed.
End DP.
