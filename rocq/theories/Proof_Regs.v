(* Proof_Regs.v - register windows on the decision matrix and the rule set *)
From Verif Require Export Spec_Regs Proof_DM.

Lemma effects_same {A} (w w' : World A) : w_out w' = w_out w -> effects w w' = [].
Proof. intros H. unfold effects. rewrite H, Nat.sub_diag. reflexivity. Qed.

Section R.
Context {A : Type} {E : Env A}.
Implicit Type w : World A.

Lemma ctrl_bit w : fst (getRegAppWriteProtect w) = (if N.testbit (stored w FCtrl 0) 5 then 1 else 0) /\ snd (getRegAppWriteProtect w) = w.
Proof.
  split; [|reflexivity]. unfold getRegAppWriteProtect, bind, ret, stored, readField. cbn [fst snd].
  set (x := fst (ps_readCtrl w)). change 1 with (N.ones 1) at 1. rewrite N.land_ones. change (2 ^ 1) with 2.
  rewrite <- N.bit0_mod, N.shiftr_spec' by lia. rewrite N.add_0_l. destruct (N.testbit x 5); reflexivity.
Qed.

Lemma readField_state f i w : readField f i w = (stored w f i, w).
Proof.
  unfold stored. destruct f; unfold readField, ps_readBootFlag, ps_readNicknameId, ps_readCRC, ps_readCtrl, ps_readUserId, ps_readGUID, ps_readZone, ps_readSub,
    ps_readMDev, ps_readMSub, ps_readMdf, ps_readFam, ps_readType, ps_readLogId, ps_readDM, ps_readDMExt, ps_readNG, psReadIdx, psRead8;
  try reflexivity; destruct (i <? _); reflexivity.
Qed.
Lemma ps_readDM_state i w : ps_readDM i w = (stored w FDm i, w). Proof. apply (readField_state FDm). Qed.
Lemma ps_readNG_state i w : ps_readNG i w = (stored w FNg i, w). Proof. apply (readField_state FNg). Qed.

(* the general part of a write access outside of the VSCP register area *)
Lemma writeRegister_open p a v w : ~ (p = 0 /\ 128 <= a) -> a < 256 -> writable w ->
  writeRegister p a v w =
  (x <- (if c_dm cfg && dm_isDecisionMatrix p a then dm_writeRegister p a v
         else if c_dm_ng cfg && ng_isDecisionMatrix p a then ng_writeRegister p a v else appWrite p a v) ;; ret (x, false)) w.
Proof.
  intros HP Ha HW. unfold writeRegister. replace ((p =? 0) && (128 <=? a) && (a <=? 255)) with false by lia.
  destruct (ctrl_bit w) as [H1 H2]. unfold writable in HW. rewrite HW in H1.
  unfold bind at 1. rewrite H1, H2. reflexivity.
Qed.
Lemma readRegister_open p a w : ~ (p = 0 /\ 128 <= a) ->
  readRegister p a w =
  (if c_dm cfg && dm_isDecisionMatrix p a then dm_readRegister p a
   else if c_dm_ng cfg && ng_isDecisionMatrix p a then ng_readRegister p a else appRead p a) w.
Proof. intros HP. unfold readRegister. replace ((p =? 0) && (128 <=? a) && (a <=? 255)) with false by lia. reflexivity. Qed.

Lemma write_read f k v w (x : M A N) : k < fieldLen cfg f -> v < 256 -> x w = (writeField f k v ;; readField f k) w ->
  fst (x w) = v /\ onlyMemory w (snd (x w)) /\ (exists y, effects w (snd (x w)) = [OPs y v]) /\
  forall g j, j < fieldLen cfg g -> stored (snd (x w)) g j = if field_eqb f g && (k =? j) then v else stored w g j.
Proof.
  intros Hk Hv ->. unfold bind. rewrite readField_state. cbn [fst snd].
  destruct (field_write_effect f k v w Hk Hv) as (H1 & H2). repeat split.
  - rewrite H2 by exact Hk. rewrite (proj2 (field_eqb_spec f f) eq_refl), N.eqb_refl. reflexivity.
  - unfold onlyMemory. rewrite (writeField_eq f k v w Hk). destruct w. reflexivity.
  - exists (fieldBase cfg f + k). exact H1.
  - exact H2.
Qed.

Lemma app_register p a : ~ (p = 0 /\ 128 <= a) -> a < 256 -> c_dm cfg && dm_isDecisionMatrix p a = false ->
  c_dm_ng cfg && ng_isDecisionMatrix p a = false -> (forall c, rel (@ext A) (doApi c)) -> isAppRegister p a.
Proof.
  intros HP Ha H1 H2 HX w. split.
  - rewrite readRegister_open, H1, H2 by exact HP. cbv zeta. unfold appRead, emit, bind, upd, get, ret. cbn [fst snd]. wsimp.
    split; [reflexivity|]. split; [apply (effects_app _ _ [OAppRead p a]); reflexivity|]. split; [destruct w; reflexivity|reflexivity].
  - intros v HW. rewrite writeRegister_open, H1, H2 by assumption. cbv zeta.
    unfold appWrite, emit, bind, upd, get, ret. cbn [fst snd]. wsimp.
    set (l := snd (fst (app_write (w_app w, w_ps w) p a v))).
    set (w1 := set_app _ _).
    assert (R : ext w1 (snd (forM l doApi w1))) by (apply (rel_forM ext ext_refl ext_trans); exact HX).
    split; [reflexivity|]. split.
    { destruct R as [d Hd]. exists (rev d).
      rewrite (effects_app w _ (d ++ [OAppWrite p a v])); [rewrite rev_app_distr; reflexivity|].
      rewrite Hd, <- app_assoc. reflexivity. }
    intros HL. fold l in HL. rewrite HL. unfold forM, ret. cbn [fst snd]. unfold w1. split; [apply (effects_app _ _ [OAppWrite p a v]); reflexivity|].
    split; [destruct w; reflexivity|reflexivity].
Qed.
Lemma ext_doApi c : rel (@ext A) (doApi c).
Proof.
  assert (S : forall w w', w_out w' = w_out w -> ext w w') by (intros w w' H; exists []; exact H).
  assert (Rrefl := @ext_refl A). assert (Rtrans := @ext_trans A).
  assert (He : forall o, rel (@ext A) (emit o)) by (intros o w; exists [o]; reflexivity).
  assert (Hw : forall a v, rel (@ext A) (psWrite8 a v)) by (intros a v; unfold psWrite8; rel_tac; apply S; reflexivity).
  assert (Htx : forall m, rel (@ext A) (tp_writeMessage m)).
  { intros m. unfold tp_writeMessage, adapterWrite, loopWrite, setUB. rel_tac; try (apply S; reflexivity).
    destruct (w_txe _ <? 255); apply S; reflexivity. }
  assert (Hn : forall v, rel (@ext A) (writeNicknameId v)) by (intros v; apply tr_writeNicknameId; auto; intros; apply S; reflexivity).
  assert (Hts : forall i v, rel (@ext A) (timer_start i v)) by (intros i v w; apply S; reflexivity).
  assert (Htp : forall i, rel (@ext A) (timer_stop i)) by (intros i w; apply S; reflexivity).
  assert (Hi : forall b, rel (@ext A) (changeToStateInit b)).
  { intros b. apply tr_toInit; try assumption; intros; try apply He; apply S; reflexivity. }
  assert (Hr : rel (@ext A) restoreFactory).
  { apply tr_restoreFactory; auto; intros; try apply He; apply S; reflexivity. }
  apply tr_doApi; try assumption; intros; try apply He;
    try (unfold setAlarm, setTimeSinceEpoch, enableHeartbeat, log_enable, log_setLevel, tp_getTransmitErrors; rel_tac; apply S; reflexivity).
Qed.

Hypothesis VE : valid_env E.
(* C17, single page windows from offset 0 *)
Lemma dm_single p a : c_dm_paged cfg = false -> c_dm_ext cfg = false -> c_dm_off cfg = 0 -> c_dm_rows cfg < 32 -> c_dm_page cfg < 255 ->
  dm_isDecisionMatrix p a = (p =? c_dm_page cfg) && (a <? 8 * c_dm_rows cfg).
Proof.
  intros HP HX HO HR HPg. unfold dm_isDecisionMatrix, dm_isStd, dm_LAST_PAGE, dm_LAST_OFFSET, dm_ADDITIONAL, dm_START_PAGE, dm_START_OFFSET, dm_PAGES, dm_ROWS.
  rewrite HP, HX, HO. cbv iota. replace (c_dm_rows cfg / 32) with 0 by lia.
  replace (255 - 0 <? c_dm_page cfg + 0 + 1) with false by lia. cbv iota. cbn [N.add]. rewrite ?N.add_0_r.
  destruct (0 <? c_dm_rows cfg) eqn:Z; [|lia]. destruct (p =? c_dm_page cfg) eqn:Q.
  - replace (0 <=? a) with true by lia. replace (c_dm_page cfg <? c_dm_page cfg) with false by lia. replace (0 <? 0) with false by reflexivity.
    replace (c_dm_rows cfg mod 32) with (c_dm_rows cfg) by lia. lia.
  - replace (c_dm_page cfg <? p) with (c_dm_page cfg <? p) by reflexivity. lia.
Qed.
Lemma dm_window a : c_dm cfg = true -> c_dm_paged cfg = false -> c_dm_ext cfg = false -> c_dm_off cfg = 0 -> c_dm_rows cfg < 32 -> c_dm_page cfg < 255 ->
  a < 8 * c_dm_rows cfg -> isWindowOn (c_dm_page cfg) a FDm a.
Proof.
  intros HD HP HX HO HR HPg Ha w. pose proof (v_e5 _ (ve_cfg _ VE) HD HP) as H0.
  assert (HI : dm_matrixIndex (c_dm_page cfg) a = Some a).
  { unfold dm_matrixIndex. rewrite dm_single, N.eqb_refl by assumption. replace (a <? _) with true by lia. cbn [andb].
    unfold dm_START_PAGE, dm_START_OFFSET. rewrite HP, HO, N.eqb_refl, N.sub_diag, N.sub_0_r. change (u16 (u16 0 * 8)) with 0.
    rewrite N.add_0_l. replace (u16 a) with a by (unfold u16; lia). replace (u8 (a / 8)) with (a / 8) by (unfold u8; lia). f_equal. lia. }
  assert (HM : c_dm cfg && dm_isDecisionMatrix (c_dm_page cfg) a = true).
  { rewrite HD, dm_single, N.eqb_refl by assumption. cbn [andb]. lia. }
  split.
  - rewrite readRegister_open, HM by lia. unfold dm_readRegister, dm_readStd. rewrite HP, HI. apply ps_readDM_state.
  - intros v Hv HW w'. subst w'. rewrite writeRegister_open, HM by (assumption || lia).
    assert (Q : dm_writeRegister (c_dm_page cfg) a v w = (writeField FDm a v ;; readField FDm a) w) by (unfold dm_writeRegister, dm_writeStd; rewrite HP, HI; reflexivity).
    assert (Hk : a < fieldLen cfg FDm) by (cbn [fieldLen]; rewrite HD; exact Ha).
    destruct (write_read FDm a v w _ Hk Hv Q) as (R1 & R2 & R3 & R4). unfold bind, ret. cbn [fst snd]. rewrite R1. auto.
Qed.

(* C17, any offset and any number of pages *)
Lemma dm_window_at p a k : c_dm cfg = true -> c_dm_paged cfg = false -> p <> 0 -> a < 256 -> dm_matrixIndex p a = Some k -> k < 8 * c_dm_rows cfg ->
  isWindowOn p a FDm k.
Proof.
  intros HD HP H0 Ha HI HK w.
  assert (HM : c_dm cfg && dm_isDecisionMatrix p a = true).
  { rewrite HD. unfold dm_matrixIndex in HI. destruct (dm_isDecisionMatrix p a); [reflexivity|discriminate HI]. }
  split.
  - rewrite readRegister_open, HM by lia. unfold dm_readRegister, dm_readStd. rewrite HP, HI. apply ps_readDM_state.
  - intros v Hv HW w'. subst w'. rewrite writeRegister_open, HM by (assumption || lia).
    assert (Q : dm_writeRegister p a v w = (writeField FDm k v ;; readField FDm k) w) by (unfold dm_writeRegister, dm_writeStd; rewrite HP, HI; reflexivity).
    assert (Hk : k < fieldLen cfg FDm) by (cbn [fieldLen]; rewrite HD; exact HK).
    destruct (write_read FDm k v w _ Hk Hv Q) as (R1 & R2 & R3 & R4). unfold bind, ret. cbn [fst snd]. rewrite R1. auto.
Qed.
Lemma dm_claims p a : c_dm_paged cfg = false -> p = c_dm_page cfg -> c_dm_off cfg <= a -> 0 < dm_ROWS ->
  (c_dm_page cfg < dm_LAST_PAGE \/ a < 8 * (dm_ROWS mod 32)) -> dm_isDecisionMatrix p a = true.
Proof.
  intros HP -> Ha HR H. unfold dm_isDecisionMatrix. rewrite HP. unfold dm_isStd. unfold dm_START_PAGE, dm_START_OFFSET. rewrite HP, N.eqb_refl.
  destruct (0 <? dm_ROWS) eqn:Q; [|lia]. destruct (c_dm_off cfg <=? a) eqn:Q1; [|lia]. destruct (c_dm_page cfg <? dm_LAST_PAGE) eqn:Q2; [reflexivity|].
  unfold dm_LAST_OFFSET. destruct (0 <? dm_ADDITIONAL); lia.
Qed.
Lemma dm_first_index k : c_dm_paged cfg = false -> c_dm_off cfg + k < 256 -> dm_isDecisionMatrix (c_dm_page cfg) (c_dm_off cfg + k) = true ->
  dm_matrixIndex (c_dm_page cfg) (c_dm_off cfg + k) = Some k.
Proof.
  intros HP Hk HM. unfold dm_matrixIndex. rewrite HM. unfold dm_START_PAGE, dm_START_OFFSET. rewrite HP, N.eqb_refl, N.sub_diag. change (u16 (u16 0 * 8)) with 0.
  cbv zeta. f_equal. unfold u16, u8. replace (0 + (c_dm_off cfg + k - c_dm_off cfg)) with k by lia. lia.
Qed.
Lemma dm_later_index j a : c_dm_paged cfg = false -> 0 < j -> c_dm_page cfg + j < 65536 -> a < 256 -> dm_isDecisionMatrix (c_dm_page cfg + j) a = true ->
  256 - c_dm_off cfg + 8 * j + a < 2048 -> dm_matrixIndex (c_dm_page cfg + j) a = Some (256 - c_dm_off cfg + 8 * j + a).
Proof.
  intros HP Hj H6 Ha HM H2. unfold dm_matrixIndex. rewrite HM. unfold dm_START_PAGE, dm_START_OFFSET. rewrite HP.
  destruct (c_dm_page cfg + j =? c_dm_page cfg) eqn:Q; [lia|]. cbv zeta. f_equal. pose proof (v_dm_off _ (ve_cfg _ VE)).
  replace (c_dm_page cfg + j - c_dm_page cfg) with j by lia. unfold u16, u8.
  replace (j mod 65536) with j by lia. replace ((j * 8) mod 65536) with (8 * j) by lia.
  replace ((8 * j + (255 - c_dm_off cfg + 1)) mod 65536) with (8 * j + (256 - c_dm_off cfg)) by lia.
  replace ((8 * j + (256 - c_dm_off cfg) + a) mod 65536) with (256 - c_dm_off cfg + 8 * j + a) by lia. lia.
Qed.
Lemma dm_later_claims j a : c_dm_paged cfg = false -> 0 < j -> 0 < dm_ROWS ->
  dm_isDecisionMatrix (c_dm_page cfg + j) a = (j <? dm_PAGES + dm_ADDITIONAL) || ((j =? dm_PAGES + dm_ADDITIONAL) && (a <=? c_dm_off cfg)).
Proof.
  intros HP Hj HR. unfold dm_isDecisionMatrix. rewrite HP. unfold dm_isStd, dm_LAST_PAGE. unfold dm_START_PAGE, dm_START_OFFSET. rewrite HP.
  destruct (0 <? dm_ROWS) eqn:Q; [|lia]. destruct (c_dm_page cfg + j =? c_dm_page cfg) eqn:Q1; [lia|].
  destruct (c_dm_page cfg + j =? c_dm_page cfg + dm_PAGES + dm_ADDITIONAL) eqn:Q2; lia.
Qed.

(* C23 *)
Lemma ng_single p a : 0 < c_ng_size cfg -> c_ng_size cfg < 256 -> a < 256 ->
  ng_isDecisionMatrix p a = (p =? c_ng_page cfg) && (a <? c_ng_size cfg).
Proof.
  intros H0 H1 Ha. unfold ng_isDecisionMatrix, ng_LAST_PAGE, ng_LAST_PAGE_OFFSET. replace (0 <? c_ng_size cfg) with true by lia.
  replace (c_ng_size cfg / 256) with 0 by lia. replace (c_ng_size cfg mod 256) with (c_ng_size cfg) by lia. replace (0 <? c_ng_size cfg) with true by lia.
  rewrite N.add_0_r. destruct (p =? c_ng_page cfg) eqn:Q; destruct ((c_ng_page cfg <=? p) && (p <=? c_ng_page cfg)) eqn:Q'; lia.
Qed.
Lemma ng_window a : c_dm_ng cfg = true -> c_dm cfg = false -> 0 < c_ng_size cfg -> c_ng_size cfg < 256 -> a < c_ng_size cfg ->
  (c_ng_page cfg <> 0 \/ a < 128) -> isWindowOn (c_ng_page cfg) a FNg a.
Proof.
  intros HN HD H0 H1 Ha HP w.
  assert (HM : c_dm_ng cfg && ng_isDecisionMatrix (c_ng_page cfg) a = true).
  { rewrite HN, ng_single, N.eqb_refl by lia. cbn [andb]. lia. }
  assert (HI : u8 ((c_ng_page cfg - c_ng_page cfg) * 256 + a) = a) by (unfold u8; lia).
  split.
  - rewrite readRegister_open, HM, HD by lia. cbn [andb]. unfold ng_readRegister. rewrite N.leb_refl, HI. apply ps_readNG_state.
  - intros v Hv HW w'. subst w'. rewrite writeRegister_open, HM, HD by (assumption || lia). cbn [andb].
    assert (Q : ng_writeRegister (c_ng_page cfg) a v w = (writeField FNg a v ;; readField FNg a) w) by (unfold ng_writeRegister; rewrite N.leb_refl, HI; reflexivity).
    assert (Hk : a < fieldLen cfg FNg) by (cbn [fieldLen]; rewrite HN; exact Ha).
    destruct (write_read FNg a v w _ Hk Hv Q) as (R1 & R2 & R3 & R4). unfold bind, ret. cbn [fst snd]. rewrite R1. auto.
Qed.
End R.
