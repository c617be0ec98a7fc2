(* Proof_DevData.v - lemmas for Prop_DevData.v *)
From Verif Require Export Proof_Init.

(* decide the tests of a register dispatch *)
Ltac regcase :=
  repeat match goal with
  | |- context [if ?b then _ else _] =>
      first [ replace b with true by (symmetry; unfold inRange, REG_ALARM, REG_VERSION_MAJOR, REG_VERSION_MINOR, REG_CTRL, REG_USER, REG_MDEV, REG_MSUB, REG_NICK,
                REG_PAGE_MSB, REG_PAGE_LSB, REG_FW_MAJOR, REG_FW_MINOR, REG_FW_SUB, REG_BOOT_ALG, REG_BUFFER_SIZE, REG_PAGES_USED, REG_FAM, REG_TYPE,
                REG_RESTORE, REG_FWCODE_MSB, REG_FWCODE_LSB, REG_GUID, REG_MDF in *; lia)
            | replace b with false by (symmetry; unfold inRange, REG_ALARM, REG_VERSION_MAJOR, REG_VERSION_MINOR, REG_CTRL, REG_USER, REG_MDEV, REG_MSUB, REG_NICK,
                REG_PAGE_MSB, REG_PAGE_LSB, REG_FW_MAJOR, REG_FW_MINOR, REG_FW_SUB, REG_BOOT_ALG, REG_BUFFER_SIZE, REG_PAGES_USED, REG_FAM, REG_TYPE,
                REG_RESTORE, REG_FWCODE_MSB, REG_FWCODE_LSB, REG_GUID, REG_MDF in *; lia) ]
  end.

Section D.
Context {A : Type} {E : Env A}.
Lemma reg_guid k : k < 16 -> readRegister 0 (208 + k) = dd_getGUID (15 - k) :> M A N.
Proof. intros H. unfold readRegister, readVscpRegister. regcase. f_equal. unfold REG_GUID. lia. Qed.
Lemma reg_mdf k : k < 32 -> readRegister 0 (224 + k) = dd_getMdf k :> M A N.
Proof. intros H. unfold readRegister, readVscpRegister. regcase. f_equal. unfold REG_MDF. lia. Qed.
Lemma reg_fam k : k < 4 -> readRegister 0 (154 + k) = dd_getFam (3 - k) :> M A N.
Proof. intros H. unfold readRegister, readVscpRegister. regcase. f_equal. unfold REG_FAM. lia. Qed.
Lemma reg_type k : k < 4 -> readRegister 0 (158 + k) = dd_getType (3 - k) :> M A N.
Proof. intros H. unfold readRegister, readVscpRegister. regcase. f_equal. unfold REG_TYPE. lia. Qed.

Hypothesis VE : valid_env E.
Lemma getGUID_flash i (w : World A) : i < 16 -> d_guid_ps cfg = false -> d_guid_ext cfg = false ->
  dd_getGUID i w = (nth (N.to_nat (15 - i)) (d_guid cfg) 0, w).
Proof.
  intros Hi H1 H2. unfold dd_getGUID. rewrite H1, H2. pose proof (v_guid _ (ve_cfg E VE)) as [HL _].
  unfold ret, at0. rewrite HL. change (N.of_nat 16) with 16. replace (i <? 16) with true by lia. do 2 f_equal. f_equal. lia.
Qed.
Lemma getGUID_ps i (w : World A) : i < 16 -> d_guid_ps cfg = true -> dd_getGUID i w = (stored w FGuid i, w).
Proof.
  intros Hi H. unfold dd_getGUID. rewrite H. unfold stored. cbn [readField]. unfold ps_readGUID, psReadIdx.
  destruct (i <? sz_guid cfg); reflexivity.
Qed.
Lemma getGUID_ext i (w : World A) : d_guid_ps cfg = false -> d_guid_ext cfg = true ->
  dd_getGUID i w = (app_guid (w_app w) i mod 256, w).
Proof. intros H1 H2. unfold dd_getGUID. rewrite H1, H2. reflexivity. Qed.
Lemma getGUID_restored i (w : World A) : i < 16 -> d_guid_ps cfg = true ->
  fst (dd_getGUID i (snd (restoreFactory w))) = nth (N.to_nat (15 - i)) (d_guid cfg) 0.
Proof.
  intros Hi H. rewrite getGUID_ps by assumption. cbn [fst].
  assert (HL : i < fieldLen cfg FGuid) by (cbn [fieldLen]; rewrite H; exact Hi).
  rewrite (restore_sets VE w FGuid i HL). reflexivity.
Qed.
Lemma getMdf_flash i (w : World A) : d_mdf_ps cfg = false -> dd_getMdf i w = (nth (N.to_nat i) (d_mdf cfg) 0, w).
Proof. intros H. unfold dd_getMdf. rewrite H. reflexivity. Qed.
Lemma getMdf_ps i (w : World A) : i < 32 -> d_mdf_ps cfg = true -> dd_getMdf i w = (stored w FMdf i, w).
Proof.
  intros Hi H. unfold dd_getMdf. rewrite H. unfold stored. cbn [readField]. unfold ps_readMdf, psReadIdx.
  destruct (i <? sz_mdf cfg); reflexivity.
Qed.
Lemma getMdf_restored i (w : World A) : i < 32 -> d_mdf_ps cfg = true ->
  fst (dd_getMdf i (snd (restoreFactory w))) = nth (N.to_nat i) (d_mdf cfg) 0.
Proof.
  intros Hi H. rewrite getMdf_ps by assumption. cbn [fst].
  assert (HL : i < fieldLen cfg FMdf) by (cbn [fieldLen]; rewrite H; exact Hi).
  rewrite (restore_sets VE w FMdf i HL). reflexivity.
Qed.
(* what the family code and device type registers return *)
Definition shifted (code i : N) : N := let v := code / 2 ^ i mod 256 in if v =? 255 then 0 else v.
Lemma shifted_eq code i : (let v := N.land (N.shiftr code i) 255 in if v =? 255 then 0 else v) = shifted code i.
Proof.
  assert (H : N.land (N.shiftr code i) 255 = code / 2 ^ i mod 256).
  { change 255 with (N.ones 8). rewrite N.land_ones, N.shiftr_div_pow2. reflexivity. }
  unfold shifted. cbv zeta. rewrite H. reflexivity.
Qed.
Lemma getFam_flash i (w : World A) : d_family cfg = true -> d_fam_ps cfg = false -> dd_getFam i w = (shifted (d_fam cfg) i, w).
Proof. intros H1 H2. rewrite <- shifted_eq. unfold dd_getFam. rewrite H1, H2. reflexivity. Qed.
Lemma getType_flash i (w : World A) : d_family cfg = true -> d_type_ps cfg = false -> dd_getType i w = (shifted (d_type cfg) i, w).
Proof. intros H1 H2. rewrite <- shifted_eq. unfold dd_getType. rewrite H1, H2. reflexivity. Qed.
Lemma getFam_restored i (w : World A) : i < 4 -> d_family cfg = true -> d_fam_ps cfg = true ->
  fst (dd_getFam i (snd (restoreFactory w))) = shifted (d_fam cfg) i.
Proof.
  intros Hi H1 H2. rewrite <- shifted_eq. unfold dd_getFam. rewrite H1, H2. unfold bind, ret. cbn [fst].
  assert (HL : i < fieldLen cfg FFam) by (cbn [fieldLen]; rewrite H2; exact Hi).
  pose proof (restore_sets VE w FFam i HL) as K. unfold stored in K. cbn [readField actual] in K. rewrite H1 in K. rewrite K. reflexivity.
Qed.
Lemma getType_restored i (w : World A) : i < 4 -> d_family cfg = true -> d_type_ps cfg = true ->
  fst (dd_getType i (snd (restoreFactory w))) = shifted (d_type cfg) i.
Proof.
  intros Hi H1 H2. rewrite <- shifted_eq. unfold dd_getType. rewrite H1, H2. unfold bind, ret. cbn [fst].
  assert (HL : i < fieldLen cfg FType) by (cbn [fieldLen]; rewrite H2; exact Hi).
  pose proof (restore_sets VE w FType i HL) as K. unfold stored in K. cbn [readField actual] in K. rewrite H1 in K. rewrite K. reflexivity.
Qed.
End D.
