(* Proof_PS.v - lemmas for Prop_PS.v *)
From Verif Require Export Spec_PS Inv.

(* where the implementation puts a field *)
Definition fieldBase (c : Config) (f : Field) : N :=
  match f with
  | FBoot => ps_boot | FNick => ps_nick c | FCrc => ps_crc c | FCtrl => ps_ctrl c | FUser => ps_user c
  | FGuid => ps_guid c | FZone => ps_zone c | FSub => ps_sub c | FMDev => ps_mdev c | FMSub => ps_msub c
  | FMdf => ps_mdf c | FFam => ps_fam c | FType => ps_type c | FLog => ps_log c | FDm => ps_dm c
  | FDmx => ps_dmx c | FNg => ps_ng c
  end.
Ltac sizes c := unfold sz_boot, sz_guid, sz_zone, sz_sub, sz_mdev, sz_msub, sz_mdf, sz_fam, sz_type, sz_log,
  sz_dm, sz_dmx, sz_ng, b2n, GUID_SIZE in *.
Ltac cases c := destruct (c_boot c), (d_guid_ps c), (d_zone_ps c), (d_sub_ps c), (d_mdev_ps c), (d_msub_ps c),
  (d_mdf_ps c), (d_fam_ps c), (d_type_ps c), (c_logger c), (c_dm c), (c_dm_ext c), (c_dm_ng c).

(* sizes of the implementation = documented lengths *)
Lemma szs c : sz_boot c = fieldLen c FBoot /\ sz_guid c = fieldLen c FGuid /\ sz_zone c = fieldLen c FZone /\
  sz_sub c = fieldLen c FSub /\ sz_mdev c = fieldLen c FMDev /\ sz_msub c = fieldLen c FMSub /\
  sz_mdf c = fieldLen c FMdf /\ sz_fam c = fieldLen c FFam /\ sz_type c = fieldLen c FType /\
  sz_log c = fieldLen c FLog /\ sz_dm c = fieldLen c FDm /\ sz_dmx c = fieldLen c FDmx /\ sz_ng c = fieldLen c FNg.
Proof.
  sizes c. unfold fieldLen. repeat split; try reflexivity.
  - destruct (c_dm c); lia.
  - destruct (c_dm_ext c); lia.
Qed.
Ltac lenNames c := pose proof (szs c) as (?HS1 & ?HS2 & ?HS3 & ?HS4 & ?HS5 & ?HS6 & ?HS7 & ?HS8 & ?HS9 & ?HS10 & ?HS11 & ?HS12 & ?HS13).

Lemma psArea_next c : psArea c = ps_next c.
Proof.
  lenNames c. unfold psArea, allFields. cbn [fold_right]. layout.
  change (fieldLen c FNick) with 1. change (fieldLen c FCrc) with 1. change (fieldLen c FCtrl) with 1. change (fieldLen c FUser) with 5. lia.
Qed.
Lemma field_inside c f i : i < fieldLen c f -> fieldBase c f + i < ps_next c.
Proof.
  lenNames c. intros H.
  assert (N1 : fieldLen c FNick = 1 /\ fieldLen c FCrc = 1 /\ fieldLen c FCtrl = 1 /\ fieldLen c FUser = 5) by (repeat split; reflexivity).
  destruct f; unfold fieldBase; layout; lia.
Qed.
(* fields occupy consecutive, hence disjoint, ranges *)
Definition fpos (f : Field) : N :=
  match f with FBoot => 0 | FNick => 1 | FCrc => 2 | FCtrl => 3 | FUser => 4 | FGuid => 5 | FZone => 6 | FSub => 7
  | FMDev => 8 | FMSub => 9 | FMdf => 10 | FFam => 11 | FType => 12 | FLog => 13 | FDm => 14 | FDmx => 15 | FNg => 16 end.
Lemma field_order c f g : fpos f < fpos g -> fieldBase c f + fieldLen c f <= fieldBase c g.
Proof.
  lenNames c. intros H.
  assert (N1 : fieldLen c FNick = 1 /\ fieldLen c FCrc = 1 /\ fieldLen c FCtrl = 1 /\ fieldLen c FUser = 5) by (repeat split; reflexivity).
  destruct f, g; try (exfalso; revert H; compute; discriminate); clear H; unfold fieldBase; layout; lia.
Qed.
Lemma fpos_inj f g : fpos f = fpos g -> f = g.
Proof. destruct f, g; cbn; intros; congruence. Qed.
Lemma field_eqb_spec f g : field_eqb f g = true <-> f = g.
Proof. destruct f, g; cbn; split; congruence. Qed.
Lemma field_addr_inj c f g i j : i < fieldLen c f -> j < fieldLen c g ->
  (fieldBase c f + i =? fieldBase c g + j) = field_eqb f g && (i =? j).
Proof.
  intros Hi Hj. destruct (field_eqb f g) eqn:Q.
  - apply field_eqb_spec in Q. subst g. cbn [andb]. lia.
  - assert (f <> g) by (intros ->; destruct g; discriminate Q).
    assert (fpos f < fpos g \/ fpos g < fpos f) as [L|L].
    { assert (fpos f <> fpos g) by (intros K; apply fpos_inj in K; contradiction). lia. }
    + pose proof (field_order c f g L). cbn [andb]. lia.
    + pose proof (field_order c g f L). cbn [andb]. lia.
Qed.

Section P.
Context {A : Type} {E : Env A}.
Lemma readField_eq f i (w : World A) : i < fieldLen cfg f -> fst (readField f i w) = w_ps w (fieldBase cfg f + i).
Proof.
  lenNames cfg. intros H.
  assert (N1 : fieldLen cfg FNick = 1 /\ fieldLen cfg FCrc = 1 /\ fieldLen cfg FCtrl = 1) by (repeat split; reflexivity).
  destruct f; unfold readField, fieldBase;
    unfold ps_readBootFlag, ps_readNicknameId, ps_readCRC, ps_readCtrl, ps_readUserId, ps_readGUID, ps_readZone, ps_readSub,
      ps_readMDev, ps_readMSub, ps_readMdf, ps_readFam, ps_readType, ps_readLogId, ps_readDM, ps_readDMExt, ps_readNG, psReadIdx;
    try (match goal with |- context [i <? ?s] => replace (i <? s) with true by (try (change s with (fieldLen cfg FUser)); lia) end; reflexivity);
    unfold psRead8, get; cbn [fst]; f_equal; try lia.
  - destruct (c_boot cfg) eqn:Q; cbn [fieldLen] in H; rewrite Q in H; lia.
  - cbn [fieldLen] in H. destruct (d_zone_ps cfg); lia.
  - cbn [fieldLen] in H. destruct (d_sub_ps cfg); lia.
  - cbn [fieldLen] in H. destruct (c_logger cfg); lia.
Qed.
Lemma writeField_eq f i v (w : World A) : i < fieldLen cfg f ->
  writeField f i v w = psWrite8 (fieldBase cfg f + i) v w.
Proof.
  lenNames cfg. intros H.
  assert (N1 : fieldLen cfg FNick = 1 /\ fieldLen cfg FCrc = 1 /\ fieldLen cfg FCtrl = 1) by (repeat split; reflexivity).
  destruct f; unfold writeField, fieldBase;
    unfold ps_writeBootFlag, ps_writeNicknameId, ps_writeCRC, ps_writeCtrl, ps_writeUserId, ps_writeGUID, ps_writeZone, ps_writeSub,
      ps_writeMDev, ps_writeMSub, ps_writeMdf, ps_writeFam, ps_writeType, ps_writeLogId, ps_writeDM, ps_writeDMExt, ps_writeNG, psWriteIdx;
    try (match goal with |- context [i <? ?s] => replace (i <? s) with true by (try (change s with (fieldLen cfg FUser)); lia) end; reflexivity);
    f_equal; try lia.
  - destruct (c_boot cfg) eqn:Q; cbn [fieldLen] in H; rewrite Q in H; lia.
  - cbn [fieldLen] in H. destruct (d_zone_ps cfg); lia.
  - cbn [fieldLen] in H. destruct (d_sub_ps cfg); lia.
  - cbn [fieldLen] in H. destruct (c_logger cfg); lia.
Qed.
Lemma field_write_effect f i v (w : World A) : i < fieldLen cfg f -> v < 256 ->
  effects w (snd (writeField f i v w)) = [OPs (fieldBase cfg f + i) v] /\
  forall g j, j < fieldLen cfg g ->
    stored (snd (writeField f i v w)) g j = if field_eqb f g && (i =? j) then v else stored w g j.
Proof.
  intros Hi Hv. rewrite writeField_eq by exact Hi. unfold psWrite8, emit, bind, upd. cbn [fst snd]. rewrite (u8_small v Hv). split.
  - apply (effects_app _ _ [_]). reflexivity.
  - intros g j Hj. unfold stored. rewrite !readField_eq by exact Hj. wsimp. unfold fupd.
    rewrite N.eqb_sym, field_addr_inj by assumption. reflexivity.
Qed.
Lemma field_index_guard f i v (w : World A) : indexed f = true -> fieldLen cfg f <= i ->
  writeField f i v w = (tt, w) /\ stored w f i = 0.
Proof.
  lenNames cfg. intros HI Hi.
  destruct f; try discriminate HI; unfold stored, writeField, readField;
    unfold ps_readUserId, ps_readGUID, ps_readMDev, ps_readMSub, ps_readMdf, ps_readFam, ps_readType, ps_readDM, ps_readDMExt, ps_readNG, psReadIdx,
      ps_writeUserId, ps_writeGUID, ps_writeMDev, ps_writeMSub, ps_writeMdf, ps_writeFam, ps_writeType, ps_writeDM, ps_writeDMExt, ps_writeNG, psWriteIdx;
    match goal with |- context [i <? ?s] => replace (i <? s) with false by (try (change s with (fieldLen cfg FUser)); lia) end; split; reflexivity.
Qed.
Lemma field_layout : forall f i, i < fieldLen cfg f -> exists a, a < psArea cfg /\
    forall v (w : World A), v < 256 -> effects w (snd (writeField f i v w)) = [OPs a v].
Proof.
  intros f i Hi. exists (fieldBase cfg f + i). split; [rewrite psArea_next; apply field_inside; exact Hi|].
  intros v w Hv. apply field_write_effect; assumption.
Qed.
End P.
