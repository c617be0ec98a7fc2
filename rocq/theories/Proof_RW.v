(* Proof_RW.v - serving READ_REGISTER, WRITE_REGISTER, INCREMENT_REGISTER and DECREMENT_REGISTER *)
From Verif Require Export Proof_Serve.

Ltac samet S0 := let V := fresh "V" in let T := fresh "T" in pose proof S0 as [V T]; split;
  [unfold visible in *; wsimp; wsimp_in V; congruence | let id := fresh "id" in let Hid := fresh "Hid" in intros id Hid; wsimp; wsimp_in Hid; apply T; exact Hid].

(* the data bytes of a message with a known payload *)
Ltac plat AT k nm := pose proof (AT k ltac:(cbn; lia)) as nm; let n := eval compute in (N.to_nat k) in change (N.to_nat k) with n in nm; cbn [nth] in nm.
Ltac plsize SZ := match type of SZ with _ = N.of_nat (length ?d) => let n := eval compute in (N.of_nat (length d)) in change (N.of_nat (length d)) with n in SZ end.
Ltac pass := match goal with |- context [if ?b then _ else _] => first [replace b with true by (symmetry; lia) | replace b with false by (symmetry; lia)] end.

Section W.
Context {A : Type} {E : Env A}.
Implicit Types w : World A.

Lemma word_msb x : wordMSB x = x / 256 mod 256.
Proof. unfold wordMSB. rewrite Proof_DataCoding.land255, N.shiftr_div_pow2. reflexivity. Qed.
Lemma word_lsb x : wordLSB x = x mod 256.
Proof. unfold wordLSB. apply Proof_DataCoding.land255. Qed.
Lemma host_byte x i : hostByte x i = x / 2 ^ (8 * (if c_le cfg then i else 3 - i)) mod 256.
Proof. unfold hostByte, byteN. rewrite Proof_DataCoding.land255, N.shiftr_div_pow2. reflexivity. Qed.

Lemma guid_state (VE : valid_env E) k w : k < 16 -> dd_getGUID (15 - k) w = (guidByte w k, w).
Proof.
  intros H. unfold guidByte. destruct (d_guid_ps cfg) eqn:H1; [apply getGUID_ps; [lia|assumption]|].
  destruct (d_guid_ext cfg) eqn:H2; [apply getGUID_ext; assumption|]. rewrite (getGUID_flash VE) by (lia || assumption). repeat f_equal. lia.
Qed.
Lemma mdf_state k w : k < 32 -> dd_getMdf k w = (mdfByte w k, w).
Proof.
  intros H. unfold mdfByte. destruct (d_mdf_ps cfg) eqn:H1; [apply getMdf_ps; assumption|apply getMdf_flash; assumption].
Qed.
Lemma mdev_state k w : k < 4 -> dd_getMDev k w = (idByte (d_mdev_ps cfg) w FMDev (d_mdev cfg) k, w).
Proof.
  intros H. unfold dd_getMDev, idByte. destruct (d_mdev_ps cfg); [apply (readField_state FMDev)|].
  replace (k <? 4) with true by lia. rewrite host_byte. reflexivity.
Qed.
Lemma msub_state k w : k < 4 -> dd_getMSub k w = (idByte (d_msub_ps cfg) w FMSub (d_msub cfg) k, w).
Proof.
  intros H. unfold dd_getMSub, idByte. destruct (d_msub_ps cfg); [apply (readField_state FMSub)|].
  replace (k <? 4) with true by lia. rewrite host_byte. reflexivity.
Qed.

Lemma readVscp (VE : valid_env E) a w : 128 <= a -> a < 256 -> ~ (154 <= a <= 161) ->
  readRegister 0 a w = (vscpRegister w a, if a =? 128 then set_alarm 0 w else w).
Proof.
  intros H1 H2 H3. unfold readRegister, readVscpRegister. replace ((0 =? 0) && (128 <=? a) && (a <=? 255)) with true by lia. unfold vscpRegister.
  unfold inRange, REG_ALARM, REG_VERSION_MAJOR, REG_VERSION_MINOR, REG_CTRL, REG_USER, REG_MDEV, REG_MSUB, REG_NICK,
                REG_PAGE_MSB, REG_PAGE_LSB, REG_FW_MAJOR, REG_FW_MINOR, REG_FW_SUB, REG_BOOT_ALG, REG_BUFFER_SIZE, REG_PAGES_USED, REG_FAM, REG_TYPE,
                REG_RESTORE, REG_FWCODE_MSB, REG_FWCODE_LSB, REG_GUID, REG_MDF.
  assert (NA : a <> 128 -> (if a =? 128 then set_alarm 0 w else w) = w) by (intros; replace (a =? 128) with false by lia; reflexivity).
  destruct (N.eqb_spec a 128); [subst a; reflexivity|].
  destruct (N.eqb_spec a 129); [reflexivity|]. destruct (N.eqb_spec a 130); [reflexivity|].
  destruct (N.eqb_spec a 131); [apply (readField_state FCtrl 0)|].
  replace (a <? 132 + 5) with (a <=? 136) by lia. destruct ((132 <=? a) && (a <=? 136)) eqn:C1; [apply (readField_state FUser)|].
  replace (a <? 137 + 4) with (a <=? 140) by lia. destruct ((137 <=? a) && (a <=? 140)) eqn:C2; [apply mdev_state; lia|].
  replace (a <? 141 + 4) with (a <=? 144) by lia. destruct ((141 <=? a) && (a <=? 144)) eqn:C3; [apply msub_state; lia|].
  destruct (N.eqb_spec a 145); [reflexivity|].
  destruct (N.eqb_spec a 146); [unfold get; rewrite word_msb; reflexivity|]. destruct (N.eqb_spec a 147); [unfold get; rewrite word_lsb; reflexivity|].
  destruct (N.eqb_spec a 148); [reflexivity|]. destruct (N.eqb_spec a 149); [reflexivity|]. destruct (N.eqb_spec a 150); [reflexivity|].
  destruct (N.eqb_spec a 151); [destruct (c_boot cfg); reflexivity|]. destruct (N.eqb_spec a 152); [reflexivity|]. destruct (N.eqb_spec a 153); [reflexivity|].
  replace ((154 <=? a) && (a <? 154 + 4)) with false by lia. replace ((158 <=? a) && (a <? 158 + 4)) with false by lia.
  destruct (N.eqb_spec a 162) as [->|]; [reflexivity|].
  destruct (N.eqb_spec a 163); [rewrite word_msb; reflexivity|]. destruct (N.eqb_spec a 164); [rewrite word_lsb; reflexivity|].
  replace (a <? 208 + 16) with (a <=? 223) by lia. destruct ((208 <=? a) && (a <=? 223)) eqn:C4; [apply (guid_state VE); lia|].
  replace ((224 <=? a) && (a <? 224 + 32)) with (224 <=? a) by lia. destruct (224 <=? a) eqn:C5; [apply mdf_state; lia|]. reflexivity.
Qed.
Lemma vscp_same w w' a : same w w' -> vscpRegister w a = vscpRegister w' a.
Proof.
  intros S. unfold vscpRegister, guidByte, mdfByte, idByte. rewrite (same_alarm _ _ S), (same_nick _ _ S), (same_page _ _ S), (same_app _ _ S).
  rewrite !(stored_ps w w') by (apply same_ps; exact S). reflexivity.
Qed.

(* READ_REGISTER in the state w0 *)
Lemma read_handler w0 m a : w_rx w0 = m -> msg_wf m -> m_type m = 9 -> payload m = [w_nick w0; a] ->
  let v := snd (readRegister 0 a w0) in
  exists ok, w_out (snd (handleProtocolClassType w0)) = OTx (mkTx CLASS_PROTOCOL PT_RW_RESPONSE PRIO_3_NORMAL (w_nick v) [a; fst (readRegister 0 a w0)]) ok :: w_out v /\
    keeps v (snd (handleProtocolClassType w0)).
Proof.
  intros RX WF HT HP v. destruct (payload_at m _ WF HP) as [SZ AT]. plat AT 0 A0. plat AT 1 A1. plsize SZ.
  destruct (send_prot PT_RW_RESPONSE PRIO_3_NORMAL [a; fst (readRegister 0 a w0)] v) as (ok & u & H1 & H2 & H3); [cbn; lia|].
  exists ok. assert (EQ : snd (handleProtocolClassType w0) = u).
  { unfold handleProtocolClassType. rewrite bind_get, RX, HT. change (snd (handleReadRegister w0) = u).
    unfold handleReadRegister, rxSize, rxForMe, rxd. rewrite !bind_get, RX, SZ, A0. pass. rewrite bind_get, RX, A1.
    unfold sendRWRsp. change (snd ((sendProt PT_RW_RESPONSE PRIO_3_NORMAL [a; fst (readRegister 0 a w0)];; ret tt) v) = u).
    unfold bind. rewrite H1. reflexivity. }
  rewrite EQ. split; assumption.
Qed.

(* WRITE_REGISTER in the state w0; err: not accepted *)
Definition answered (a : N) (r : (N * bool) * World A) (u : World A) : Prop :=
  if snd (fst r) then u = snd r
  else exists ok, w_out u = OTx (mkTx CLASS_PROTOCOL PT_RW_RESPONSE PRIO_3_NORMAL (w_nick (snd r)) [a; fst (fst r)]) ok :: w_out (snd r) /\ keeps (snd r) u.
Lemma answer_eq a r w : answered a (r, w) (snd ((when negb (snd r) do sendRWRsp a (fst r)) w)).
Proof.
  unfold answered. destruct (snd r) eqn:HE; cbn [fst snd negb]; rewrite HE; [reflexivity|].
  destruct (send_prot PT_RW_RESPONSE PRIO_3_NORMAL [a; fst r] w) as (ok & u & H1 & H2 & H3); [cbn; lia|].
  exists ok. unfold sendRWRsp. assert (EQ : snd ((sendProt PT_RW_RESPONSE PRIO_3_NORMAL [a; fst r];; ret tt) w) = u) by (unfold bind; rewrite H1; reflexivity).
  rewrite EQ. split; assumption.
Qed.
Lemma write_handler w0 m a v : w_rx w0 = m -> msg_wf m -> m_type m = 11 -> payload m = [w_nick w0; a; v] ->
  answered a (writeRegister 0 a v w0) (snd (handleProtocolClassType w0)).
Proof.
  intros RX WF HT HP. destruct (payload_at m _ WF HP) as [SZ AT]. plat AT 0 A0. plat AT 1 A1. plat AT 2 A2. plsize SZ.
  assert (EQ : snd (handleProtocolClassType w0) = snd ((when negb (snd (fst (writeRegister 0 a v w0))) do sendRWRsp a (fst (fst (writeRegister 0 a v w0)))) (snd (writeRegister 0 a v w0)))).
  { unfold handleProtocolClassType. rewrite bind_get, RX, HT.
    match goal with |- _ = ?x => change (snd (handleWriteRegister w0) = x) end.
    unfold handleWriteRegister, rxSize, rxForMe, rxd. rewrite !bind_get, RX, SZ, A0. pass. rewrite !bind_get, RX, A1, A2. reflexivity. }
  rewrite EQ, (surjective_pairing (writeRegister 0 a v w0)) at 1. apply answer_eq.
Qed.
Lemma incdec_handler w0 m a (up : bool) : w_rx w0 = m -> msg_wf m -> m_type m = (if up then 29 else 30) -> payload m = [w_nick w0; a] ->
  let r := readRegister 0 a w0 in
  answered a (writeRegister 0 a ((fst r + (if up then 1 else 255)) mod 256) (snd r)) (snd (handleProtocolClassType w0)).
Proof.
  intros RX WF HT HP. destruct (payload_at m _ WF HP) as [SZ AT]. plat AT 0 A0. plat AT 1 A1. plsize SZ. cbv zeta.
  set (v := (fst (readRegister 0 a w0) + (if up then 1 else 255)) mod 256). set (u := snd (readRegister 0 a w0)).
  assert (EQ : snd (handleProtocolClassType w0) = snd ((when negb (snd (fst (writeRegister 0 a v u))) do sendRWRsp a (fst (fst (writeRegister 0 a v u)))) (snd (writeRegister 0 a v u)))).
  { unfold handleProtocolClassType. rewrite bind_get, RX, HT. destruct up.
    - match goal with |- _ = ?x => change (snd (handleIncDec 1 w0) = x) end.
      unfold handleIncDec, rxSize, rxForMe, rxd. rewrite !bind_get, RX, SZ, A0. pass. rewrite !bind_get, RX, A1. reflexivity.
    - match goal with |- _ = ?x => change (snd (handleIncDec 255 w0) = x) end.
      unfold handleIncDec, rxSize, rxForMe, rxd. rewrite !bind_get, RX, SZ, A0. pass. rewrite !bind_get, RX, A1. reflexivity. }
  rewrite EQ, (surjective_pairing (writeRegister 0 a v u)) at 1. apply answer_eq.
Qed.

(* -- writing -- *)
Lemma effects_out w w' l : ext w w' -> effects w w' = l -> w_out w' = rev l ++ w_out w.
Proof. intros [d D] H. rewrite (effects_app w w' d D) in H. rewrite <- H, rev_involutive. exact D. Qed.
Lemma out_prefix {T} (a b c : list T) : a ++ c = b ++ c -> a = b. Proof. apply app_inv_tail. Qed.
Lemma onlyMemory_fields w w1 : onlyMemory w w1 -> w1 = set_out (w_out w1) (set_ps (w_ps w1) w).
Proof. intros H. unfold onlyMemory in H. rewrite <- H. destruct w1. reflexivity. Qed.
Lemma stores_same w0 H f k v w1 : same w0 H -> stores w0 f k v w1 ->
  stores H f k v (set_ps (w_ps w1) H) /\ same w1 (set_ps (w_ps w1) H).
Proof.
  intros S [H1 H2]. split.
  - split; [unfold onlyMemory; destruct H; reflexivity|]. intros g j Hj. rewrite (stored_ps _ w1) by reflexivity. rewrite H2 by exact Hj.
    rewrite (stored_ps w0 H) by (apply same_ps; exact S). reflexivity.
  - rewrite (onlyMemory_fields _ _ H1). samet S.
Qed.
Lemma page_msb p v : p < 65536 -> v < 256 -> N.lor (N.land p 255) (N.shiftl v 8) = 256 * v + p mod 256.
Proof. intros. rewrite N.lor_comm, Proof_DataCoding.land255, be2 by lia. reflexivity. Qed.
Lemma page_lsb p v : p < 65536 -> v < 256 -> N.lor (N.land p 65280) v = 256 * (p / 256) + v.
Proof.
  intros. replace (N.land p 65280) with (N.shiftl (p / 256) 8); [apply be2; assumption|].
  change 256 with (2 ^ 8). rewrite <- N.shiftr_div_pow2. apply N.bits_inj. intros i.
  change 65280 with (N.shiftl (N.ones 8) 8). rewrite N.land_spec. destruct (N.lt_ge_cases i 8) as [L|L].
  - rewrite !N.shiftl_spec_low by exact L. rewrite andb_false_r. reflexivity.
  - rewrite !N.shiftl_spec_high' by exact L. rewrite N.shiftr_spec'. replace (i - 8 + 8) with i by lia.
    destruct (N.lt_ge_cases (i - 8) 8) as [L2|L2]; [rewrite N.ones_spec_low by exact L2; rewrite andb_true_r; reflexivity|].
    rewrite N.ones_spec_high by exact L2. rewrite andb_false_r. symmetry.
    destruct (N.eq_dec p 0) as [->|NZ]; [rewrite N.bits_0; reflexivity|].
    rewrite N.bits_above_log2; [reflexivity|]. apply N.log2_lt_pow2; [lia|]. apply N.lt_le_trans with (2 ^ 16); [assumption|]. apply N.pow_le_mono_r; lia.
Qed.
Lemma cell_write f k v w : (f = FCtrl /\ k = 0 \/ f = FUser /\ k < 5) -> v < 256 ->
  let r := (writeField f k v ;; x <- readField f k ;; ret (x, false)) w in
  fst r = (v, false) /\ stores w f k v (snd r) /\ exists x, w_out (snd r) = OPs x v :: w_out w.
Proof.
  intros HF Hv r. assert (HL : k < fieldLen cfg f) by (destruct HF as [[-> ->]|[-> ?]]; cbn [fieldLen]; lia).
  destruct (write_read f k v w (writeField f k v ;; readField f k) HL Hv eq_refl) as (G1 & G2 & [x G3] & G4).
  assert (R1 : fst r = (fst ((writeField f k v;; readField f k) w), false)) by reflexivity.
  assert (R2 : snd r = snd ((writeField f k v;; readField f k) w)) by reflexivity.
  rewrite R1, R2, G1. split; [reflexivity|]. split; [split; assumption|]. exists x. apply (effects_out _ _ [OPs x v]); [|exact G3].
  unfold bind. rewrite readField_state. cbn [snd]. rewrite (writeField_eq f k v w HL). exists [OPs (fieldBase cfg f + k) (u8 v)]. reflexivity.
Qed.
(* writing a writable register of page 0 *)
Lemma write_reg a v w0 H : same w0 H -> w_page H < 65536 -> v < 256 -> a < 256 -> writableReg H a ->
  exists l w1, wrote H a v l w1 /\ fst (writeRegister 0 a v w0) = (v, false) /\ w_out (snd (writeRegister 0 a v w0)) = rev l ++ w_out w0 /\
    same (snd (writeRegister 0 a v w0)) w1 /\ undisturbed w0 (snd (writeRegister 0 a v w0)) /\ w_nick (snd (writeRegister 0 a v w0)) = w_nick w0.
Proof.
  intros S HPg Hv Ha HW. pose proof (same_page _ _ S) as SP.
  assert (ST : forall f k w1, stores w0 f k v w1 -> undisturbed w0 w1 /\ w_nick w1 = w_nick w0).
  { intros f k w1 [M _]. rewrite (onlyMemory_fields _ _ M). split; [repeat split; auto|reflexivity]. }
  destruct HW as [->|[->|(f & k & HC)]].
  - exists [], (set_page (256 * v + w_page H mod 256) H). split; [left; auto|].
    assert (EQ : writeRegister 0 146 v w0 = ((v, false), set_page (256 * v + w_page H mod 256) w0)).
    { change (writeRegister 0 146 v w0) with ((wordMSB (N.lor (N.land (w_page w0) 255) (N.shiftl v 8)), false), set_page (N.lor (N.land (w_page w0) 255) (N.shiftl v 8)) w0).
      rewrite SP, page_msb by assumption. rewrite word_msb. repeat f_equal. lia. }
    rewrite EQ. cbn [fst snd]. split; [reflexivity|]. split; [reflexivity|]. split; [samet S|]. split; [repeat split; auto|reflexivity].
  - exists [], (set_page (256 * (w_page H / 256) + v) H). split; [right; left; auto|].
    assert (EQ : writeRegister 0 147 v w0 = ((v, false), set_page (256 * (w_page H / 256) + v) w0)).
    { change (writeRegister 0 147 v w0) with ((wordLSB (N.lor (N.land (w_page w0) 65280) v), false), set_page (N.lor (N.land (w_page w0) 65280) v) w0).
      rewrite SP, page_lsb by assumption. rewrite word_lsb. repeat f_equal. lia. }
    rewrite EQ. cbn [fst snd]. split; [reflexivity|]. split; [reflexivity|]. split; [samet S|]. split; [repeat split; auto|reflexivity].
  - assert (W0 : forall x, w_out (snd (writeRegister 0 a v w0)) = OPs x v :: w_out w0 -> fst (writeRegister 0 a v w0) = (v, false) -> stores w0 f k v (snd (writeRegister 0 a v w0)) ->
       exists l w1, wrote H a v l w1 /\ fst (writeRegister 0 a v w0) = (v, false) /\ w_out (snd (writeRegister 0 a v w0)) = rev l ++ w_out w0 /\
       same (snd (writeRegister 0 a v w0)) w1 /\ undisturbed w0 (snd (writeRegister 0 a v w0)) /\ w_nick (snd (writeRegister 0 a v w0)) = w_nick w0).
    { intros x O1 F1 S1. destruct (stores_same _ H _ _ _ _ S S1) as [G1 G2]. destruct (ST _ _ _ S1) as [U1 U2].
      exists [OPs x v], (set_ps (w_ps (snd (writeRegister 0 a v w0))) H). split; [right; right; exists f, k, x; auto|]. auto. }
    destruct HC as [(-> & -> & ->)|[(HA & -> & ->)|(HA & HFl & HK & HI & HWr)]].
    + destruct (cell_write FCtrl 0 v w0) as (G1 & G2 & x & G3); [left; auto|assumption|]. apply (W0 x G3 G1 G2).
    + destruct (cell_write FUser (a - 132) v w0) as (G1 & G2 & x & G3); [right; split; [reflexivity|lia]|assumption|].
      assert (EQ : writeRegister 0 a v w0 = (writeField FUser (a - 132) v ;; x <- readField FUser (a - 132) ;; ret (x, false)) w0).
      { unfold writeRegister, writeVscpRegister. replace ((0 =? 0) && (128 <=? a) && (a <=? 255)) with true by lia. unfold REG_CTRL, inRange, REG_USER.
        replace (a =? 131) with false by lia. replace ((132 <=? a) && (a <? 132 + 5)) with true by lia. reflexivity. }
      rewrite <- EQ in G1, G2, G3. apply (W0 x G3 G1 G2).
    + destruct (HI w0) as [_ HI2]. destruct (HI2 v Hv) as (G1 & G2 & [x G3] & G4).
      { unfold writable in *. rewrite (stored_ps w0 H) by (apply same_ps; exact S). exact HWr. }
      apply (W0 x); [|exact G1|split; assumption]. apply (effects_out _ _ [OPs x v]); [|exact G3].
      destruct ext_all as (_ & _ & _ & _ & _ & _ & XW & _). apply XW.
Qed.
(* all other VSCP registers refuse *)
Lemma write_readonly a v w : 128 <= a -> a < 256 -> ~ (131 <= a <= 136) -> a <> 146 -> a <> 147 -> a <> 162 -> writeRegister 0 a v w = ((0, true), w).
Proof.
  intros. unfold writeRegister, writeVscpRegister. replace ((0 =? 0) && (128 <=? a) && (a <=? 255)) with true by lia. unfold inRange, REG_CTRL, REG_USER, REG_PAGE_MSB, REG_PAGE_LSB, REG_RESTORE.
  replace (a =? 131) with false by lia. replace ((132 <=? a) && (a <? 132 + 5)) with false by lia.
  replace (a =? 146) with false by lia. replace (a =? 147) with false by lia. replace (a =? 162) with false by lia. reflexivity.
Qed.
Lemma write_protected p a v w : ~ (p = 0 /\ 128 <= a) -> a < 256 -> ~ writable w -> writeRegister p a v w = ((0, true), w).
Proof.
  intros HP Ha HW. unfold writeRegister. replace ((p =? 0) && (128 <=? a) && (a <=? 255)) with false by lia.
  destruct (ctrl_bit w) as [H1 H2]. unfold writable in HW. destruct (N.testbit (stored w FCtrl 0) 5); [contradiction HW; reflexivity|].
  unfold bind at 1. rewrite H1, H2. reflexivity.
Qed.
(* the other VSCP registers keep their values *)
Lemma wrote_regs H a v l w1 b : wrote H a v l w1 -> v < 256 -> w_page H < 65536 -> 128 <= b -> b < 256 -> ~ (154 <= b <= 161) ->
  vscpRegister w1 b = if b =? a then v else vscpRegister H b.
Proof.
  intros HW Hv HPg H1 H2 H3. destruct HW as [(-> & -> & ->)|[(-> & -> & ->)|(f & k & x & HC & -> & HS & HF)]].
  - unfold vscpRegister, guidByte, mdfByte, idByte. rewrite !(stored_ps (set_page _ H) H) by reflexivity. wsimp.
    destruct (N.eqb_spec b 146) as [->|]; [cbn [N.eqb Pos.eqb andb N.leb N.compare Pos.compare Pos.compare_cont]; lia|]. 
    destruct (N.eqb_spec b 147) as [->|]; [cbn [N.eqb Pos.eqb andb N.leb N.compare Pos.compare Pos.compare_cont]; lia|]. reflexivity.
  - unfold vscpRegister, guidByte, mdfByte, idByte. rewrite !(stored_ps (set_page _ H) H) by reflexivity. wsimp.
    destruct (N.eqb_spec b 146) as [->|]; [cbn [N.eqb Pos.eqb andb N.leb N.compare Pos.compare Pos.compare_cont]; lia|]. 
    destruct (N.eqb_spec b 147) as [->|]; [cbn [N.eqb Pos.eqb andb N.leb N.compare Pos.compare Pos.compare_cont]; lia|]. reflexivity.
  - pose proof (onlyMemory_fields _ _ HS) as HM.
    assert (E1 : w_alarm w1 = w_alarm H) by (rewrite HM; reflexivity). assert (E2 : w_nick w1 = w_nick H) by (rewrite HM; reflexivity).
    assert (E3 : w_page w1 = w_page H) by (rewrite HM; reflexivity). assert (E4 : w_app w1 = w_app H) by (rewrite HM; reflexivity).
    unfold vscpRegister, guidByte, mdfByte, idByte. rewrite E1, E2, E3, E4.
    assert (NO : forall g j, In g [FGuid; FMdf; FMDev; FMSub] -> stored w1 g j = stored H g j \/ fieldLen cfg g <= j).
    { intros g j HG. destruct (N.lt_ge_cases j (fieldLen cfg g)) as [L|L]; [left|right; exact L]. rewrite HF by exact L.
      replace (field_eqb f g) with false; [reflexivity|]. symmetry.
      destruct HC as [(-> & -> & ->)|[(HA & -> & ->)|(HA & HFl & HK & HI & HWr)]]; cbn [In] in *; [| |destruct HFl as [<-|[<-|[<-|[]]]]];
        destruct HG as [<-|[<-|[<-|[<-|[]]]]]; reflexivity. }
    assert (NG : forall g j, In g [FGuid; FMdf; FMDev; FMSub] -> j < fieldLen cfg g -> stored w1 g j = stored H g j).
    { intros g j HG HJ. destruct (NO g j HG); [assumption|lia]. }
    assert (HB : (b =? a) = field_eqb f (if b =? 131 then FCtrl else FUser) && (k =? (if b =? 131 then 0 else b - 132)) && ((131 <=? b) && (b <=? 136))).
    { destruct HC as [(-> & -> & ->)|[(HA & -> & ->)|(HA & HFl & HK & HI & HWr)]].
      - destruct (N.eqb_spec b 131); cbn [field_eqb andb]; [subst; reflexivity|]. lia.
      - destruct (N.eqb_spec b 131); cbn [field_eqb andb]; lia.
      - cbn [In] in HFl. destruct HFl as [<-|[<-|[<-|[]]]]; destruct (b =? 131); cbn [field_eqb andb]; lia. }
    rewrite HB. 
    destruct (N.eqb_spec b 128); [subst b; rewrite andb_false_r; reflexivity|]. destruct (N.eqb_spec b 129); [subst b; rewrite andb_false_r; reflexivity|].
    destruct (N.eqb_spec b 130); [subst b; rewrite andb_false_r; reflexivity|].
    destruct (N.eqb_spec b 131); [subst b; rewrite HF by (cbn [fieldLen]; lia); rewrite andb_true_r; reflexivity|].
    destruct ((132 <=? b) && (b <=? 136)) eqn:C1.
    { replace ((131 <=? b) && (b <=? 136)) with true by lia. rewrite andb_true_r. apply HF. cbn [fieldLen]. lia. }
    replace ((131 <=? b) && (b <=? 136)) with false by lia. rewrite andb_false_r. cbv iota.
    destruct ((137 <=? b) && (b <=? 140)) eqn:C2.
    { destruct (d_mdev_ps cfg) eqn:D; [|reflexivity]. apply NG; [cbn [In]; tauto|]. cbn [fieldLen]. rewrite D. lia. }
    destruct ((141 <=? b) && (b <=? 144)) eqn:C3.
    { destruct (d_msub_ps cfg) eqn:D; [|reflexivity]. apply NG; [cbn [In]; tauto|]. cbn [fieldLen]. rewrite D. lia. }
    repeat match goal with |- (if ?c =? ?d then _ else _) = _ => destruct (c =? d) eqn:?; [reflexivity|] end.
    destruct ((208 <=? b) && (b <=? 223)) eqn:C4.
    { destruct (d_guid_ps cfg) eqn:D; [|reflexivity]. apply NG; [cbn [In]; tauto|]. cbn [fieldLen]. rewrite D. lia. }
    destruct (224 <=? b) eqn:C5; [|reflexivity]. destruct (d_mdf_ps cfg) eqn:D; [|reflexivity]. apply NG; [cbn [In]; tauto|]. cbn [fieldLen]. rewrite D. lia.
Qed.
End W.
