(* Prop_CanArm.v - properties C70, C71: the CAN adapter of the FRDM-K64F example. *)
From Verif Require Import Proof_CanAvr CanArm Spec_CanArm Proof_CanArm.

(* C70: in every history a message without data is sent as the VSCP frame with its identifier, TRUE is
   returned and the receiving mailboxes stay as they are *)
Theorem C70_sends_empty_partial :
  forall ops m, m_prio m < 8 -> m_class m < 512 -> m_type m < 256 -> m_oaddr m < 256 -> m_size m = 0 ->
    let f := snd (fRun flexInit ops) in
    let '(r, f') := armWrite m f in
    r = FOk true /\ f_out f' = f_out f ++ [mkWire true false (armId m) 0 []] /\ f_idx f' = f_idx f /\
    forall i, (i < 15)%nat -> nth i (f_mbs f') mbReset = nth i (f_mbs f) mbReset.
Proof. intros ops m. intros. apply write_empty; auto. apply run_inv. exact init_inv. Qed.
Print Assumptions C70_sends_empty_partial.

(* C70: a message with more than 8 data bytes is refused and nothing is sent *)
Theorem C70_refuses_long :
  forall f m, 8 < m_size m -> armWrite m f = (FOk false, f).
Proof. intros f m H. unfold armWrite. replace (m_size m <=? 8) with false by lia. reflexivity. Qed.
Print Assumptions C70_refuses_long.

(* C70, what is not true: no message with 1 to 8 data bytes can be sent: the test "4 < index" is the wrong
   way round, the first byte is shifted by 48 bits, which is undefined *)
Theorem C70_data_refuted :
  forall f m, 1 <= m_size m <= 8 -> fst (armWrite m f) = FUndef.
Proof.
  intros f m H. unfold armWrite. replace (m_size m <=? 8) with true by lia.
  rewrite shifts_first by lia. reflexivity.
Qed.
Print Assumptions C70_data_refuted.

(* C71: if one mailbox holds a frame without data, at the end of any history, 15 calls of
   vscp_tp_adapter_readMessage return it once *)
Theorem C71_read_within_15_partial :
  forall ops j n, let f := snd (fRun flexInit ops) in
    (j < 14)%nat -> x_flag (nth j (f_mbs f) mbReset) = true -> x_dlc (nth j (f_mbs f) mbReset) = 0 ->
    (forall i, (i < 14)%nat -> i <> j -> x_flag (nth i (f_mbs f) mbReset) = false) ->
    (15 <= n)%nat -> got (fst (fRun f (polls n))) = 1%nat.
Proof.
  intros ops j n f Hj Hf Hd Ho Hn. eapply poll_reach; eauto.
  - apply run_inv. exact init_inv.
  - pose proof (Nat.mod_upper_bound (j + 15 - N.to_nat (f_idx f)) 15 ltac:(lia)). lia.
Qed.
Print Assumptions C71_read_within_15_partial.

(* C71, what is not true: the mailboxes take no frames but those with the identifier 0, because the filter is
   0 and all bits of the mask are set: any other frame leaves the controller as it is *)
Theorem C71_filter_refuted :
  forall ops w, w_ide w = false \/ w_cid w <> 0 ->
    flexRx w (snd (fRun flexInit ops)) = snd (fRun flexInit ops).
Proof. intros ops w Hw. apply rx_other; [|exact Hw]. apply run_inv. exact init_inv. Qed.
Print Assumptions C71_filter_refuted.

(* C71, what is not true: one call does not find the message that is there, because it looks at one mailbox only *)
Theorem C71_one_call_refuted :
  exists ops, let f := snd (fRun flexInit ops) in
    x_flag (nth 0 (f_mbs f) mbReset) = true /\ got (fst (fRun f (polls 14))) = 0%nat /\ got (fst (fRun f (polls 15))) = 1%nat.
Proof. exists [FRead (repeat 0 8); FRx (mkWire true false 0 0 [])]. vm_compute. auto. Qed.
Print Assumptions C71_one_call_refuted.

(* C71, what is not true: a received frame with data cannot be read, the shift is undefined *)
Theorem C71_data_refuted :
  forall w, w_ide w = true -> w_cid w = 0 -> 1 <= w_dlc w ->
    fst (fRun flexInit [FRx w; FRead (repeat 0 8)]) = [ORx; ORead FUndef].
Proof.
  intros w H1 H2 H3. cbn [fRun fStep fst]. unfold flexRx.
  assert (F : findMb (fun mb => mbMatch w mb && mbFree mb) (f_mbs flexInit) 0 = Some 0%nat).
  { change (f_mbs flexInit) with (mbRx :: tl (f_mbs flexInit)). cbn [findMb]. unfold mbMatch. cbn [x_ide x_id mbRx x_code].
    rewrite H1, H2. reflexivity. }
  rewrite F. unfold armRead. change (N.to_nat (f_idx (mkFlex (lupd (f_mbs flexInit) 0 (mbFill RX_FULL w)) (f_idx flexInit) (f_out flexInit)))) with 0%nat.
  change (nth 0 (f_mbs (mkFlex (lupd (f_mbs flexInit) 0 (mbFill RX_FULL w)) (f_idx flexInit) (f_out flexInit))) mbReset) with (mbFill RX_FULL w).
  cbn [x_flag mbFill]. change ((x_code (mbFill RX_FULL w) =? RX_FULL) || (x_code (mbFill RX_FULL w) =? RX_OVERRUN)) with true.
  cbv zeta iota. change (x_dlc (mbFill RX_FULL w)) with (w_dlc w). rewrite shifts_first by assumption. reflexivity.
Qed.
Print Assumptions C71_data_refuted.

(* C71: the identifier of a frame without data is decoded correctly, whichever mailbox it is in; the mailbox is marked as read and looked at again *)
Theorem C71_decode_partial :
  forall old f m, let mb := nth (N.to_nat (f_idx f)) (f_mbs f) mbReset in
    m_prio m < 8 -> m_class m < 512 -> m_type m < 256 -> m_oaddr m < 256 -> f_idx f < 15 -> (N.to_nat (f_idx f) < length (f_mbs f))%nat ->
    x_flag mb = true -> x_code mb = RX_FULL \/ x_code mb = RX_OVERRUN -> x_id mb = armId m -> x_dlc mb = 0 ->
    let '(r, f') := armRead old f in
    r = FOk (Some (mkMsg (m_prio m) (m_class m) (m_type m) (m_oaddr m) (m_hard m) 0 old)) /\ f_idx f' = f_idx f /\ f_out f' = f_out f /\
    x_flag (nth (N.to_nat (f_idx f)) (f_mbs f') mbReset) = false.
Proof.
  intros old f m mb H1 H2 H3 H4 H5 H5' H6 H7 H8 H9. unfold armRead. fold mb. rewrite H6.
  replace ((x_code mb =? RX_FULL) || (x_code mb =? RX_OVERRUN)) with true by (destruct H7 as [-> | ->]; reflexivity).
  rewrite H8, H9. cbn [Nseq N.to_nat seq map shifts forallb fold_left].
  assert (ID : forall b, m_hard m = b -> N.land (N.shiftr (armId m) 26) 7 = m_prio m /\ N.land (N.shiftr (armId m) 16) 511 = m_class m /\
    N.land (N.shiftr (armId m) 8) 255 = m_type m /\ N.land (armId m) 255 = m_oaddr m /\ negb (N.land (N.shiftr (armId m) 25) 1 =? 0) = b).
  { intros b Hb. unfold armId. rewrite Hb. change 7 with (N.ones 3). change 511 with (N.ones 9). change 255 with (N.ones 8). change (N.land ?x 1) with (N.land x (N.ones 1)).
    rewrite !N.shiftr_div_pow2, !N.land_ones. change (2 ^ 26) with 67108864. change (2 ^ 16) with 65536. change (2 ^ 8) with 256. change (2 ^ 25) with 33554432.
    change (2 ^ 3) with 8. change (2 ^ 9) with 512. change (2 ^ 1) with 2.
    destruct b; repeat split; try (apply negb_true_iff, N.eqb_neq); try (apply negb_false_iff, N.eqb_eq); zify; Z.div_mod_to_equations; lia. }
  destruct (ID _ eq_refl) as (I1 & I2 & I3 & I4 & I5). rewrite I1, I2, I3, I4, I5. split; [reflexivity|]. cbn [f_idx f_out f_mbs].
  split; [apply N.mod_small; exact H5|]. split; [reflexivity|]. rewrite Proof_CanAvr.lupd_nth. rewrite Nat.eqb_refl. apply Nat.ltb_lt in H5'. rewrite ?H5'. reflexivity.
Qed.
Print Assumptions C71_decode_partial.

Example C71_decode_example :
  let m := mkMsg 5 300 3 42 true 0 (repeat 0 8) in let f := mkFlex (lupd (f_mbs flexInit) 3 (mkMB RX_FULL true false (armId m) 0 0 0 true false)) 3 [] in
  x_flag (nth 3 (f_mbs f) mbReset) = true /\ x_id (nth 3 (f_mbs f) mbReset) = armId m /\ armId m = 388760362 /\ fst (armRead (repeat 0 8) f) = FOk (Some m).
Proof. vm_compute. auto. Qed.

Example C70_C71_example :
  let m := mkMsg 3 20 3 42 false 0 (repeat 0 8) in
  let '(res, f) := fRun flexInit [FRead (repeat 0 8); FRx (mkWire true false 0 0 []); FWrite m; FRx (mkWire true false 77 2 [1; 2])] in
  res = [ORead (FOk None); ORx; OWrite (FOk true); ORx] /\ f_out f = [mkWire true false 202638122 0 []] /\
  x_flag (nth 0 (f_mbs f) mbReset) = true /\ x_dlc (nth 0 (f_mbs f) mbReset) = 0 /\
  got (fst (fRun f (polls 15))) = 1%nat.
Proof. vm_compute. auto. Qed.
