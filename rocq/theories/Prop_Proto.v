(* Prop_Proto.v - properties C46, C47, C52, C53, C54 and C57: protocol events for an active node that are not about registers. *)
From Verif Require Import Spec_Proto Proof_Proto FixtureReq.

(* C46: a probe for the node's own nickname is answered by a PROBE_ACK. (Probes for other nicknames: C32_other_nodes.) *)
Theorem C46_probe_answered :
  forall A (E : Env A), valid_env E -> forall w rd m,
    request w rd m 2 [w_nick w] ->
    exists f ok, protFrame f 3 0 (w_nick w) [] /\ served w (after w rd) m [OTx f ok] (heard w m).
Proof.
  intros A E VE w rd m HQ. apply (one_frame VE w rd m 2 _ 3 0 [] HQ); [cbn; lia|]. intros w0 S0 RX SZ AT NK HT.
  plat AT 0 A0. plsize SZ. rewrite (hpct_2 _ HT). unfold handleNewNodeOnline, rxSize, rxForMe. rewrite !bind_get, RX, SZ, A0, NK. pass. apply then_ret.
Qed.
Print Assumptions C46_probe_answered.

(* C46: when another node acknowledges the node's nickname, the node gives it up, persistently, and discovers a new one *)
Theorem C46_conflict_restarts_discovery :
  forall A (E : Env A), valid_env E -> forall w rd m,
    request w rd m 3 [] -> m_oaddr m = w_nick w ->
    exists x w1, stores (discovering (heard w m)) FNick 0 255 w1 /\ served w (after w rd) m [OLamp LampBlinkFast; OPs x 255] w1.
Proof.
  intros A E VE w rd m HQ HO. set (H := heard w m).
  destruct (known_state VE w rd m 3 _ (fun l w1 => l = [OLamp LampBlinkFast; OPs (ps_nick cfg) 255] /\ stores (discovering H) FNick 0 255 w1) HQ)
    as (l & w1 & (-> & HS) & HV); [|exists (ps_nick cfg), w1; split; assumption].
  intros w0 S0 RX WF SZ AT NK HT ST. plsize SZ. fold H in S0. eexists. eexists. split; [split; [reflexivity|]; apply stores_nick; lia|].
  assert (EQ : snd (handleProtocolClassType w0) = snd (changeToStateInit true w0)).
  { rewrite (hpct_3 _ HT). unfold handleProbeAck, rxSize. rewrite !bind_get, RX, SZ, HO, NK. pass. reflexivity. }
  cbv zeta. rewrite EQ, toInit_state by (rewrite ST; discriminate). split; [reflexivity|]. split.
  - rewrite (same_ps _ _ S0). unfold discovering. samet S0.
  - intros _. repeat split; auto.
Qed.
Print Assumptions C46_conflict_restarts_discovery.

Example C46_example :
  let E := exEnv (exCfg oDm) in
  let w := exNode oDm [] in let m := exReq 2 [5] in let m2 := exMsg 0 3 5 [] in
  valid_env E /\ request w (Some m) m 2 [w_nick w] /\ request w (Some m2) m2 3 [] /\ m_oaddr m2 = w_nick w /\
  map (fun f => (m_type (fst f), m_prio (fst f), m_oaddr (fst f), payload (fst f))) (frames (effects w (after w (Some m)))) = [(3, 0, 5, [])] /\
  (let w' := after w (Some m2) in w_st w' = INIT /\ w_nick w' = 255 /\ stored w' FNick 0 = 255 /\ quiet w w').
Proof. cbv zeta. split; [exvalid|]. split; [exreq|]. split; [exreq|]. vmc. Qed.

(* C47: the addressed node takes the new nickname, persistently, and confirms it from there.
   0 is not accepted. (0xFF is: see the refutation. Events for other nodes: C32_other_nodes.) *)
Theorem C47_set_nickname_partial :
  forall A (E : Env A), valid_env E -> forall w rd m new,
    request w rd m 6 [w_nick w; new] ->
    if new =? 0 then served w (after w rd) m [] (heard w m)
    else exists x f ok w1, protFrame f 7 7 new [] /\ stores (set_nick new (heard w m)) FNick 0 new w1 /\
           served w (after w rd) m [OPs x new; OTx f ok] w1.
Proof.
  intros A E VE w rd m new HQ. set (H := heard w m). assert (GS : forall w0, same w0 H -> w_rx w0 = m -> m_size m = 2 -> at0 (m_data m) 0 = w_nick w -> at0 (m_data m) 1 = new -> w_nick w0 = w_nick w -> m_type (w_rx w0) = 6 ->
    handleProtocolClassType w0 = (when negb (new =? 0) do (writeNicknameId new ;; sendProt PT_NICKNAME_ACCEPTED PRIO_7_LOW [] ;; ret tt)) w0).
  { intros w0 S0 RX SZ A0 A1 NK HT. rewrite (hpct_6 _ HT). unfold handleSetNickname, rxSize, rxForMe, rxd. rewrite !bind_get, RX, SZ, A0, A1, NK.
    unfold NICK_SEGMENT_MASTER. rewrite (N.eqb_refl (w_nick w)). reflexivity. }
  destruct (new =? 0) eqn:HN.
  - destruct (known_state VE w rd m 6 _ (fun l w1 => l = [] /\ w1 = H) HQ) as (l & w1 & (-> & ->) & HV); [|exact HV].
    intros w0 S0 RX WF SZ AT NK HT ST. fold H in S0. plat AT 0 A0. plat AT 1 A1. plsize SZ. exists [], H. split; [split; reflexivity|]. cbv zeta.
    rewrite (GS w0 S0 RX SZ A0 A1 NK HT). cbn [negb ret snd]. split; [reflexivity|]. split; [exact S0|]. intros _. apply undisturbed_refl.
  - destruct (known_state VE w rd m 6 _ (fun l w1 => exists f ok, l = [OPs (ps_nick cfg) new; OTx f ok] /\ protFrame f 7 7 new [] /\ stores (set_nick new H) FNick 0 new w1) HQ)
      as (l & w1 & (f & ok & -> & PF & HS) & HV); [|exists (ps_nick cfg), f, ok, w1; auto].
    intros w0 S0 RX WF SZ AT NK HT ST. fold H in S0. plat AT 0 A0. plat AT 1 A1. plsize SZ.
    assert (HB : new < 256) by (destruct WF as (_ & _ & _ & _ & W1 & W2 & HB); rewrite <- A1; unfold at0; apply (Forall_nth (fun x => x < 256)); [exact HB|rewrite W2; cbn; lia]).
    set (u := snd (writeNicknameId new w0)). destruct (send_prot PT_NICKNAME_ACCEPTED PRIO_7_LOW [] u) as (ok & v & G1 & G2 & G3); [cbn; lia|].
    assert (EQ : snd (handleProtocolClassType w0) = v).
    { rewrite (GS w0 S0 RX SZ A0 A1 NK HT). cbn [negb]. change (snd ((sendProt PT_NICKNAME_ACCEPTED PRIO_7_LOW [];; ret tt) u) = v). rewrite then_ret, G1. reflexivity. }
    assert (UE : u = set_nick new (set_out (OPs (ps_nick cfg) new :: w_out w0) (set_ps (fupd (w_ps w0) (ps_nick cfg) new) w0))) by (apply writeNick_state; exact HB).
    assert (NU : w_nick u = new) by (rewrite UE; reflexivity). rewrite NU in G2. eexists. eexists. split; [exists (mkTx CLASS_PROTOCOL 7 7 new []), ok; split; [reflexivity|]; split; [apply protFrame_mk; cbn; lia|apply stores_nick; exact HB]|].
    cbv zeta. rewrite EQ, G2. split; [rewrite UE; reflexivity|]. split.
    + apply (same_trans _ _ _ (keeps_same _ _ G3)). rewrite UE, (same_ps _ _ S0). samet S0.
    + intros _. apply (undisturbed_trans w0 u); [|apply keeps_undisturbed; exact G3]. rewrite UE. repeat split; auto.
Qed.
Print Assumptions C47_set_nickname_partial.

(* C47: events with another number of data bytes are ignored *)
Theorem C47_size_checked :
  forall A (E : Env A), valid_env E -> forall w rd m data,
    request w rd m 6 data -> length data <> 2%nat -> served w (after w rd) m [] (heard w m).
Proof.
  intros A E VE w rd m data HQ HL. set (H := heard w m).
  destruct (known_state VE w rd m 6 _ (fun l w1 => l = [] /\ w1 = H) HQ) as (l & w1 & (-> & ->) & HV); [|exact HV].
  intros w0 S0 RX WF SZ AT NK HT ST. exists [], H. split; [split; reflexivity|]. cbv zeta.
  assert (EQ : snd (handleProtocolClassType w0) = w0).
  { rewrite (hpct_6 _ HT). unfold handleSetNickname, rxSize, rxForMe, rxd. rewrite !bind_get, RX, SZ. replace (N.of_nat (length data) =? 2) with false by lia. reflexivity. }
  rewrite EQ. split; [reflexivity|]. split; [exact S0|]. intros _. apply undisturbed_refl.
Qed.
Print Assumptions C47_size_checked.

Example C47_example :
  let E := exEnv (exCfg oDm) in
  let w := exNode oDm [] in let m := exReq 6 [5; 17] in let w' := after w (Some m) in
  valid_env E /\ request w (Some m) m 6 [w_nick w; 17] /\ w_nick w' = 17 /\ stored w' FNick 0 = 17 /\ w_st w' = ACTIVE /\ quiet w w' /\
  map (fun f => (m_type (fst f), m_prio (fst f), m_oaddr (fst f), payload (fst f))) (frames (effects w w')) = [(7, 7, 17, [])].
Proof. cbv zeta. split; [exvalid|]. split; [exreq|]. vmc. Qed.

(* C47 is false for the unassigned address 0xFF: the node accepts it and remains active without a nickname *)
Theorem C47_unassigned_refuted :
  exists (E : Env Regs), valid_env E /\ exists w m, request w (Some m) m 6 [w_nick w; 255] /\
    w_nick (after w (Some m)) = 255 /\ isActive (after w (Some m)) = true /\
    map (fun f => (m_type (fst f), m_oaddr (fst f))) (frames (effects w (after w (Some m)))) = [(7, 255)].
Proof.
  pose (E := exEnv (exCfg oDm)). exists E. split; [exvalid|]. exists (exNode oDm []), (exReq 6 [5; 255]). split; [exreq|]. vmc.
Qed.
Print Assumptions C47_unassigned_refuted.

(* C52: the boot loader is requested, with the boot flag set and the node idle, if everything matches *)
Theorem C52_boot_loader :
  forall A (E : Env A), valid_env E -> forall w rd m alg g0 g3 g5 g7 pmsb plsb,
    request w rd m 12 [w_nick w; alg; g0; g3; g5; g7; pmsb; plsb] -> bootMatch (heard w m) alg g0 g3 g5 g7 pmsb plsb ->
    exists x w1, stores (set_st IDLE (heard w m)) FBoot 0 187 w1 /\
      served w (after w rd) m ([OLamp LampOff] ++ (if c_idle_co cfg then [OIdle] else []) ++ [OPs x 187; OBootRequest]) w1.
Proof.
  intros A E VE w rd m alg g0 g3 g5 g7 pmsb plsb HQ (B0 & B1 & B2 & B3 & B4 & B5 & B6 & B7). set (H := heard w m) in *.
  destruct (known_state VE w rd m 12 _ (fun l w1 => l = [OLamp LampOff] ++ (if c_idle_co cfg then [OIdle] else []) ++ [OPs ps_boot 187; OBootRequest] /\ stores (set_st IDLE H) FBoot 0 187 w1) HQ)
    as (l & w1 & (-> & HS) & HV); [|exists ps_boot, w1; split; assumption].
  intros w0 S0 RX WF SZ AT NK HT ST. plsize SZ. fold H in S0. plat AT 0 A0. plat AT 1 A1. plat AT 2 A2. plat AT 3 A3. plat AT 4 A4. plat AT 5 A5. plat AT 6 A6. plat AT 7 A7.
  eexists. eexists. split; [split; [reflexivity|]; apply stores_boot; [exact B0|lia]|].
  assert (HB : pmsb < 256 /\ plsb < 256).
  { destruct WF as (_ & _ & _ & _ & W1 & W2 & HB). rewrite <- A6, <- A7. unfold at0. split; apply (Forall_nth (fun x => x < 256)); try exact HB; rewrite W2; cbn; lia. }
  assert (EQ : snd (handleProtocolClassType w0) = snd ((changeToStateIdle ;; ps_writeBootFlag BOOT_FLAG_BOOTLOADER ;; emit OBootRequest) w0)).
  { rewrite (hpct_12 _ HT). unfold handleEnterBootLoader, rxSize, rxForMe, rxd. rewrite !bind_get, RX, SZ, A0, NK. pass. rewrite B0. rewrite !bind_get, RX, A1, A2, A3, A4, A5, A6, A7.
    change 12 with (15 - 3). change 10 with (15 - 5). change 8 with (15 - 7). change 15 with (15 - 0) at 1.
    rewrite (bind_val _ _ _ _ _ (guid_state VE 0 w0 ltac:(lia))). rewrite (bind_val _ _ _ _ _ (guid_state VE 3 w0 ltac:(lia))). rewrite (bind_val _ _ _ _ _ (guid_state VE 5 w0 ltac:(lia))). rewrite (bind_val _ _ _ _ _ (guid_state VE 7 w0 ltac:(lia))). rewrite bind_get.
    assert (GB : forall k, guidByte w0 k = guidByte H k) by (intros k; unfold guidByte; rewrite (same_app _ _ S0), (stored_ps w0 H) by (apply same_ps; exact S0); reflexivity).
    rewrite !GB, <- B3, <- B4, <- B5, <- B6, (same_page _ _ S0), B7, (same_app _ _ S0). fold (u8 (app_boot_alg (w_app H))) in B1. rewrite <- B1. unfold mkWord. rewrite be2 by lia.
    rewrite !N.eqb_refl. replace (alg =? 255) with false by lia. reflexivity. }
  cbv zeta. rewrite EQ. clear EQ.
  assert (EQ : snd ((changeToStateIdle ;; ps_writeBootFlag BOOT_FLAG_BOOTLOADER ;; emit OBootRequest) w0) =
    set_out (OBootRequest :: OPs ps_boot 187 :: (if c_idle_co cfg then [OIdle] else []) ++ OLamp LampOff :: w_out w0) (set_ps (fupd (w_ps w0) ps_boot 187) (set_st IDLE w0))).
  { unfold changeToStateIdle. rewrite bind_assoc, bind_get, ST. cbn [state_eqb negb]. destruct (c_idle_co cfg); destruct w0; reflexivity. }
  rewrite EQ. split; [|split].
  - wsimp. destruct (c_idle_co cfg); reflexivity.
  - rewrite (same_ps _ _ S0). samet S0.
  - intros _. repeat split; auto.
Qed.
Print Assumptions C52_boot_loader.

(* C52: otherwise the node answers NACK and keeps running unchanged *)
Theorem C52_rejected :
  forall A (E : Env A), valid_env E -> forall w rd m alg g0 g3 g5 g7 pmsb plsb,
    request w rd m 12 [w_nick w; alg; g0; g3; g5; g7; pmsb; plsb] -> ~ bootMatch (heard w m) alg g0 g3 g5 g7 pmsb plsb ->
    exists f ok, protFrame f 14 3 (w_nick w) [0] /\ served w (after w rd) m [OTx f ok] (heard w m).
Proof.
  intros A E VE w rd m alg g0 g3 g5 g7 pmsb plsb HQ HN. set (H := heard w m) in *.
  assert (WF : msg_wf m). { destruct HQ as (HR & HO & HA & HT & _). apply (received_wf VE rd w m HR HO). apply received_taken. exact HT. }
  apply (one_frame VE w rd m 12 _ 14 3 [0] HQ); [cbn; lia|]. intros w0 S0 RX SZ AT NK HT. fold H in S0.
  plsize SZ. plat AT 0 A0. plat AT 1 A1. plat AT 2 A2. plat AT 3 A3. plat AT 4 A4. plat AT 5 A5. plat AT 6 A6. plat AT 7 A7.
  assert (HB : pmsb < 256 /\ plsb < 256).
  { destruct WF as (_ & _ & _ & _ & W1 & W2 & HB). rewrite <- A6, <- A7. unfold at0. split; apply (Forall_nth (fun x => x < 256)); try exact HB; rewrite W2; cbn; lia. }
  rewrite (hpct_12 _ HT). unfold handleEnterBootLoader, rxSize, rxForMe, rxd. rewrite !bind_get, RX, SZ, A0, NK. pass.
  destruct (c_boot cfg) eqn:B0; [|apply then_ret]. rewrite !bind_get, RX, A1, A2, A3, A4, A5, A6, A7.
  change 12 with (15 - 3). change 10 with (15 - 5). change 8 with (15 - 7). change 15 with (15 - 0) at 1.
  rewrite (bind_val _ _ _ _ _ (guid_state VE 0 w0 ltac:(lia))). rewrite (bind_val _ _ _ _ _ (guid_state VE 3 w0 ltac:(lia))). rewrite (bind_val _ _ _ _ _ (guid_state VE 5 w0 ltac:(lia))). rewrite (bind_val _ _ _ _ _ (guid_state VE 7 w0 ltac:(lia))). rewrite bind_get.
  assert (GB : forall k, guidByte w0 k = guidByte H k) by (intros k; unfold guidByte; rewrite (same_app _ _ S0), (stored_ps w0 H) by (apply same_ps; exact S0); reflexivity).
  rewrite !GB, (same_page _ _ S0), (same_app _ _ S0). unfold mkWord. rewrite be2 by lia. unfold bootMatch in HN. unfold u8.
  match goal with |- context [if ?b then _ else _] => destruct b eqn:C end; [apply then_ret|]. exfalso. apply HN. split; [exact B0|]. rewrite !orb_false_iff, !negb_false_iff, !N.eqb_eq, N.eqb_neq in C. intuition congruence.
Qed.
Print Assumptions C52_rejected.

Example C52_example :
  let E := exEnv (exCfg oFull) in
  let w := exNode oFull [] in let m := exReq 12 [5; 1; 0; 0; 0; 0; 0; 0] in let m2 := exReq 12 [5; 1; 0; 0; 0; 0; 0; 1] in
  let w' := after w (Some m) in
  valid_env E /\ request w (Some m) m 12 [w_nick w; 1; 0; 0; 0; 0; 0; 0] /\ request w (Some m2) m2 12 [w_nick w; 1; 0; 0; 0; 0; 0; 1] /\
  bootMatch (heard w m) 1 0 0 0 0 0 0 /\ ~ bootMatch (heard w m2) 1 0 0 0 0 0 1 /\ quiet w w' /\ In OBootRequest (effects w w') /\ stored w' FBoot 0 = 187 /\ w_st w' = IDLE /\
  map (fun f => (m_type (fst f), payload (fst f))) (frames (effects w (after w (Some m2)))) = [(14, [0])].
Proof.
  cbv zeta. split; [exvalid|]. split; [exreq|]. split; [exreq|]. split; [vm_compute; repeat split; discriminate|]. split; [intros (_ & _ & _ & _ & _ & _ & _ & HX); vm_compute in HX; discriminate|].
  split; [vmc|]. split; [vm_compute; tauto|]. vmc.
Qed.

(* C54 *)
Theorem C54_matrix_info :
  forall A (E : Env A), valid_env E -> forall w rd m,
    request w rd m 33 [w_nick w] ->
    exists f ok, protFrame f 34 3 (w_nick w) (matrixInfo cfg) /\ served w (after w rd) m [OTx f ok] (heard w m).
Proof.
  intros A E VE w rd m HQ. apply (one_frame VE w rd m 33 _ 34 3 (matrixInfo cfg) HQ); [unfold matrixInfo; destruct (c_dm cfg); cbn; lia|]. intros w0 S0 RX SZ AT NK HT.
  plat AT 0 A0. plsize SZ. rewrite (hpct_33 _ HT). unfold handleGetMatrixInfo, rxSize, rxForMe. rewrite !bind_get, RX, SZ, A0, NK. pass. cbv zeta.
  rewrite then_ret. f_equal. apply (f_equal (fun d => sendProt 34 3 d w0)). unfold matrixInfo, dm_START_OFFSET, dm_START_PAGE, DM_PAGED_INDEX, u8, u16.
  pose proof (ve_cfg E VE) as VC. pose proof (v_dm_rows _ VC). pose proof (v_dm_off _ VC). pose proof (v_dm_page _ VC).
  destruct (c_dm cfg) eqn:C; [|reflexivity]. rewrite word_msb, word_lsb. destruct (c_dm_paged cfg); (apply f_equal2; [lia|]); (apply f_equal2; [lia|]); (apply f_equal2; [lia|]); (apply f_equal2; [lia|]); reflexivity.
Qed.
Print Assumptions C54_matrix_info.

Example C54_example :
  let E := exEnv (exCfg oDm) in
  let w := exNode oDm [] in let m := exReq 33 [5] in
  valid_env E /\ request w (Some m) m 33 [w_nick w] /\ matrixInfo cfg = [4; 0; 0; 1] /\
  map (fun f => (m_type (fst f), payload (fst f))) (frames (effects w (after w (Some m)))) = [(34, [4; 0; 0; 1])].
Proof. cbv zeta. split; [exvalid|]. split; [exreq|]. vmc. Qed.

(* C53: seven frames with the indices 0 to 6; behind the indices they carry GUID, MDF URL and a zero byte *)
Theorem C53_who_is_there :
  forall A (E : Env A), valid_env E -> forall w rd m d0,
    request w rd m 31 [d0] -> d0 = w_nick w \/ d0 = 255 ->
    exists fs : list (Msg * bool), length fs = 7%nat /\
      (forall i f ok, nth_error fs i = Some (f, ok) -> protFrame f 32 3 (w_nick w) (whoPayload (heard w m) i)) /\
      served w (after w rd) m (map (fun p => OTx (fst p) (snd p)) fs) (heard w m).
Proof.
  intros A E VE w rd m d0 HQ HD. set (H := heard w m).
  destruct (known_state VE w rd m 31 _ (fun l w1 => exists fs : list (Msg * bool), length fs = 7%nat /\
      (forall i f ok, nth_error fs i = Some (f, ok) -> protFrame f 32 3 (w_nick w) (whoPayload H i)) /\ l = map (fun p => OTx (fst p) (snd p)) fs /\ w1 = H) HQ)
    as (l & w1 & (fs & L & HF & -> & ->) & HV); [|exists fs; auto].
  intros w0 S0 RX WF SZ AT NK HT ST. fold H in S0. plsize SZ. plat AT 0 A0.
  assert (IE : identity w0 = identity H).
  { unfold identity. f_equal; [|f_equal]; apply map_ext; intros k; unfold guidByte, mdfByte; rewrite ?(same_app _ _ S0), (stored_ps w0 H) by (apply same_ps; exact S0); reflexivity. }
  destruct (who_frames VE w0) as (fs & L & HF & HO & HK). rewrite NK in HF.
  exists (map (fun p => OTx (fst p) (snd p)) fs), H. split; [exists fs; split; [exact L|]; split; [|auto]|].
  - intros i f ok HN. unfold whoPayload. rewrite <- IE. apply (HF i f ok HN).
  - cbv zeta. assert (EQ : snd (handleProtocolClassType w0) = snd (whoAll w0)).
    { rewrite (hpct_31 _ HT). unfold handleWhoIsThere, rxSize, rxForMe, rxd. rewrite !bind_get, RX, SZ, A0, NK. unfold NICK_NOT_INIT. pass. reflexivity. }
    rewrite EQ. split; [exact HO|]. split; [exact (same_trans _ _ _ (keeps_same _ _ HK) S0)|]. intros _. apply keeps_undisturbed. exact HK.
Qed.
Print Assumptions C53_who_is_there.

Example C53_example :
  let E := exEnv (exCfg oExt) in
  let w := exNode oExt [] in let m := exReq 31 [255] in
  valid_env E /\ request w (Some m) m 31 [255] /\ quiet w (after w (Some m)) /\
  map (fun f => payload (fst f)) (frames (effects w (after w (Some m)))) =
    [[0;1;2;3;4;5;6;7]; [1;8;9;10;11;12;13;14]; [2;15;16;119;119;119;46;120]; [3;0;0;0;0;0;0;0]; [4;0;0;0;0;0;0;0]; [5;0;0;0;0;0;0;0]; [6;0;0;0;0;0;0;0]].
Proof. cbv zeta. split; [exvalid|]. split; [exreq|]. vmc. Qed.

(* C57: a segment controller heartbeat with the stored CRC restarts nothing *)
Theorem C57_same_segment :
  forall A (E : Env A), valid_env E -> forall w rd m crc rest,
    c_hb_seg cfg = true -> request w rd m 1 (crc :: rest) -> stored w FCrc 0 = crc ->
    served w (after w rd) m (timeNotice (crc :: rest)) (heard w m).
Proof.
  intros A E VE w rd m crc rest HS HQ HC. set (H := heard w m).
  destruct (served_by VE (fun l w1 => l = timeNotice (crc :: rest) /\ w1 = H) w rd m 1 _ HQ) as (l & w1 & (-> & ->) & HV); [|exact HV].
  intros w0 S0 RX WF HT HP NK. fold H in S0. destruct (payload_at m _ WF HP) as [SZ AT]. pose proof (AT 0 ltac:(cbn [length]; lia)) as A0. cbn [nth N.to_nat] in A0.
  exists (timeNotice (crc :: rest)), H. split; [split; reflexivity|]. cbv zeta.
  assert (EQ : snd (handleProtocolClassType w0) = snd (timePart (N.of_nat (length (crc :: rest))) w0)).
  { rewrite (hb_split w0 m crc rest RX HT HS SZ A0). replace (stored w0 FCrc 0) with crc; [rewrite N.eqb_refl; reflexivity|].
    rewrite (stored_ps w0 H) by (apply same_ps; exact S0). unfold H. rewrite heard_stored. symmetry. exact HC. }
  rewrite EQ.
  destruct (time_part w0 m _ RX WF HP) as (G1 & G2 & G3). split; [exact G1|]. split; [exact (same_trans _ _ _ G2 S0)|]. intros _. exact G3.
Qed.
Print Assumptions C57_same_segment.

(* C57: with another CRC, this CRC is stored and the discovery is restarted. w_probe: the last nickname that the node
   has probed for (0xFF after power up); the restriction is necessary, see below *)
Theorem C57_segment_change_partial :
  forall A (E : Env A), valid_env E -> forall w rd m crc rest,
    c_hb_seg cfg = true -> request w rd m 1 (crc :: rest) -> stored w FCrc 0 <> crc -> w_probe w <> 0 ->
    exists x y w1 w2, stores (heard w m) FCrc 0 crc w1 /\ stores (discovering w1) FNick 0 255 w2 /\
      served w (after w rd) m ([OPs x crc; OLamp LampBlinkFast; OPs y 255] ++ timeNotice (crc :: rest)) w2.
Proof.
  intros A E VE w rd m crc rest HS HQ HC HPr. set (H := heard w m).
  destruct (served_by VE (fun l w2 => l = [OPs (ps_crc cfg) crc; OLamp LampBlinkFast; OPs (ps_nick cfg) 255] ++ timeNotice (crc :: rest) /\ exists w1, stores H FCrc 0 crc w1 /\ stores (discovering w1) FNick 0 255 w2) w rd m 1 _ HQ)
    as (l & w2 & (-> & w1 & HX & HY) & HV); [|exists (ps_crc cfg), (ps_nick cfg), w1, w2; auto].
  intros w0 S0 RX WF HT HP NK. fold H in S0. destruct (payload_at m _ WF HP) as [SZ AT]. pose proof (AT 0 ltac:(cbn [length]; lia)) as A0. cbn [nth N.to_nat] in A0.
  assert (HB : crc < 256) by (apply (payload_byte m); [exact WF|rewrite HP; left; reflexivity]).
  assert (P0 : w_probe w0 = w_probe w). { destruct S0 as [V _]. unfold visible in V. transitivity (w_probe H); [congruence|]. unfold H, heard. destruct (c_prot_ev cfg); reflexivity. }
  assert (ST : w_st w0 = ACTIVE). { rewrite (same_st _ _ S0). unfold H. rewrite heard_st. destruct HQ as (_ & _ & HA & _). unfold isActive in HA. destruct (w_st w); try discriminate HA; reflexivity. }
  eexists. eexists. split; [split; [reflexivity|]; eexists; split; [apply stores_crc; exact HB|apply stores_nick; lia]|].
  cbv zeta. rewrite (hb_split w0 m crc rest RX HT HS SZ A0). replace (stored w0 FCrc 0 =? crc) with false by (rewrite (stored_ps w0 H) by (apply same_ps; exact S0); unfold H; rewrite heard_stored; lia).
  cbn [negb]. set (u := snd (bind _ _ w0)).
  assert (UE : u = set_out (OPs (ps_nick cfg) 255 :: OLamp LampBlinkFast :: OPs (ps_crc cfg) crc :: w_out w0) (set_ps (fupd (fupd (w_ps w0) (ps_crc cfg) crc) (ps_nick cfg) 255) (discovering w0))).
  { unfold u. rewrite (bind_val _ _ w0 tt (snd (ps_writeCRC crc w0))) by reflexivity. rewrite crc_state by exact HB. rewrite bind_get. wsimp. rewrite P0. unfold NICK_SEGMENT_MASTER. replace (w_probe w =? 0) with false by lia. cbn [negb].
    rewrite toInit_state by (wsimp; rewrite ST; discriminate). wsimp. destruct w0; reflexivity. }
  assert (RU : w_rx u = m) by (rewrite UE; exact RX). destruct (time_part u m _ RU WF HP) as (G1 & G2 & G3). split; [rewrite G1, rev_app_distr, <- app_assoc; rewrite UE; reflexivity|].
  split; [apply (same_trans _ _ _ G2); rewrite UE, (same_ps _ _ S0); unfold discovering; samet S0|]. intros _. apply (undisturbed_trans w0 u); [|exact G3]. rewrite UE. repeat split; auto.
Qed.
Print Assumptions C57_segment_change_partial.

(* C57: a node whose last probe was for the segment controller only stores the CRC *)
Theorem C57_crc_stored :
  forall A (E : Env A), valid_env E -> forall w rd m crc rest,
    c_hb_seg cfg = true -> request w rd m 1 (crc :: rest) -> stored w FCrc 0 <> crc -> w_probe w = 0 ->
    exists x w1, stores (heard w m) FCrc 0 crc w1 /\ served w (after w rd) m ([OPs x crc] ++ timeNotice (crc :: rest)) w1.
Proof.
  intros A E VE w rd m crc rest HS HQ HC HPr. set (H := heard w m).
  destruct (served_by VE (fun l w1 => l = [OPs (ps_crc cfg) crc] ++ timeNotice (crc :: rest) /\ stores H FCrc 0 crc w1) w rd m 1 _ HQ)
    as (l & w1 & (-> & HX) & HV); [|exists (ps_crc cfg), w1; auto].
  intros w0 S0 RX WF HT HP NK. fold H in S0. destruct (payload_at m _ WF HP) as [SZ AT]. pose proof (AT 0 ltac:(cbn [length]; lia)) as A0. cbn [nth N.to_nat] in A0.
  assert (HB : crc < 256) by (apply (payload_byte m); [exact WF|rewrite HP; left; reflexivity]).
  assert (P0 : w_probe w0 = 0). { rewrite <- HPr. destruct S0 as [V _]. unfold visible in V. transitivity (w_probe H); [congruence|]. unfold H, heard. destruct (c_prot_ev cfg); reflexivity. }
  eexists. eexists. split; [split; [reflexivity|]; apply stores_crc; exact HB|].
  cbv zeta. rewrite (hb_split w0 m crc rest RX HT HS SZ A0). replace (stored w0 FCrc 0 =? crc) with false by (rewrite (stored_ps w0 H) by (apply same_ps; exact S0); unfold H; rewrite heard_stored; lia).
  cbn [negb]. set (u := snd (bind _ _ w0)).
  assert (UE : u = set_out (OPs (ps_crc cfg) crc :: w_out w0) (set_ps (fupd (w_ps w0) (ps_crc cfg) crc) w0)).
  { unfold u. rewrite (bind_val _ _ w0 tt (snd (ps_writeCRC crc w0))) by reflexivity. rewrite crc_state by exact HB. rewrite bind_get. wsimp. rewrite P0. reflexivity. }
  assert (RU : w_rx u = m) by (rewrite UE; exact RX). destruct (time_part u m _ RU WF HP) as (G1 & G2 & G3). split; [rewrite G1, rev_app_distr, <- app_assoc; rewrite UE; reflexivity|].
  split; [apply (same_trans _ _ _ G2); rewrite UE, (same_ps _ _ S0); samet S0|]. intros _. apply (undisturbed_trans w0 u); [|exact G3]. rewrite UE. repeat split; auto.
Qed.
Print Assumptions C57_crc_stored.

(* a node with nickname 20 that a segment controller has assigned *)
Definition exAssigned {E : Env Regs} : World Regs :=
  run [EOp (OpProcess None); EOp (OpProcess None); EOp (OpProcess (Some (exMsg 0 3 0 []))); EOp (OpProcess (Some (exMsg 0 6 0 [255; 20])))]
    (powerUp (exPs (exCfg oDm) 255) regs0 []).
Example C57_example :
  let E := exEnv (exCfg oDm) in
  let w := exNode oDm [] in let m := exReq 1 [7; 1; 0; 0; 2] in let w' := after w (Some m) in let m2 := exReq 1 [0; 1; 0; 0; 2] in let v := exAssigned in
  valid_env E /\ c_hb_seg cfg = true /\ request w (Some m) m 1 [7; 1; 0; 0; 2] /\ stored w FCrc 0 <> 7 /\ w_probe w <> 0 /\
  stored w' FCrc 0 = 7 /\ w_st w' = INIT /\ In (OTime 16777218) (effects w w') /\
  request w (Some m2) m2 1 [0; 1; 0; 0; 2] /\ stored w FCrc 0 = 0 /\ w_st (after w (Some m2)) = ACTIVE /\
  request v (Some m) m 1 [7; 1; 0; 0; 2] /\ stored v FCrc 0 <> 7 /\ w_probe v = 0.
Proof.
  cbv zeta. split; [exvalid|]. split; [reflexivity|]. split; [exreq|]. split; [vm_compute; discriminate|]. split; [vm_compute; discriminate|]. split; [vmc|]. split; [vmc|]. split; [vm_compute; tauto|].
  split; [exreq|]. split; [vmc|]. split; [vmc|]. split; [exreq|]. split; [vm_compute; discriminate|vmc].
Qed.

(* C57 is false for a node whose nickname was assigned by a segment controller: it stays active with its nickname on the
   new segment *)
Theorem C57_assigned_nickname_refuted :
  exists (E : Env Regs), valid_env E /\ c_hb_seg cfg = true /\ exists w m, request w (Some m) m 1 [7] /\ stored w FCrc 0 <> 7 /\
    stored (after w (Some m)) FCrc 0 = 7 /\ isActive (after w (Some m)) = true /\ w_nick (after w (Some m)) = 20.
Proof.
  pose (E := exEnv (exCfg oDm)). exists E. split; [exvalid|]. split; [reflexivity|]. exists exAssigned, (exReq 1 [7]). split; [exreq|]. split; [vm_compute; discriminate|]. vmc.
Qed.
Print Assumptions C57_assigned_nickname_refuted.
