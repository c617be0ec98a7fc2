(* Proof_Serve.v - serving single protocol events *)
From Verif Require Export Proof_Request Proof_DevData.

Section S.
Context {A : Type} {E : Env A}.
Implicit Types w : World A.

Lemma protFrame_mk ty prio nick d : (length d <= 8)%nat -> protFrame (mkTx CLASS_PROTOCOL ty prio nick d) ty prio nick d.
Proof.
  intros H. repeat split; try reflexivity. unfold payload, mkTx. cbn [m_size m_data]. rewrite Nat2N.id. unfold pad8.
  rewrite firstn_app, Nat.sub_diag, firstn_all. cbn [firstn]. apply app_nil_r.
Qed.

(* transmitting changes nothing but the transport layer *)
Definition keeps w w' : Prop := visible w' = visible w /\ w_tm w' = w_tm w /\ w_rx w' = w_rx w /\ w_epoch w' = w_epoch w.
Lemma keeps_refl w : keeps w w. Proof. repeat split. Qed.
Lemma keeps_trans (a b c : World A) : keeps a b -> keeps b c -> keeps a c.
Proof. intros (H1 & H2 & H3 & H4) (K1 & K2 & K3 & K4). repeat split; congruence. Qed.
Lemma keeps_same w w' : keeps w w' -> same w' w.
Proof. intros (H1 & H2 & _). apply same_quick; assumption. Qed.
Lemma keeps_undisturbed w w' : keeps w w' -> undisturbed w w'.
Proof. intros H. apply same_undisturbed; [apply keeps_same; exact H|apply H]. Qed.
Lemma tx_keeps m : rel keeps (@tp_writeMessage A E m).
Proof.
  assert (Rrefl := keeps_refl). assert (Rtrans := keeps_trans).
  assert (S : forall w w', visible w' = visible w -> w_tm w' = w_tm w -> w_rx w' = w_rx w -> w_epoch w' = w_epoch w -> keeps w w') by (intros; repeat split; assumption).
  pose (R := keeps). change (rel R (@tp_writeMessage A E m)).
  change (forall w, R w w) in Rrefl. change (forall a b c, R a b -> R b c -> R a c) in Rtrans.
  change (forall w w', visible w' = visible w -> w_tm w' = w_tm w -> w_rx w' = w_rx w -> w_epoch w' = w_epoch w -> R w w') in S. clearbody R.
  unfold tp_writeMessage, loopWrite, adapterWrite, setUB. rel_tac; try (apply S; reflexivity).
  all: try (intros w; apply S; reflexivity).
  match goal with |- context [?x <? 255] => destruct (x <? 255) end; apply S; reflexivity.
Qed.
Lemma tx_send m w : m_size m <= 8 -> exists ok v, tp_writeMessage m w = (ok, v) /\ w_out v = OTx m ok :: w_out w /\ keeps w v.
Proof.
  intros H. destruct (tx_out m w H) as (ok & H1 & H2). exists ok, (snd (tp_writeMessage m w)). split; [rewrite <- H1; apply surjective_pairing|].
  split; [exact H2|]. apply tx_keeps.
Qed.
Lemma send_prot ty prio d w : (length d <= 8)%nat ->
  exists ok v, sendProt ty prio d w = (ok, v) /\ w_out v = OTx (mkTx CLASS_PROTOCOL ty prio (w_nick w) d) ok :: w_out w /\ keeps w v.
Proof.
  intros H. unfold sendProt. rewrite bind_get. apply tx_send. unfold mkTx. cbn [m_size]. lia.
Qed.

(* from a handler to the process call *)
Lemma served_ids (VE : valid_env E) (P : list Obs -> World A -> Prop) w rd m ty d : request w rd m ty d ->
  (forall w0, same w0 (heard w m) -> map t_id (w_tm w0) = map t_id (w_tm w) -> w_rx w0 = m -> msg_wf m -> m_type m = ty -> payload m = d -> w_nick w0 = w_nick w ->
     exists l w1, P l w1 /\ let v := snd (handleProtocolClassType w0) in
       w_out v = rev l ++ w_out w0 /\ same v w1 /\ (quiet w (after w rd) -> undisturbed w0 v)) ->
  exists l w1, P l w1 /\ served w (after w rd) m l w1.
Proof.
  intros (HR & HO & HA & HT & HC & HTy & HP & HU) HH. destruct (request_served VE w rd m HR HO HA HT HC HU) as (w0 & S0 & RX & WF & TI & rest & H1 & H2).
  assert (NK : w_nick w0 = w_nick w). { destruct S0 as [V _]. unfold visible in V. transitivity (w_nick (heard w m)); [congruence|]. unfold heard. destruct (c_prot_ev cfg); reflexivity. }
  destruct (HH w0 S0 TI RX WF HTy HP NK) as (l & w1 & HQ & O & S1 & HU1). exists l, w1. split; [exact HQ|]. exists rest.
  unfold after in *. rewrite (effects_app w0 _ (rev l) O), rev_involutive in H1. split; [exact H1|]. intros Q.
  destruct (H2 Q) as [G1 G2]; [auto|]. split; [exact G1|]. eapply same_trans; eassumption.
Qed.
Lemma served_by (VE : valid_env E) (P : list Obs -> World A -> Prop) w rd m ty d : request w rd m ty d ->
  (forall w0, same w0 (heard w m) -> w_rx w0 = m -> msg_wf m -> m_type m = ty -> payload m = d -> w_nick w0 = w_nick w ->
     exists l w1, P l w1 /\ let v := snd (handleProtocolClassType w0) in
       w_out v = rev l ++ w_out w0 /\ same v w1 /\ (quiet w (after w rd) -> undisturbed w0 v)) ->
  exists l w1, P l w1 /\ served w (after w rd) m l w1.
Proof. intros HQ HH. apply (served_ids VE P w rd m ty d HQ). intros w0 S0 _. exact (HH w0 S0). Qed.
Lemma payload_byte m x : msg_wf m -> In x (payload m) -> x < 256.
Proof.
  intros (_ & _ & _ & _ & _ & _ & HB) H. unfold payload in H. unfold bytes in HB. rewrite Forall_forall in HB. apply HB.
  rewrite <- (firstn_skipn (N.to_nat (m_size m))). apply in_or_app. left. exact H.
Qed.

(* -- what is the same in the state in which the event is served -- *)
Lemma same_nick w w' : same w w' -> w_nick w = w_nick w'. Proof. intros [V _]. unfold visible in V. congruence. Qed.
Lemma same_st w w' : same w w' -> w_st w = w_st w'. Proof. intros [V _]. unfold visible in V. congruence. Qed.
Lemma same_ps w w' : same w w' -> w_ps w = w_ps w'. Proof. intros [V _]. unfold visible in V. congruence. Qed.
Lemma same_app w w' : same w w' -> w_app w = w_app w'. Proof. intros [V _]. unfold visible in V. congruence. Qed.
Lemma same_page w w' : same w w' -> w_page w = w_page w'. Proof. intros [V _]. unfold visible in V. congruence. Qed.
Lemma same_alarm w w' : same w w' -> w_alarm w = w_alarm w'. Proof. intros [V _]. unfold visible in V. congruence. Qed.
Lemma heard_nick w m : w_nick (heard w m) = w_nick w. Proof. unfold heard. destruct (c_prot_ev cfg); reflexivity. Qed.
Lemma heard_st w m : w_st (heard w m) = w_st w. Proof. unfold heard. destruct (c_prot_ev cfg); reflexivity. Qed.
Lemma heard_ps w m : w_ps (heard w m) = w_ps w. Proof. unfold heard. destruct (c_prot_ev cfg); reflexivity. Qed.
Lemma heard_page w m : w_page (heard w m) = w_page w. Proof. unfold heard. destruct (c_prot_ev cfg); reflexivity. Qed.
Lemma stored_ps w w' f i : w_ps w = w_ps w' -> stored w f i = stored w' f i.
Proof.
  intros H. unfold stored. destruct f; cbn [readField];
    unfold ps_readBootFlag, ps_readNicknameId, ps_readCRC, ps_readCtrl, ps_readUserId, ps_readGUID, ps_readZone, ps_readSub, ps_readMDev, ps_readMSub,
      ps_readMdf, ps_readFam, ps_readType, ps_readLogId, ps_readDM, ps_readDMExt, ps_readNG, psReadIdx, psRead8, get;
    try (cbn [fst]; rewrite H; reflexivity);
    match goal with |- context [if ?b then _ else _] => destruct b end; cbn [fst]; rewrite ?H; reflexivity.
Qed.

(* events for others *)
Lemma forMe_hd m nick : msg_wf m -> hd_error (payload m) <> Some nick -> m_size m = 0 \/ at0 (m_data m) 0 <> nick.
Proof.
  intros (_ & _ & _ & _ & H1 & H2 & _) H. unfold payload in H. unfold at0. destruct (N.eq_dec (m_size m) 0) as [|NZ]; [left; assumption|right].
  destruct (m_data m) as [|x l] eqn:HD; [discriminate|]. destruct (N.to_nat (m_size m)) eqn:HN; [lia|]. cbn [firstn hd_error] in H. cbn [nth N.to_nat]. congruence.
Qed.
Lemma notFor_nothing w0 m : w_rx w0 = m -> msg_wf m -> notFor (w_nick w0) m -> snd (handleProtocolClassType w0) = w0.
Proof.
  intros RX WF H. unfold handleProtocolClassType. rewrite bind_get, RX.
  assert (G : forall P : Prop, (forall (sz : N) (me : bool), m_size m = sz -> (w_nick w0 =? at0 (m_data m) 0) = me -> (sz = 0 \/ me = false) -> P) -> hd_error (payload m) <> Some (w_nick w0) -> P).
  { intros P HP HD. apply (HP _ _ eq_refl eq_refl). destruct (forMe_hd m _ WF HD); [left; assumption|right; lia]. }
  assert (K : forall (c : bool) (sz : N) (me : bool) (q : M A unit), (sz = 0 \/ me = false) -> (c = true -> sz <> 0) -> snd ((when c && me do q) w0) = w0).
  { intros c sz me q [->| ->] HC; [destruct c; [exfalso; apply HC; reflexivity|reflexivity]|rewrite andb_false_r; reflexivity]. }
  destruct H as [[HI HD]|[(HT & H1 & H2)|[[HT HD]|[[HT HD]|HN]]]].
  - cbn [addressed In] in HI. repeat (destruct HI as [HT|HI]; [rewrite <- HT; match goal with |- snd ((if _ then _ else _) _) = _ => idtac end;
      match type of HT with ?n = _ =>
        match n with
        | 6 => change (snd (handleSetNickname w0) = w0); unfold handleSetNickname
        | 8 => change (snd (handleDropNickname w0) = w0); unfold handleDropNickname
        | 9 => change (snd (handleReadRegister w0) = w0); unfold handleReadRegister
        | 11 => change (snd (handleWriteRegister w0) = w0); unfold handleWriteRegister
        | 12 => change (snd (handleEnterBootLoader w0) = w0); unfold handleEnterBootLoader
        | 24 => change (snd (handlePageRead w0) = w0); unfold handlePageRead
        | 25 => change (snd (handlePageWrite w0) = w0); unfold handlePageWrite
        | 29 => change (snd (handleIncDec 1 w0) = w0); unfold handleIncDec
        | 30 => change (snd (handleIncDec 255 w0) = w0); unfold handleIncDec
        | 33 => change (snd (handleGetMatrixInfo w0) = w0); unfold handleGetMatrixInfo
        | 37 => change (snd (handleExtPageRead w0) = w0); unfold handleExtPageRead
        | 38 => change (snd (handleExtPageWrite w0) = w0); unfold handleExtPageWrite
        end end;
      unfold rxSize, rxForMe; rewrite ?bind_get, RX; revert HD; apply (G _); intros sz me HS HM HO;
      try (rewrite HM; apply (K _ sz me); [exact HO|lia])|]); try contradiction HI.
    + (* SET_NICKNAME *)
      unfold rxd. rewrite bind_get. rewrite RX. rewrite ?HS, ?HM. destruct HO as [->| ->]; [reflexivity|rewrite andb_false_r; reflexivity].
  - rewrite HT. change (snd (handleWhoIsThere w0) = w0). unfold handleWhoIsThere, rxSize, rxForMe, rxd. rewrite !bind_get, RX.
    destruct (forMe_hd m _ WF H1) as [Z|Z]; [rewrite Z; reflexivity|]. destruct (forMe_hd m _ WF H2) as [Z2|Z2]; [rewrite Z2; reflexivity|].
    replace (w_nick w0 =? at0 (m_data m) 0) with false by lia. unfold NICK_NOT_INIT. replace (at0 (m_data m) 0 =? 255) with false by lia. rewrite andb_false_r. reflexivity.
  - rewrite HT. change (snd (handleNewNodeOnline w0) = w0). unfold handleNewNodeOnline, rxSize, rxForMe. rewrite !bind_get, RX.
    revert HD. apply (G _). intros sz me HS HM HO. rewrite HS, HM. apply (K _ sz me); [exact HO|lia].
  - rewrite HT. change (snd (handleProbeAck w0) = w0). unfold handleProbeAck, rxSize. rewrite !bind_get, RX.
    replace (w_nick w0 =? m_oaddr m) with false by lia. rewrite andb_false_r. reflexivity.
  - assert (Q : forall n, In n handledTypes -> (m_type m =? n) = false) by (intros n Hn; apply N.eqb_neq; intros EQ; apply HN; rewrite EQ; exact Hn).
    unfold handledTypes, addressed in Q. cbn [app] in Q.
    unfold PT_SEGCTRL_HEARTBEAT, PT_NEW_NODE_ONLINE, PT_PROBE_ACK, PT_SET_NICKNAME, PT_DROP_NICKNAME, PT_READ_REGISTER, PT_WRITE_REGISTER, PT_ENTER_BOOT_LOADER, PT_RESET_DEVICE, PT_PAGE_READ, PT_PAGE_WRITE, PT_INCREMENT_REGISTER, PT_DECREMENT_REGISTER, PT_WHO_IS_THERE, PT_GET_MATRIX_INFO, PT_EXTENDED_PAGE_READ, PT_EXTENDED_PAGE_WRITE.
    rewrite !Q by (cbn [In]; tauto). reflexivity.
Qed.
End S.
