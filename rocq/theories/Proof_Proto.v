(* Proof_Proto.v - serving protocol events that are not about registers *)
From Verif Require Export Spec_Proto Proof_Init Proof_RW.

Section P.
Context {A : Type} {E : Env A}.
Implicit Types w : World A.

Ltac handler RX HT h := unfold handleProtocolClassType; rewrite bind_get, RX, HT;
  match goal with |- snd (?x ?w) = ?y => change (snd (h w) = y) | |- context [snd ((if _ then _ else _) ?w)] => idtac end.

Lemma hpct_2 w : m_type (w_rx w) = 2 -> handleProtocolClassType w = handleNewNodeOnline w.
Proof. intros H. unfold handleProtocolClassType. rewrite bind_get, H. reflexivity. Qed.
Lemma hpct_1 w : m_type (w_rx w) = 1 -> handleProtocolClassType w = (when c_hb_seg cfg do handleHeartbeat) w.
Proof. intros H. unfold handleProtocolClassType. rewrite bind_get, H. reflexivity. Qed.
Lemma hpct_3 w : m_type (w_rx w) = 3 -> handleProtocolClassType w = handleProbeAck w.
Proof. intros H. unfold handleProtocolClassType. rewrite bind_get, H. reflexivity. Qed.
Lemma hpct_6 w : m_type (w_rx w) = 6 -> handleProtocolClassType w = handleSetNickname w.
Proof. intros H. unfold handleProtocolClassType. rewrite bind_get, H. reflexivity. Qed.
Lemma hpct_8 w : m_type (w_rx w) = 8 -> handleProtocolClassType w = handleDropNickname w.
Proof. intros H. unfold handleProtocolClassType. rewrite bind_get, H. reflexivity. Qed.
Lemma hpct_12 w : m_type (w_rx w) = 12 -> handleProtocolClassType w = handleEnterBootLoader w.
Proof. intros H. unfold handleProtocolClassType. rewrite bind_get, H. reflexivity. Qed.
Lemma hpct_31 w : m_type (w_rx w) = 31 -> handleProtocolClassType w = handleWhoIsThere w.
Proof. intros H. unfold handleProtocolClassType. rewrite bind_get, H. reflexivity. Qed.
Lemma hpct_33 w : m_type (w_rx w) = 33 -> handleProtocolClassType w = handleGetMatrixInfo w.
Proof. intros H. unfold handleProtocolClassType. rewrite bind_get, H. reflexivity. Qed.

(* a handler that only sends one frame *)
Lemma one_frame (VE : valid_env E) w rd m ty d ty' prio d' : request w rd m ty d -> (length d' <= 8)%nat ->
  (forall w0, same w0 (heard w m) -> w_rx w0 = m -> m_size m = N.of_nat (length d) ->
     (forall i, i < N.of_nat (length d) -> at0 (m_data m) i = nth (N.to_nat i) d 0) -> w_nick w0 = w_nick w -> m_type (w_rx w0) = ty ->
     snd (handleProtocolClassType w0) = snd (sendProt ty' prio d' w0)) ->
  exists f ok, protFrame f ty' prio (w_nick w) d' /\ served w (after w rd) m [OTx f ok] (heard w m).
Proof.
  intros HQ HL HH. set (H := heard w m) in *.
  destruct (served_by VE (fun l w1 => exists f ok, l = [OTx f ok] /\ protFrame f ty' prio (w_nick w) d' /\ w1 = H) w rd m ty d HQ)
    as (l & w1 & (f & ok & -> & PF & ->) & HS); [|exists f, ok; split; assumption].
  intros w0 S0 RX WF HT HP NK. fold H in S0. destruct (payload_at m _ WF HP) as [SZ AT].
  rewrite (HH w0 S0 RX SZ AT NK ltac:(rewrite RX; exact HT)).
  destruct (send_prot ty' prio d' w0 HL) as (ok & v & H1 & H2 & H3). rewrite H1. cbn [snd]. rewrite NK in H2.
  eexists. exists H. split; [|split; [rewrite H2|split]].
  - eexists. exists ok. split; [reflexivity|]. split; [|reflexivity]. apply protFrame_mk. exact HL.
  - reflexivity.
  - apply (same_trans _ _ _ (keeps_same _ _ H3)). exact S0.
  - intros _. apply keeps_undisturbed. exact H3.
Qed.
Lemma bind_val {T U} (q : M A T) (k : T -> M A U) w v w' : q w = (v, w') -> bind q k w = k v w'.
Proof. intros H. unfold bind. rewrite H. reflexivity. Qed.
Lemma then_ret {T} (q : M A T) w : snd ((q ;; ret tt) w) = snd (q w). Proof. reflexivity. Qed.

(* restarting the discovery *)
Lemma toInit_state w : w_st w <> INIT ->
  snd (changeToStateInit true w) =
  set_out (OPs (ps_nick cfg) 255 :: OLamp LampBlinkFast :: w_out w) (set_ps (fupd (w_ps w) (ps_nick cfg) 255) (discovering w)).
Proof.
  intros H. unfold changeToStateInit. rewrite bind_get. replace (negb (state_eqb (w_st w) INIT)) with true by (destruct (w_st w); try reflexivity; contradiction H; reflexivity).
  cbv iota. rewrite bind_emit. cbn [negb]. cbv iota. rewrite bind_upd, bind_assoc, bind_upd, bind_upd.
  rewrite writeNick_state by (unfold NICK_NOT_INIT; lia). destruct w; reflexivity.
Qed.
Lemma stores_nick w v : v < 256 -> stores w FNick 0 v (set_ps (fupd (w_ps w) (ps_nick cfg) v) w).
Proof.
  intros Hv. destruct (field_write_effect FNick 0 v w ltac:(cbn [fieldLen]; lia) Hv) as (_ & H2). split; [unfold onlyMemory; destruct w; reflexivity|].
  intros g j Hj. rewrite <- (H2 g j Hj). apply stored_ps. cbn [writeField]. unfold ps_writeNicknameId, psWrite8, emit, bind, upd. cbn [snd]. wsimp. rewrite (u8_small v Hv). reflexivity.
Qed.
Lemma stores_boot w v : c_boot cfg = true -> v < 256 -> stores w FBoot 0 v (set_ps (fupd (w_ps w) ps_boot v) w).
Proof.
  intros HB Hv. destruct (field_write_effect FBoot 0 v w ltac:(cbn [fieldLen]; rewrite HB; lia) Hv) as (_ & H2). split; [unfold onlyMemory; destruct w; reflexivity|].
  intros g j Hj. rewrite <- (H2 g j Hj). apply stored_ps. cbn [writeField]. unfold ps_writeBootFlag, psWrite8, emit, bind, upd. cbn [snd]. wsimp. rewrite (u8_small v Hv). reflexivity.
Qed.
Lemma stores_crc w v : v < 256 -> stores w FCrc 0 v (set_ps (fupd (w_ps w) (ps_crc cfg) v) w).
Proof.
  intros Hv. destruct (field_write_effect FCrc 0 v w ltac:(cbn [fieldLen]; lia) Hv) as (_ & H2). split; [unfold onlyMemory; destruct w; reflexivity|].
  intros g j Hj. rewrite <- (H2 g j Hj). apply stored_ps. cbn [writeField]. unfold ps_writeCRC, psWrite8, emit, bind, upd. cbn [snd]. wsimp. rewrite (u8_small v Hv). reflexivity.
Qed.

(* a handler that runs from w0 to a known state *)
Lemma known_state (VE : valid_env E) w rd m ty d (P : list Obs -> World A -> Prop) : request w rd m ty d ->
  (forall w0, same w0 (heard w m) -> w_rx w0 = m -> msg_wf m -> m_size m = N.of_nat (length d) ->
     (forall i, i < N.of_nat (length d) -> at0 (m_data m) i = nth (N.to_nat i) d 0) -> w_nick w0 = w_nick w -> m_type (w_rx w0) = ty -> w_st w0 = ACTIVE ->
     exists l w1, P l w1 /\ let v := snd (handleProtocolClassType w0) in w_out v = rev l ++ w_out w0 /\ same v w1 /\ (quiet w (after w rd) -> undisturbed w0 v)) ->
  exists l w1, P l w1 /\ served w (after w rd) m l w1.
Proof.
  intros HQ HH. apply (served_by VE P w rd m ty d HQ). intros w0 S0 RX WF HT HP NK. destruct (payload_at m _ WF HP) as [SZ AT].
  apply HH; try assumption; [rewrite RX; exact HT|]. rewrite (same_st _ _ S0), heard_st. destruct HQ as (_ & _ & HA & _). unfold isActive in HA. destruct (w_st w); try discriminate HA; reflexivity.
Qed.

(* -- WHO_IS_THERE -- *)
Lemma F2_length {X Y} (R : X -> Y -> Prop) l l' : Forall2 R l l' -> length l = length l'.
Proof. induction 1; cbn [length]; congruence. Qed.
Lemma F2_firstn {X Y} (R : X -> Y -> Prop) n l l' : Forall2 R l l' -> Forall2 R (firstn n l) (firstn n l').
Proof. intros H. revert n. induction H; intros [|n]; cbn [firstn]; constructor; auto. Qed.
Lemma F2_skipn {X Y} (R : X -> Y -> Prop) n l l' : Forall2 R l l' -> Forall2 R (skipn n l) (skipn n l').
Proof. intros H. revert n. induction H; intros [|n]; cbn [skipn]; auto. Qed.
Lemma skip_skip {X} (l : list X) a b : skipn a (skipn b l) = skipn (b + a) l.
Proof. revert l. induction b as [|b IH]; intros l; [reflexivity|]. destruct l; cbn [skipn Nat.add]; [apply skipn_nil|apply IH]. Qed.
Definition rdOk w0 (r : M A N) (v : N) : Prop := forall w, keeps w0 w -> r w = (v, w).
Definition whoFrame nick (row : nat) (d : list N) : Msg := mkTx CLASS_PROTOCOL PT_WHO_IS_THERE_RESPONSE PRIO_3_NORMAL nick (N.of_nat row :: d).
Lemma who_part w0 rs vs nick row : Forall2 (rdOk w0) rs vs -> forall d w, keeps w0 w -> (length d + length vs < 8)%nat -> whoLoop rs nick row d w = (d ++ vs, w).
Proof.
  induction 1 as [|r v rs vs HR HF IH]; intros d w HK HL; [rewrite app_nil_r; reflexivity|]. cbn [whoLoop length] in *.
  unfold bind at 1. rewrite (HR w HK). unfold push, bind at 1, L1_DATA_SIZE. replace (N.of_nat (length d) <? 8) with true by lia. unfold ret. cbn [fst snd].
  rewrite app_length. cbn [length]. replace (8 <=? N.of_nat (length d + 1)) with false by lia.
  rewrite IH; [rewrite <- app_assoc; reflexivity|exact HK|rewrite app_length; cbn [length]; lia].
Qed.
Lemma who_full w0 rs vs nick row rest : Forall2 (rdOk w0) rs vs -> forall d w, keeps w0 w -> (length d + length vs = 8)%nat -> vs <> [] ->
  whoLoop (rs ++ rest) nick row d w =
  whoLoop rest nick (u8 (row + 1)) [row] (snd (tp_writeMessage (mkTx CLASS_PROTOCOL PT_WHO_IS_THERE_RESPONSE PRIO_3_NORMAL nick (d ++ vs)) w)).
Proof.
  induction 1 as [|r v rs vs HR HF IH]; intros d w HK HL HN; [contradiction HN; reflexivity|]. cbn [whoLoop length app] in *.
  unfold bind at 1. rewrite (HR w HK). unfold push, bind at 1, L1_DATA_SIZE. replace (N.of_nat (length d) <? 8) with true by lia. unfold ret. cbn [fst snd].
  rewrite app_length. cbn [length]. destruct vs as [|v2 vs].
  - inversion HF. subst rs. replace (8 <=? N.of_nat (length d + 1)) with true by (cbn [length] in HL; lia). reflexivity.
  - replace (8 <=? N.of_nat (length d + 1)) with false by (cbn [length] in HL; lia).
    rewrite IH; [rewrite <- app_assoc; reflexivity|exact HK|rewrite app_length; cbn [length] in *; lia|discriminate].
Qed.
Lemma who_loop w0 nick k : forall rs vs row w, Forall2 (rdOk w0) rs vs -> keeps w0 w -> (7 * k <= length vs < 7 * k + 7)%nat -> (row + k < 200)%nat ->
  exists fs w', whoLoop rs nick (N.of_nat row + 1) [N.of_nat row] w = (N.of_nat (row + k) :: skipn (7 * k) vs, w') /\ length fs = k /\
    (forall i f ok, nth_error fs i = Some (f, ok) -> f = whoFrame nick (row + i) (firstn 7 (skipn (7 * i) vs))) /\
    w_out w' = rev (map (fun p => OTx (fst p) (snd p)) fs) ++ w_out w /\ keeps w0 w'.
Proof.
  induction k as [|k IH]; intros rs vs row w HF HK HL HR.
  - exists [], w. rewrite (who_part w0 rs vs) by (try assumption; cbn [length]; lia). split; [rewrite Nat.add_0_r; reflexivity|]. split; [reflexivity|]. split; [intros [|i] f ok HX; discriminate HX|]. split; [reflexivity|exact HK].
  - assert (LE : length rs = length vs) by (eapply F2_length; exact HF).
    replace (whoLoop rs) with (whoLoop (firstn 7 rs ++ skipn 7 rs)) by (rewrite firstn_skipn; reflexivity). assert (F1 : Forall2 (rdOk w0) (firstn 7 rs) (firstn 7 vs)) by (apply F2_firstn; exact HF).
    assert (F2 : Forall2 (rdOk w0) (skipn 7 rs) (skipn 7 vs)) by (apply F2_skipn; exact HF).
    assert (L1 : length (firstn 7 vs) = 7%nat) by (rewrite firstn_length; lia).
    rewrite (who_full w0 _ _ nick _ _ F1); [|exact HK|cbn [length]; lia|intros X; rewrite X in L1; discriminate L1].
    cbn [app]. set (f := mkTx _ _ _ _ _). destruct (tx_send f w) as (ok & v & G1 & G2 & G3); [unfold f, mkTx; cbn [m_size length]; lia|]. rewrite G1. cbn [snd].
    replace (u8 (N.of_nat row + 1 + 1)) with (N.of_nat (S row) + 1) by (unfold u8; lia). replace (N.of_nat row + 1) with (N.of_nat (S row)) by lia.
    destruct (IH (skipn 7 rs) (skipn 7 vs) (S row) v F2) as (fs & w' & K1 & K2 & K3 & K4 & K5); [exact (keeps_trans _ _ _ HK G3)|rewrite skipn_length; lia|lia|].
    exists ((f, ok) :: fs), w'. rewrite K1. split; [|split; [cbn [length]; lia|split; [|split; [|exact K5]]]].
    + rewrite skip_skip. replace (7 * S k)%nat with (7 + 7 * k)%nat by lia. replace (row + S k)%nat with (S row + k)%nat by lia. reflexivity.
    + intros [|i] g ok' HX; [cbn in HX; injection HX as <- <-|cbn [nth_error] in HX].
      * rewrite Nat.add_0_r. reflexivity.
      * rewrite (K3 i g ok' HX), skip_skip. replace (7 * S i)%nat with (7 + 7 * i)%nat by lia. replace (row + S i)%nat with (S row + i)%nat by lia. reflexivity.
    + rewrite K4, G2. cbn [map rev fst snd]. rewrite <- app_assoc. reflexivity.
Qed.
Definition whoAll : M A unit :=
  nick <- get w_nick ;;
  d <- whoLoop (map (fun i => dd_getGUID (15 - i)) (Nseq 16) ++ map dd_getMdf (Nseq 32)) nick 1 [0] ;;
  tp_writeMessage (mkTx CLASS_PROTOCOL PT_WHO_IS_THERE_RESPONSE PRIO_3_NORMAL nick (pad8 d)) ;; ret tt.
Lemma who_frames (VE : valid_env E) w0 : exists fs : list (Msg * bool), length fs = 7%nat /\
  (forall i f ok, nth_error fs i = Some (f, ok) -> protFrame f 32 3 (w_nick w0) (N.of_nat i :: firstn 7 (skipn (7 * i) (identity w0)))) /\
  w_out (snd (whoAll w0)) = rev (map (fun p => OTx (fst p) (snd p)) fs) ++ w_out w0 /\ keeps w0 (snd (whoAll w0)).
Proof.
  unfold whoAll. rewrite bind_get. set (rs := _ ++ _). set (vs := map (guidByte w0) (Nseq 16) ++ map (mdfByte w0) (Nseq 32)).
  assert (LV : length vs = 48%nat) by reflexivity.
  assert (HF : Forall2 (rdOk w0) rs vs).
  { assert (PV : forall w, keeps w0 w -> w_ps w = w_ps w0 /\ w_app w = w_app w0) by (intros w (V & _); unfold visible in V; split; congruence).
    assert (IN : forall n k, In k (Nseq n) -> k < n) by (intros n k; unfold Nseq; rewrite in_map_iff; intros (j & <- & HJ); apply in_seq in HJ; lia).
    apply Forall2_app.
    - assert (G : forall l, (forall k, In k l -> k < 16) -> Forall2 (rdOk w0) (map (fun i => dd_getGUID (15 - i)) l) (map (guidByte w0) l)).
      { induction l as [|k l IH]; intros HI; constructor; [|apply IH; intros j Hj; apply HI; right; exact Hj]. intros w HK. rewrite (guid_state VE) by (apply HI; left; reflexivity).
        destruct (PV w HK) as [P1 P2]. unfold guidByte. rewrite P2, (stored_ps w w0) by exact P1. reflexivity. }
      apply G. apply IN.
    - assert (G : forall l, (forall k, In k l -> k < 32) -> Forall2 (rdOk w0) (map dd_getMdf l) (map (mdfByte w0) l)).
      { induction l as [|k l IH]; intros HI; constructor; [|apply IH; intros j Hj; apply HI; right; exact Hj]. intros w HK. rewrite mdf_state by (apply HI; left; reflexivity).
        destruct (PV w HK) as [P1 P2]. unfold mdfByte. rewrite (stored_ps w w0) by exact P1. reflexivity. }
      apply G. apply IN. }
  destruct (who_loop w0 (w_nick w0) 6 rs vs 0 w0 HF (keeps_refl w0)) as (fs & w' & K1 & K2 & K3 & K4 & K5); [lia|lia|].
  change (N.of_nat 0 + 1) with 1 in K1. change (N.of_nat 0) with 0 in K1. rewrite (bind_val _ _ _ _ _ K1).
  set (f := mkTx _ _ _ _ _). rewrite then_ret. destruct (tx_send f w') as (ok & v & G1 & G2 & G3); [unfold f, mkTx; cbn [m_size]; rewrite pad8_length by (apply Nat.leb_le; reflexivity); apply N.leb_le; reflexivity|].
  rewrite G1. cbn [snd]. exists (fs ++ [(f, ok)]).
  assert (IDE : identity w0 = vs ++ [0]) by (unfold identity, vs; rewrite <- app_assoc; reflexivity).
  split; [rewrite app_length, K2; reflexivity|]. split; [|split; [|exact (keeps_trans _ _ _ K5 G3)]].
  - intros i g ok' HX. rewrite IDE. destruct (Nat.lt_ge_cases i 6) as [L|L].
    + rewrite nth_error_app1 in HX by lia. rewrite (K3 i g ok' HX), skipn_app, firstn_app. rewrite skipn_length, LV. replace (7 - (48 - 7 * i))%nat with 0%nat by lia. rewrite firstn_O, app_nil_r.
      apply protFrame_mk. cbn [length]. pose proof (firstn_le_length 7 (skipn (7 * i) vs)). lia.
    + rewrite nth_error_app2 in HX by lia. rewrite K2 in HX. destruct (i - 6)%nat as [|j] eqn:HI; [|destruct j; discriminate HX]. cbn in HX. injection HX as <- <-. assert (i = 6)%nat by lia. subst i.
      unfold f. apply (protFrame_mk 32 3). apply Nat.leb_le. reflexivity.
  - rewrite G2, K4, map_app, rev_app_distr. reflexivity.
Qed.

(* -- segment controller heartbeat -- *)
Lemma heard_stored w m f k : stored (heard w m) f k = stored w f k. Proof. apply stored_ps, heard_ps. Qed.
Lemma be4 a b c d : a < 256 -> b < 256 -> c < 256 -> d < 256 ->
  N.lor (N.lor (N.lor (N.shiftl a 24) (N.shiftl b 16)) (N.shiftl c 8)) d = 256 * (256 * (256 * a + b) + c) + d.
Proof.
  intros. change 24 with (8 + 8 + 8). change 16 with (8 + 8). rewrite <- !N.shiftl_shiftl. rewrite <- !N.shiftl_lor.
  rewrite (be2 a b), (be2 _ c), (be2 _ d) by lia. reflexivity.
Qed.
Definition timePart (sz : N) : M A unit :=
  when 5 <=? sz do
    (d1 <- rxd 1 ;; d2 <- rxd 2 ;; d3 <- rxd 3 ;; d4 <- rxd 4 ;;
     upd (set_epoch (N.lor (N.lor (N.lor (N.shiftl d1 24) (N.shiftl d2 16)) (N.shiftl d3 8)) d4)) ;;
     when c_time_co cfg do (t <- get w_epoch ;; emit (OTime t))).
Lemma time_part v m d : w_rx v = m -> msg_wf m -> payload m = d ->
  let u := snd (timePart (N.of_nat (length d)) v) in
  w_out u = rev (timeNotice d) ++ w_out v /\ same u v /\ undisturbed v u.
Proof.
  intros RX WF HP. destruct (payload_at m _ WF HP) as [SZ AT]. unfold timePart, timeNotice, heartbeatTime.
  destruct d as [|d0 [|d1 [|d2 [|d3 [|d4 d]]]]]; try (cbn; split; [reflexivity|]; split; [apply same_refl|apply undisturbed_refl]).
  assert (AT' : forall i x, nth_error (d0 :: d1 :: d2 :: d3 :: d4 :: d) i = Some x -> at0 (m_data m) (N.of_nat i) = x).
  { intros i x HX. rewrite AT, Nat2N.id; [apply nth_error_nth; exact HX|]. assert (i < length (d0 :: d1 :: d2 :: d3 :: d4 :: d))%nat by (apply nth_error_Some; rewrite HX; discriminate). lia. }
  assert (HB : forall i x, nth_error (d0 :: d1 :: d2 :: d3 :: d4 :: d) i = Some x -> x < 256) by (intros i x HX; apply (payload_byte m); [exact WF|rewrite HP; apply (nth_error_In _ i); exact HX]).
  cbn [length]. replace (5 <=? _) with true by lia. unfold rxd. rewrite !bind_get, RX.
  change 1 with (N.of_nat 1) at 1. change 2 with (N.of_nat 2) at 1. change 3 with (N.of_nat 3) at 1. change 4 with (N.of_nat 4) at 1.
  rewrite (AT' 1%nat d1 eq_refl), (AT' 2%nat d2 eq_refl), (AT' 3%nat d3 eq_refl), (AT' 4%nat d4 eq_refl).
  rewrite be4 by first [exact (HB 1%nat _ eq_refl)|exact (HB 2%nat _ eq_refl)|exact (HB 3%nat _ eq_refl)|exact (HB 4%nat _ eq_refl)].
  rewrite bind_upd. destruct (c_time_co cfg); (split; [reflexivity|]; split; [apply same_quick; reflexivity|repeat split; auto]).
Qed.
Lemma hb_split w0 m crc rest : w_rx w0 = m -> m_type m = 1 -> c_hb_seg cfg = true -> m_size m = N.of_nat (length (crc :: rest)) -> at0 (m_data m) 0 = crc ->
  snd (handleProtocolClassType w0) =
  snd (timePart (N.of_nat (length (crc :: rest))) (snd ((when negb (stored w0 FCrc 0 =? crc) do
        (ps_writeCRC crc ;; pr <- get w_probe ;; when negb (pr =? NICK_SEGMENT_MASTER) do changeToStateInit true)) w0))).
Proof.
  intros RX HT HS SZ A0. rewrite hpct_1 by (rewrite RX; exact HT). rewrite HS. unfold handleHeartbeat, rxSize. rewrite bind_get, RX, SZ.
  replace (0 <? _) with true by (cbn [length]; lia). rewrite (bind_val ps_readCRC _ _ _ _ (readField_state FCrc 0 w0)). unfold rxd at 1. rewrite bind_get, RX, A0. reflexivity.
Qed.
Lemma crc_state w v : v < 256 -> snd (ps_writeCRC v w) = set_out (OPs (ps_crc cfg) v :: w_out w) (set_ps (fupd (w_ps w) (ps_crc cfg) v) w).
Proof. intros H. unfold ps_writeCRC, psWrite8, emit, bind, upd. cbn [snd]. rewrite (u8_small v H). destruct w; reflexivity. Qed.
End P.
