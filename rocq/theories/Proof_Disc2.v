(* Proof_Disc2.v - the steps of nickname discovery and assignment *)
From Verif Require Export Proof_Disc Proof_Transport Proof_Serve.

Section D.
Context {A : Type} {E : Env A}.
Implicit Types w : World A.

Lemma after_out rd w : exists b, w_out (after w rd) = ORet b :: w_out (snd (dispatch (snd (prologue rd w)))).
Proof. destruct (epilogue_history rd w) as (b & EQ). cbv zeta in EQ. rewrite EQ. exists b. reflexivity. Qed.
Lemma after_effects rd w d : w_out (snd (dispatch (snd (prologue rd w)))) = d ++ w_out (snd (prologue rd w)) ->
  exists b, effects w (after w rd) = OProcess :: (match received rd w with Some m => [ORx m] | None => [] end) ++ rev d ++ [ORet b].
Proof.
  intros H. destruct (after_out rd w) as (b & HO). exists b. rewrite prologue_out in H. rewrite H in HO.
  rewrite (effects_app w _ (ORet b :: d ++ (match received rd w with Some m => [ORx m] | None => [] end) ++ [OProcess])).
  - cbn [rev]. rewrite !rev_app_distr. cbn [rev app]. rewrite <- !app_assoc. destruct (received rd w); reflexivity.
  - rewrite HO. cbn [app]. rewrite <- !app_assoc. reflexivity.
Qed.
Lemma after_frames rd w d : w_out (snd (dispatch (snd (prologue rd w)))) = d ++ w_out (snd (prologue rd w)) -> frames (effects w (after w rd)) = frames (rev d).
Proof. intros H. destruct (after_effects rd w d H) as (b & ->). rewrite app_comm_cons, !frames_app. destruct (received rd w); cbn [frames flat_map app]; rewrite app_nil_r; reflexivity. Qed.
Lemma nick_keeps (a b : World A) : keeps a b -> w_nick b = w_nick a /\ w_st b = w_st a /\ w_ist b = w_ist a /\ w_probe b = w_probe a /\ w_tSt b = w_tSt a /\ w_tm b = w_tm a.
Proof. intros (K & KT & _). unfold visible in K. injection K; intros. repeat split; congruence. Qed.
Lemma probe_frame n nick : isProbe n (mkTx CLASS_PROTOCOL PT_NEW_NODE_ONLINE PRIO_7_LOW nick [n]).
Proof. destruct (protFrame_mk 2 7 nick [n]) as (P1 & P2 & P3 & _ & _ & P4); [apply Nat.leb_le; reflexivity|]. repeat split; assumption. Qed.
(* the state change announces the node *)
Lemma toActive_step w : w_st w <> ACTIVE -> let w' := snd (changeToStateActive w) in
  exists f ok, protFrame f 2 0 (w_nick w) [w_nick w] /\ w_out w' = OTx f ok :: OLamp LampOn :: w_out w /\ w_st w' = ACTIVE /\ w_nick w' = w_nick w /\ w_ps w' = w_ps w.
Proof.
  intros NA. cbv zeta. remember (snd (changeToStateActive w)) as w' eqn:HW. unfold changeToStateActive in HW. rewrite bind_get in HW.
  replace (negb (state_eqb (w_st w) ACTIVE)) with true in HW by (destruct (w_st w); try reflexivity; congruence).
  rewrite bind_emit, bind_upd, bind_get in HW. wsimp_in HW. set (w1 := set_st ACTIVE (set_out (OLamp LampOn :: w_out w) w)) in HW.
  destruct (send_prot PT_NEW_NODE_ONLINE PRIO_0_HIGH [w_nick w] w1) as (ok & v & EQ & HO & K); [apply Nat.leb_le; reflexivity|]. unfold bind at 1 in HW. rewrite EQ in HW. cbn [snd] in HW.
  destruct K as (K & KT & _). unfold visible in K. injection K; intros. exists (mkTx CLASS_PROTOCOL PT_NEW_NODE_ONLINE PRIO_0_HIGH (w_nick w1) [w_nick w]), ok.
  split; [apply (protFrame_mk 2 0); apply Nat.leb_le; reflexivity|].
  match type of HW with context [snd (?m v)] => set (mm := m) in HW end.
  assert (P : forall T (g : World A -> T), (forall x u, g (set_tm x u) = g u) -> g w' = g v).
  { intros T g Hg. rewrite HW. assert (P : pres g mm); [|apply P]. unfold mm, timer_start. pres_tac; auto. }
  rewrite (P _ w_out (fun _ _ => eq_refl)), (P _ w_st (fun _ _ => eq_refl)), (P _ w_nick (fun _ _ => eq_refl)), (P _ w_ps (fun _ _ => eq_refl)).
  repeat split; assumption.
Qed.
Lemma bind_run {B C} (m : M A B) (k : B -> M A C) w a v : m w = (a, v) -> bind m k w = k a v.
Proof. intros H. unfold bind. rewrite H. reflexivity. Qed.
(* one step of discovery *)
Definition ackNow w (n : N) : Prop := w_rxv w = true /\ isAck n (w_rx w).
Definition initStep w w' : Prop :=
  match w_ist w with
  | PROBE_MASTER => exists f ok, isProbe 0 f /\ w_out w' = OTx f ok :: w_out w /\ w_st w' = INIT /\ w_nick w' = w_nick w
  | PROBE_MASTER_WAIT => w_out w' = w_out w /\ w_nick w' = w_nick w /\ (w_st w' = INIT \/ w_st w' = PREACTIVE)
  | PROBE => exists f ok, isProbe (w_probe w) f /\ w_nick w' = w_nick w /\
      (if ok : bool then if w_probe w =? 255 then w_st w' = IDLE /\ exists l, w_out w' = l ++ OTx f true :: w_out w /\ frames (rev l) = []
                         else waitsFor w' (w_probe w) /\ w_out w' = OTx f true :: w_out w
       else probesNext w' (w_probe w) /\ w_out w' = OTx f false :: w_out w)
  | PROBE_WAIT =>
      if timerRunning (w_tm w) (w_tSt w) then
        w_out w' = w_out w /\ w_nick w' = w_nick w /\ ((ackNow w (w_probe w) /\ probesNext w' (u8 (w_probe w + 1))) \/ (~ ackNow w (w_probe w) /\ w' = w))
      else exists f ok, let n := w_probe w in protFrame f 2 0 n [n] /\ w_out w' = OTx f ok :: OLamp LampOn :: OPs (ps_nick cfg) n :: w_out w /\ w_st w' = ACTIVE /\ w_nick w' = n
  end.
Lemma init_step w : w_probe w < 256 -> w_st w = INIT -> initStep w (snd (stateInit w)).
Proof.
  intros HB SI. unfold initStep, stateInit. rewrite !bind_get. destruct (w_ist w) eqn:IS.
  - destruct (send_prot PT_NEW_NODE_ONLINE PRIO_7_LOW [NICK_SEGMENT_MASTER] w) as (ok & v & EQ & HO & K); [apply Nat.leb_le; reflexivity|].
    rewrite (bind_run _ _ _ _ _ EQ). destruct (nick_keeps _ _ K) as (K1 & K2 & _). exists (mkTx CLASS_PROTOCOL PT_NEW_NODE_ONLINE PRIO_7_LOW (w_nick w) [NICK_SEGMENT_MASTER]), ok.
    split; [apply probe_frame|]. destruct ok; [unfold timer_start; rewrite bind_upd; unfold upd|]; cbn [snd ret]; wsimp; repeat split; congruence.
  - unfold timer_running. rewrite bind_get. destruct (timerRunning _ _); cbn [negb].
    + unfold rxIsProt. rewrite !bind_get. match goal with |- context [if ?c then _ else _] => destruct c end; [unfold changeToStatePreActive, upd|]; cbn [snd ret]; wsimp; auto.
    + rewrite bind_upd. unfold upd. cbn [snd]. wsimp. auto.
  - rewrite bind_get. destruct (send_prot PT_NEW_NODE_ONLINE PRIO_7_LOW [w_probe w] w) as (ok & v & EQ & HO & K); [apply Nat.leb_le; reflexivity|].
    rewrite (bind_run _ _ _ _ _ EQ). destruct (nick_keeps _ _ K) as (K1 & K2 & K3 & K4 & _). exists (mkTx CLASS_PROTOCOL PT_NEW_NODE_ONLINE PRIO_7_LOW (w_nick w) [w_probe w]), ok.
    split; [apply probe_frame|]. destruct ok.
    + change NICK_NOT_INIT with 255. destruct (w_probe w =? 255).
      * unfold timer_stop. rewrite bind_upd. unfold changeToStateIdle. rewrite bind_get. wsimp. rewrite K2, SI. cbn [state_eqb negb]. rewrite bind_emit, bind_upd.
        destruct (c_idle_co cfg); [unfold emit, upd|]; cbn [snd ret]; wsimp; (split; [exact K1|]); (split; [reflexivity|]); rewrite HO; [exists [OIdle; OLamp LampOff]|exists [OLamp LampOff]]; split; reflexivity.
      * unfold timer_start, waitsFor. rewrite bind_upd. unfold upd. cbn [snd]. wsimp. repeat split; congruence.
    + cbn [snd ret]. unfold probesNext. repeat split; congruence.
  - unfold timer_running. rewrite !bind_get. destruct (timerRunning _ _) eqn:RU; cbn [negb].
    + unfold rxIsProt. rewrite !bind_get. match goal with |- context [if ?c then _ else _] => destruct c eqn:CX end.
      * unfold timer_stop. rewrite !bind_upd. unfold upd, probesNext. cbn [snd]. wsimp. split; [reflexivity|]. split; [reflexivity|]. left. split; [|auto].
        apply andb_true_iff in CX. destruct CX as [CX C4]. apply andb_true_iff in CX. destruct CX as [CX C3]. apply andb_true_iff in CX. destruct CX as [C1 C2].
        apply N.eqb_eq in C2, C3, C4. repeat split; assumption.
      * cbn [snd ret]. split; [reflexivity|]. split; [reflexivity|]. right. split; [|reflexivity]. intros (V & A1 & A2 & A3). rewrite V, A1, A2, A3 in CX. change PT_PROBE_ACK with 3 in CX. change CLASS_PROTOCOL with 0 in CX. rewrite !N.eqb_refl in CX. discriminate CX.
    + rewrite (bind_eq _ _ _ _ _ eq_refl (writeNick_state _ _ HB)). match goal with |- context [snd (changeToStateActive ?v)] => destruct (toActive_step v) as (f & ok & F1 & F2 & F3 & F4 & _) end.
      * wsimp. congruence. * exists f, ok. cbv zeta. rewrite F2, F3, F4. wsimp. repeat split; apply F1.
Qed.
Hypothesis VE : valid_env E.
Lemma after_init rd w : reachable w -> w_st w = INIT -> exists w1 w2 b, w1 = snd (prologue rd w) /\ initStep w1 w2 /\ after w rd = set_out (ORet b :: w_out w2) (set_rxv false w2) /\
  w_st w1 = INIT /\ w_ist w1 = w_ist w /\ w_probe w1 = w_probe w /\ w_nick w1 = w_nick w /\ w_tSt w1 = w_tSt w /\ snd (dispatch w1) = w2.
Proof.
  intros HR SI. destruct (epilogue_history rd w) as (b & EQ). cbv zeta in EQ. set (w1 := snd (prologue rd w)) in *. exists w1, (snd (dispatch w1)), b.
  assert (S1 : w_st w1 = INIT) by (unfold w1; rewrite prologue_st; exact SI). assert (P1 : w_probe w1 = w_probe w) by (apply pres_prologue; reflexivity).
  destruct (reach_inv VE w HR) as (ps0 & HI).
  split; [reflexivity|]. split.
  - unfold dispatch. rewrite bind_get, S1, snd_retb. apply init_step; [rewrite P1; apply (i_probe _ _ HI)|exact S1].
  - split; [exact EQ|]. split; [exact S1|]. split; [apply pres_prologue; reflexivity|]. split; [exact P1|]. split; [apply pres_prologue; reflexivity|]. split; [apply pres_prologue; reflexivity|reflexivity].
Qed.
(* the candidates *)
Theorem candidates rd w f ok : reachable w -> w_st w = INIT -> In (f, ok) (frames (effects w (after w rd))) ->
  isProbe 0 f \/ (isActive (after w rd) = true /\ protFrame f 2 0 (readNicknameId (after w rd)) [readNicknameId (after w rd)]) \/
  exists n older d, isProbe n f /\ history w = older ++ discovery :: d /\ ~ In discovery d /\ tried n d.
Proof.
  intros HR SI HF. destruct (after_init rd w HR SI) as (w1 & w2 & b & HW1 & HS & HA & S1 & I1 & P1 & N1 & T1 & D12).
  assert (FR : forall d, w_out w2 = d ++ w_out w1 -> In (f, ok) (frames (rev d))).
  { intros d Hd. rewrite <- (after_frames rd w d); [exact HF|]. rewrite <- HW1, D12. exact Hd. }
  unfold initStep in HS. rewrite I1, P1 in HS. destruct (w_ist w) eqn:IS.
  - destruct HS as (g & k & G1 & G2 & _). specialize (FR [OTx g k] G2). destruct FR as [FR|[]]. injection FR; intros; subst. left. exact G1.
  - destruct HS as (G2 & _). destruct (FR [] G2).
  - destruct HS as (g & k & G1 & _ & G2). destruct (reach_disc VE w HR SI) as (o & d & D1 & D2 & D3 & _).
    assert (X : f = g). { destruct k; [destruct (w_probe w =? 255)|].
      - destruct G2 as (_ & l & G2 & GL). specialize (FR (l ++ [OTx g true])). rewrite <- app_assoc in FR. specialize (FR G2). rewrite rev_app_distr, frames_app, GL in FR. destruct FR as [FR|[]]. congruence.
      - destruct G2 as (_ & G2). specialize (FR [OTx g true] G2). destruct FR as [FR|[]]. congruence.
      - destruct G2 as (_ & G2). specialize (FR [OTx g false] G2). destruct FR as [FR|[]]. congruence. }
    subst g. right. right. exists (w_probe w), o, d. auto.
  - destruct (timerRunning _ _); [destruct HS as (G2 & _); destruct (FR [] G2)|]. destruct HS as (g & k & G1 & G2 & G3 & G4).
    specialize (FR [OTx g k; OLamp LampOn; OPs (ps_nick cfg) (w_probe w)] G2). destruct FR as [FR|[]]. injection FR; intros; subst. right. left. rewrite HA. unfold isActive, readNicknameId. wsimp. rewrite G3, G4. split; [reflexivity|exact G1].
Qed.
Theorem exhausted rd w : reachable w -> w_st w = INIT -> w_st (after w rd) = IDLE ->
  readNicknameId (after w rd) = readNicknameId w /\ exists older d, history w = older ++ discovery :: d /\ ~ In discovery d /\ tried 255 d.
Proof.
  intros HR SI HI. destruct (after_init rd w HR SI) as (w1 & w2 & b & HW1 & HS & HA & S1 & I1 & P1 & N1 & T1 & D12).
  rewrite HA in *. unfold readNicknameId. wsimp. wsimp_in HI. unfold initStep in HS. rewrite I1, P1 in HS. destruct (w_ist w) eqn:IS.
  - destruct HS as (g & k & _ & _ & G & _). congruence.
  - destruct HS as (_ & _ & [G|G]); congruence.
  - destruct HS as (g & k & _ & GN & G2). split; [congruence|]. destruct (reach_disc VE w HR SI) as (o & d & D1 & D2 & D3 & _).
    destruct k; [destruct (w_probe w =? 255) eqn:Q|]; [|destruct G2 as ((G & _) & _); congruence|destruct G2 as ((G & _) & _); congruence].
    apply N.eqb_eq in Q. specialize (D3 IS). rewrite Q in D3. exists o, d. auto.
  - destruct (timerRunning _ _); [destruct HS as (_ & _ & [(_ & G & _)|(_ & G)]); congruence|destruct HS as (g & k & _ & _ & G & _); congruence].
Qed.
(* progress *)
Lemma ack_received rd w n : ackNow (snd (prologue rd w)) n <-> exists m, received rd w = Some m /\ isAck n m.
Proof.
  unfold ackNow. rewrite rxv_received. destruct (received rd w) as [m|] eqn:RX.
  - rewrite (proj1 (prologue_rx rd w m RX)). split; [intros [_ H]; exists m; auto|intros (x & [= <-] & H); auto].
  - split; [intros [H _]; discriminate H|intros (x & H & _); discriminate H].
Qed.
Theorem waiting rd w n : reachable w -> timersNeeded cfg <= c_timers cfg -> waitsFor w n -> let w' := after w rd in
  exists older f recent, history w = older ++ OTx f true :: recent /\ isProbe n f /\
  (c_t_probe cfg mod 65536 <= elapsed recent -> isActive w' = true /\ readNicknameId w' = n) /\
  (elapsed recent < c_t_probe cfg mod 65536 -> (exists m, In m (taken (effects w w')) /\ isAck n m) -> probesNext w' (n + 1)) /\
  (elapsed recent < c_t_probe cfg mod 65536 -> (forall m, In m (taken (effects w w')) -> ~ isAck n m) -> waitsFor w' n).
Proof.
  intros HR HT (SI & IS & PR). cbv zeta. destruct (reach_disc VE w HR SI) as (o & d & D1 & D2 & _ & D4). destruct (D4 IS) as (d0 & f & rec & -> & _ & PF & NF & _ & TV). specialize (TV HT).
  rewrite PR in *. rewrite app_comm_cons, app_assoc in D1. exists (o ++ discovery :: d0), f, rec. split; [exact D1|]. split; [exact PF|].
  destruct (after_init rd w HR SI) as (w1 & w2 & b & HW1 & HS & HA & S1 & I1 & P1 & N1 & T1 & D12). unfold initStep in HS. rewrite I1, P1, IS, PR in HS.
  assert (TK : taken (effects w (after w rd)) = match received rd w with Some m => [m] | None => [] end) by apply process_taken.
  assert (TW : tval w1 = tval w) by (rewrite HW1; apply (tval_prologue VE); assumption).
  assert (RU : timerRunning (w_tm w1) (w_tSt w1) = negb (c_t_probe cfg mod 65536 <=? elapsed rec)).
  { unfold timerRunning. unfold tval in TW, TV. destruct (nth_error (w_tm w1) (N.to_nat (w_tSt w1))) as [t|]; rewrite TV in TW; lia. }
  rewrite RU in HS. assert (HN : n < 255). { destruct (reach_inv VE w HR) as (ps0 & HI). pose proof (i_probe _ _ HI). lia. }
  destruct (N.leb_spec (c_t_probe cfg mod 65536) (elapsed rec)) as [L|L]; cbn [negb] in HS.
  - destruct HS as (g & k & _ & _ & G3 & G4). split; [|split; intros; lia]. intros _. rewrite HA. unfold isActive, readNicknameId. wsimp. rewrite G3, G4. auto.
  - split; [intros; lia|]. rewrite TK. destruct HS as (_ & _ & [(AN & G)|(NA & G)]).
    + split; [|intros _ H; exfalso; rewrite HW1 in AN; apply ack_received in AN; destruct AN as (m & RX & HAK); rewrite RX in H; apply (H m); [left; reflexivity|exact HAK]].
      intros _ _. replace (u8 (n + 1)) with (n + 1) in G by (unfold u8; lia). rewrite HA. exact G.
    + split.
      * intros _ (m & Hm & HAK). exfalso. apply NA. rewrite HW1. apply ack_received. destruct (received rd w) as [x|]; [destruct Hm as [->|[]]; eauto|destruct Hm].
      * intros _ _. rewrite HA, G. unfold waitsFor. wsimp. rewrite S1, I1, P1. auto.
Qed.
Theorem probing rd w n : reachable w -> probesNext w n -> let w' := after w rd in
  exists f ok, isProbe n f /\ frames (effects w w') = [(f, ok)] /\ if ok : bool then if n =? 255 then w_st w' = IDLE else waitsFor w' n else probesNext w' n.
Proof.
  intros HR (SI & IS & PR). cbv zeta. destruct (after_init rd w HR SI) as (w1 & w2 & b & HW1 & HS & HA & S1 & I1 & P1 & N1 & T1 & D12). unfold initStep in HS. rewrite I1, P1, IS, PR in HS.
  destruct HS as (f & ok & PF & _ & G). exists f, ok. split; [exact PF|].
  assert (FR : forall d, w_out w2 = d ++ w_out w1 -> frames (effects w (after w rd)) = frames (rev d)) by (intros d Hd; apply after_frames; rewrite <- HW1, D12; exact Hd).
  rewrite HA in *. destruct ok; [destruct (n =? 255)|].
  - destruct G as (G & l & GO & GL). split; [|exact G]. rewrite (FR (l ++ [OTx f true])) by (rewrite <- app_assoc; exact GO). rewrite rev_app_distr, frames_app, GL. reflexivity.
  - destruct G as (G & GO). split; [|exact G]. exact (FR [OTx f true] GO).
  - destruct G as (G & GO). split; [|exact G]. exact (FR [OTx f false] GO).
Qed.

(* ---- assignment by the segment controller ---- *)
Definition assignedNow w : Prop := w_rxv w = true /\ assignment (w_rx w).
Definition preStep w w' : Prop :=
  if timerRunning (w_tm w) (w_tSt w) then
    (~ assignedNow w /\ w' = w) \/
    (assignedNow w /\ let n := nth 1 (m_data (w_rx w)) 0 in exists f1 ok1 f2 ok2, protFrame f1 7 7 n [] /\ protFrame f2 2 0 n [n] /\
       w_out w' = OTx f2 ok2 :: OLamp LampOn :: OTx f1 ok1 :: OPs (ps_nick cfg) n :: w_out w /\ w_st w' = ACTIVE /\ w_nick w' = n)
  else w_st w' = INIT /\ w_ist w' = PROBE /\ w_probe w' = c_start_nick cfg /\ w_nick w' = 255 /\ w_out w' = OPs (ps_nick cfg) 255 :: discovery :: w_out w.
Lemma pre_step w : (w_rxv w = true -> nth 1 (m_data (w_rx w)) 0 < 256) -> w_st w = PREACTIVE -> preStep w (snd (statePreActive w)).
Proof.
  intros HB SP. unfold preStep. remember (snd (statePreActive w)) as w' eqn:HW. unfold statePreActive, timer_running in HW. rewrite !bind_get in HW. destruct (timerRunning _ _) eqn:RU; cbn [negb] in HW.
  - unfold rxIsProt, rxd in HW. rewrite !bind_get in HW. unfold at0 in HW. change (N.to_nat 0) with O in HW. change (N.to_nat 1) with 1%nat in HW.
    match type of HW with context [if ?c then _ else _] => destruct c eqn:CX end.
    + right. apply andb_true_iff in CX. destruct CX as [CX C4]. apply andb_true_iff in CX. destruct CX as [CX C3]. apply andb_true_iff in CX. destruct CX as [CX C2]. apply andb_true_iff in CX. destruct CX as [C1 C0].
      apply N.eqb_eq in C2, C3, C4, C0. split; [repeat split; assumption|]. cbv zeta. set (n := nth 1 (m_data (w_rx w)) 0) in *.
      unfold timer_stop in HW. rewrite bind_upd in HW. rewrite (bind_eq _ _ _ _ _ eq_refl (writeNick_state _ _ (HB C1))) in HW.
      match type of HW with _ = snd (_ ?v) => set (v1 := v) in HW end.
      destruct (send_prot PT_NICKNAME_ACCEPTED PRIO_7_LOW [] v1) as (ok & v & EQ & HO & K); [apply Nat.leb_le; reflexivity|]. rewrite (bind_run _ _ _ _ _ EQ) in HW.
      destruct (nick_keeps _ _ K) as (K1 & K2 & _).
      destruct (toActive_step v) as (f2 & ok2 & F2 & G1 & G2 & G3 & _). { rewrite K2. unfold v1. wsimp. congruence. }
      subst w'. exists (mkTx CLASS_PROTOCOL PT_NICKNAME_ACCEPTED PRIO_7_LOW (w_nick v1) []), ok, f2, ok2.
      assert (NV : w_nick v1 = n) by reflexivity. rewrite K1, NV in *. split; [apply (protFrame_mk 7 7); apply Nat.leb_le; reflexivity|]. split; [exact F2|].
      split; [|split; assumption]. rewrite G1, HO. reflexivity.
    + left. cbn [snd ret] in HW. split; [|exact HW]. intros (V & A1 & A2 & A3 & A4). rewrite V, A1, A2, A3, A4 in CX. discriminate CX.
  - unfold changeToStateInit in HW. rewrite bind_get, SP in HW. cbn [state_eqb negb] in HW. rewrite bind_emit, bind_upd, bind_assoc, !bind_upd in HW.
    rewrite (writeNick_state _ NICK_NOT_INIT) in HW by reflexivity. subst w'. wsimp. repeat split; reflexivity.
Qed.
Lemma after_pre rd w : op_wf (OpProcess rd) -> reachable w -> w_st w = PREACTIVE -> exists w1 w2 b, w1 = snd (prologue rd w) /\ preStep w1 w2 /\ after w rd = set_out (ORet b :: w_out w2) (set_rxv false w2) /\
  w_st w1 = PREACTIVE /\ w_nick w1 = w_nick w /\ w_tSt w1 = w_tSt w /\ snd (dispatch w1) = w2.
Proof.
  intros WF HR SI. destruct (epilogue_history rd w) as (b & EQ). cbv zeta in EQ. set (w1 := snd (prologue rd w)) in *. exists w1, (snd (dispatch w1)), b.
  assert (S1 : w_st w1 = PREACTIVE) by (unfold w1; rewrite prologue_st; exact SI).
  split; [reflexivity|]. split.
  - unfold dispatch. rewrite bind_get, S1, snd_retb. apply pre_step; [|exact S1]. intros RV. unfold w1 in *. rewrite rxv_received in RV. destruct (received rd w) as [m|] eqn:RX; [|discriminate RV].
    rewrite (proj1 (prologue_rx rd w m RX)). destruct (received_wf VE rd w m HR WF RX) as (_ & _ & _ & _ & _ & _ & HB). change (at0 (m_data m) 1 < 256). exact (at0_byte (fun _ => 0) (m_data m) 1 HB).
  - split; [exact EQ|]. split; [exact S1|]. split; [apply pres_prologue; reflexivity|]. split; [apply pres_prologue; reflexivity|reflexivity].
Qed.
Lemma assigned_received rd w : assignedNow (snd (prologue rd w)) <-> exists m, received rd w = Some m /\ assignment m.
Proof.
  unfold assignedNow. rewrite rxv_received. destruct (received rd w) as [m|] eqn:RX.
  - rewrite (proj1 (prologue_rx rd w m RX)). split; [intros [_ H]; exists m; auto|intros (x & [= <-] & H); auto].
  - split; [intros [H _]; discriminate H|intros (x & H & _); discriminate H].
Qed.
Theorem assigned rd w : op_wf (OpProcess rd) -> reachable w -> w_st w = PREACTIVE -> isActive (after w rd) = true ->
  exists m f1 ok1 f2 ok2, let n := nth 1 (m_data m) 0 in taken (effects w (after w rd)) = [m] /\ assignment m /\ readNicknameId (after w rd) = n /\
    frames (effects w (after w rd)) = [(f1, ok1); (f2, ok2)] /\ protFrame f1 7 7 n [] /\ protFrame f2 2 0 n [n].
Proof.
  intros WF HR SI HA'. destruct (after_pre rd w WF HR SI) as (w1 & w2 & b & HW1 & HS & HA & S1 & N1 & T1 & D12).
  unfold isActive in HA'. assert (S2 : w_st w2 = ACTIVE) by (rewrite HA in HA'; wsimp_in HA'; destruct (w_st w2); try discriminate HA'; reflexivity).
  unfold preStep in HS. destruct (timerRunning _ _); [|destruct HS as (G & _); congruence].
  destruct HS as [(_ & G)|(AN & f1 & ok1 & f2 & ok2 & F1 & F2 & GO & G3 & G4)]; [congruence|].
  pose proof AN as AN'. rewrite HW1 in AN'. apply assigned_received in AN'. destruct AN' as (m & RX & AM). exists m, f1, ok1, f2, ok2. cbv zeta.
  assert (RM : w_rx w1 = m) by (rewrite HW1; apply (prologue_rx rd w m RX)). rewrite RM in *.
  split; [unfold after; rewrite process_taken, RX; reflexivity|]. split; [exact AM|]. split; [rewrite HA; unfold readNicknameId; wsimp; exact G4|].
  split; [|split; assumption]. apply (after_frames rd w [OTx f2 ok2; OLamp LampOn; OTx f1 ok1; OPs (ps_nick cfg) (nth 1 (m_data m) 0)]). rewrite <- HW1, D12. exact GO.
Qed.
Theorem preactive rd w : op_wf (OpProcess rd) -> reachable w -> timersNeeded cfg <= c_timers cfg -> w_st w = PREACTIVE -> let w' := after w rd in
  exists older f recent, history w = older ++ OTx f true :: recent /\ isProbe 0 f /\ (exists m, In m (taken recent) /\ isAck 0 m) /\
  (c_t_init cfg mod 65536 <= elapsed recent -> probesNext w' (c_start_nick cfg) /\ readNicknameId w' = 255 /\ frames (effects w w') = []) /\
  (elapsed recent < c_t_init cfg mod 65536 -> (exists m, In m (taken (effects w w')) /\ assignment m) -> isActive w' = true) /\
  (elapsed recent < c_t_init cfg mod 65536 -> (forall m, In m (taken (effects w w')) -> ~ assignment m) -> w_st w' = PREACTIVE /\ readNicknameId w' = readNicknameId w /\ frames (effects w w') = []).
Proof.
  intros WF HR HT SI. cbv zeta. destruct (reach_master VE w HR) as (o & f & rec & D1 & PF & TV & AK). { right. exact SI. } specialize (TV HT).
  exists o, f, rec. split; [exact D1|]. split; [exact PF|]. split. { destruct (AK SI) as (m & M1 & M2). exists m. split; [exact M1|exact M2]. }
  destruct (after_pre rd w WF HR SI) as (w1 & w2 & b & HW1 & HS & HA & S1 & N1 & T1 & D12).
  assert (TK : taken (effects w (after w rd)) = match received rd w with Some m => [m] | None => [] end) by apply process_taken.
  assert (TW : tval w1 = tval w) by (rewrite HW1; apply (tval_prologue VE); assumption).
  assert (RU : timerRunning (w_tm w1) (w_tSt w1) = negb (c_t_init cfg mod 65536 <=? elapsed rec)).
  { unfold timerRunning. unfold tval in TW, TV. destruct (nth_error (w_tm w1) (N.to_nat (w_tSt w1))) as [t|]; rewrite TV in TW; lia. }
  unfold preStep in HS. rewrite RU in HS.
  assert (FR : forall d, w_out w2 = d ++ w_out w1 -> frames (effects w (after w rd)) = frames (rev d)) by (intros d Hd; apply after_frames; rewrite <- HW1, D12; exact Hd).
  destruct (N.leb_spec (c_t_init cfg mod 65536) (elapsed rec)) as [L|L]; cbn [negb] in HS.
  - destruct HS as (G1 & G2 & G3 & G4 & GO). split; [|split; intros; lia]. intros _. rewrite (FR [OPs (ps_nick cfg) 255; discovery] GO), HA. unfold probesNext, readNicknameId. wsimp. auto.
  - split; [intros; lia|]. rewrite TK. destruct HS as [(NA & G)|(AN & f1 & ok1 & f2 & ok2 & F1 & F2 & GO & G3 & G4)].
    + split.
      * intros _ (m & Hm & HAK). exfalso. apply NA. rewrite HW1. apply assigned_received. destruct (received rd w) as [x|]; [destruct Hm as [->|[]]; eauto|destruct Hm].
      * intros _ _. rewrite (FR [] (f_equal w_out G)), HA, G. unfold readNicknameId. wsimp. rewrite S1, N1. auto.
    + split; [intros _ _; rewrite HA; unfold isActive; wsimp; rewrite G3; reflexivity|].
      intros _ H. exfalso. rewrite HW1 in AN. apply assigned_received in AN. destruct AN as (m & RX & HAK). rewrite RX in H. apply (H m); [left; reflexivity|exact HAK].
Qed.
End D.
