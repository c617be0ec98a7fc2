(* Inv.v - the safety invariant of a node and its preservation by every modelled function. *)
From Verif Require Export Spec_Node Hoare Proof_Util Proof_DataCoding Proof_Timer.

(* identifiers of a timer module with n timers of which the first k have been created *)
Definition tids (k n : N) : list N :=
  map (fun i => if N.of_nat i <? k then N.of_nat i else TIMER_ID_INVALID) (seq 0 (N.to_nat n)).

(* tactic: layout arithmetic of PS.v *)
Ltac layout := unfold ps_next, ps_ng, ps_dmx, ps_dm, ps_log, ps_type, ps_fam, ps_mdf, ps_msub, ps_mdev,
  ps_sub, ps_zone, ps_guid, ps_user, ps_ctrl, ps_crc, ps_nick, ps_boot, sz_nick, sz_crc, sz_ctrl, sz_user in *.

Lemma cbWrite1 {T} (b : CBuf T) q x : Repr b q ->
  exists n b', cbWrite b [x] = Ok (n, b') /\ cb_num b' = cb_num b /\
    Repr b' (if Nat.ltb (length q) (N.to_nat (cb_num b) - 1) then q ++ [x] else q).
Proof.
  intros HR. pose proof (cbWrite_spec [x] b q HR) as H. cbv zeta in H. pose proof HR as [Hn Hs Hr Hw Hc He].
  assert (cb_wr b < cb_num b) by (rewrite Hw; apply N.mod_lt; lia). cbn [length] in H.
  replace (_ <=? cb_num b) with true in H by lia. destruct H as (b' & H1 & H2 & H3).
  exists (N.of_nat (Nat.min 1 (N.to_nat (cb_num b) - 1 - length q))), b'. split; [exact H1|]. split; [exact H3|].
  destruct (Nat.ltb_spec (length q) (N.to_nat (cb_num b) - 1)) as [L|L].
  - replace (Nat.min 1 _) with 1%nat in H2 by lia. exact H2.
  - replace (Nat.min 1 _) with 0%nat in H2 by lia. cbn [firstn] in H2. rewrite app_nil_r in H2. exact H2.
Qed.
Lemma cbRead1 {T} (b : CBuf T) q : Repr b q ->
  exists b', cbRead b 1 = Ok (firstn 1 q, b') /\ cb_num b' = cb_num b /\ Repr b' (tl q).
Proof.
  intros HR. pose proof (cbRead_spec b q 1 HR) as H. pose proof HR as [Hn Hs Hr Hw Hc He].
  replace (_ <=? cb_num b) with true in H by lia. destruct H as (b' & H1 & H2 & H3).
  exists b'. split; [exact H1|]. split; [exact H3|]. destruct q; exact H2.
Qed.

Lemma u8_lt x : u8 x < 256. Proof. unfold u8. lia. Qed.
Lemma u16_lt x : u16 x < 65536. Proof. unfold u16. lia. Qed.
Lemma u32_lt x : u32 x < 4294967296. Proof. unfold u32. lia. Qed.
Lemma u8_small x : x < 256 -> u8 x = x. Proof. unfold u8. lia. Qed.

Section Inv.
Context {A : Type} {E : Env A}.
Variable ps0 : N -> N.
Hypothesis VE : valid_env E.
Let VC : valid_cfg cfg := ve_cfg E VE.

Definition okObs (o : Obs) : Prop :=
  match o with
  | OTx m _ => msg_wf m
  | OPs a v => a < ps_next cfg /\ v < 256
  | ORx m => msg_wf m
  | OApi c => api_wf c
  | OTxDrop _ => False
  | _ => True
  end.

Definition tid (k : N) : N := if k <? c_timers cfg then k else TIMER_ID_INVALID.
Definition ntimers : N := if c_hb_node cfg then 5 else 4.

Record Inv (w : World A) : Prop := mkInv {
  i_rx : msg_wf (w_rx w);
  i_probe : w_probe w < 256;
  i_nick : w_nick w = w_ps w (ps_nick cfg);
  i_page : w_page w < 65536;
  i_alarm : w_alarm w < 256;
  i_epoch : w_epoch w < 4294967296;
  i_sec : w_sec w < 256;
  i_xpage : w_xpage w < 65536;
  i_xaddr : w_xaddr w < 256;
  i_xcount : w_xcount w <= 256;
  i_xseq : w_xseq w < 256;
  i_guidSt : w_guidSt w < 16;
  i_tSt : w_tSt w = tid 0;
  i_tGuid : w_tGuid w = tid 1;
  i_t162 : w_t162 w = tid 2;
  i_tEp : w_tEp w = tid 3;
  i_tHb : w_tHb w = if c_hb_node cfg then tid 4 else TIMER_ID_INVALID;
  i_tm : map t_id (w_tm w) = tids ntimers (c_timers cfg) /\ Forall (fun t => t_val t < 65536) (w_tm w);
  i_ps : forall a, w_ps w a < 256;
  i_txe : w_txe w <= 255;
  i_loop : length (cb_store (w_loop w)) = N.to_nat (c_loop_num cfg) /\
           (c_loop cfg = true -> exists q, Repr (w_loop w) q /\ Forall msg_wf q);
  i_dmIdx : w_dmIdx w < 256;
  i_ngCnt : w_ngCnt w < 256;
  i_ngIdx : w_ngIdx w < 65536;
  i_ngRule : w_ngRule w < 256;
  i_ngPos : w_ngPos w < 256;
  i_logLvl : w_logLvl w < 256;
  i_out : Forall okObs (w_out w);
  i_replay : forall a, w_ps w a = replay ps0 (w_out w) a;
  i_ub : w_ub w = false;
  i_ngub : c_dm_ng cfg = false -> w_ngub w = false
}.

Definition ext (w w' : World A) : Prop := exists d, w_out w' = d ++ w_out w.
Lemma ext_refl w : ext w w. Proof. exists []. reflexivity. Qed.
Lemma ext_trans a b c : ext a b -> ext b c -> ext a c.
Proof. intros [d1 H1] [d2 H2]. exists (d2 ++ d1). rewrite H2, H1, app_assoc. reflexivity. Qed.

Notation ok := (keeps Inv ext).
Definition ok_ret {X} := @keeps_ret A Inv ext ext_refl X.
Definition ok_get {X} := @keeps_get A Inv ext ext_refl X.
Definition ok_upd := @keeps_upd A Inv ext.
Definition ok_bind {X Y} := @keeps_bind A Inv ext ext_trans X Y.
Definition ok_forM {X} := @keeps_forM A Inv ext ext_refl ext_trans X.
Definition ok_if {X} := @keeps_if A Inv ext X.
Definition ok_weaken {X} := @keeps_weaken A Inv ext X.
Notation okT m := (ok m (fun _ => True)).

(* ---- tactics ---- *)
Ltac dinv w Hw := destruct Hw as [?rx ?probe ?nick ?page ?alarm ?epoch ?sec ?xpage ?xaddr ?xcount ?xseq ?guidSt
   ?tSt ?tGuid ?t162 ?tEp ?tHb ?tm ?ps ?txe ?loop ?dmIdx ?ngCnt ?ngIdx ?ngRule ?ngPos ?logLvl ?out ?replay ?ub ?ngub].
(* upd of one field *)
Ltac inv_upd := apply ok_upd; intros w Hw; dinv w Hw; split; [constructor; wsimp; try assumption; try lia | exists []; reflexivity].

Lemma ok_emit o : (forall a v, o <> OPs a v) -> okObs o -> okT (emit o).
Proof.
  intros Hn Ho. apply ok_upd. intros w Hw. dinv w Hw. split.
  - constructor; wsimp; try assumption.
    + constructor; assumption.
    + intros a. rewrite replay. destruct o; try reflexivity. exfalso. eapply Hn. reflexivity.
  - exists [o]. reflexivity.
Qed.

(* storing a byte anywhere but at the nickname *)
Lemma ok_psWrite8 a v : a < ps_next cfg -> a <> ps_nick cfg -> okT (psWrite8 a v).
Proof.
  intros Ha Hn w Hw. unfold psWrite8, emit, bind, upd. cbn [fst snd]. dinv w Hw. split; [|split; [|exact Logic.I]].
  - pose proof (u8_lt v). constructor; wsimp; try assumption.
    + rewrite nick. unfold fupd. destruct (ps_nick cfg =? a) eqn:Q; [lia|reflexivity].
    + intros x. unfold fupd. destruct (x =? a); auto.
    + constructor; [cbn; auto|assumption].
    + intros x. cbn [Core.replay]. unfold fupd. destruct (x =? a); auto.
  - eexists [_]. reflexivity.
Qed.
Lemma ok_psRead8 a : ok (psRead8 a) (fun v => v < 256).
Proof. apply ok_get. intros w Hw. apply (i_ps w Hw). Qed.
Lemma ok_writeNicknameId v : okT (writeNicknameId v).
Proof.
  intros w Hw. unfold writeNicknameId, ps_writeNicknameId, ps_readNicknameId, psRead8, psWrite8, emit, bind, upd, get.
  cbn [fst snd]. dinv w Hw. split; [|split; [|exact Logic.I]].
  - pose proof (u8_lt v). constructor; wsimp; try assumption; try reflexivity.
    + intros x. unfold fupd. destruct (x =? ps_nick cfg); auto.
    + constructor; [cbn; split; [layout; lia|assumption]|assumption].
    + intros x. cbn [Core.replay]. unfold fupd. destruct (x =? ps_nick cfg); auto.
  - eexists [_]. reflexivity.
Qed.

Lemma ok_setNgUB : c_dm_ng cfg = true -> okT setNgUB.
Proof.
  intros H. apply ok_upd. intros w Hw. dinv w Hw. split; [|exists []; reflexivity].
  constructor; wsimp; try assumption. congruence.
Qed.

(* ---- timers ---- *)
Lemma setAt_ids ts i v : map t_id (timerSetAt ts i v) = map t_id ts.
Proof. revert i; induction ts as [|t ts IH]; intros [|i]; cbn; try reflexivity. now rewrite IH. Qed.
Lemma setAt_vals ts i v : v < 65536 -> Forall (fun t => t_val t < 65536) ts -> Forall (fun t => t_val t < 65536) (timerSetAt ts i v).
Proof. intros Hv. revert i; induction ts as [|t ts IH]; intros i H; [exact H|]. inversion H; subst. destruct i; cbn; constructor; auto. Qed.
Lemma process_ids ts p : map t_id (timerProcess ts p) = map t_id ts.
Proof. unfold timerProcess. rewrite map_map. apply map_ext. intros t. destruct (t_id t =? TIMER_ID_INVALID); reflexivity. Qed.
Lemma process_vals ts p : Forall (fun t => t_val t < 65536) ts -> Forall (fun t => t_val t < 65536) (timerProcess ts p).
Proof. induction 1; cbn; constructor; auto. destruct (t_id x =? _); cbn; lia. Qed.

Lemma ok_timer_start id v : okT (timer_start id v).
Proof.
  unfold timer_start. inv_upd. destruct tm as [H1 H2]. unfold timerStart. split.
  - rewrite setAt_ids; exact H1.
  - apply setAt_vals; [apply u16_lt|exact H2].
Qed.
Lemma ok_timer_stop id : okT (timer_stop id).
Proof.
  unfold timer_stop. inv_upd. destruct tm as [H1 H2]. unfold timerStop. split.
  - rewrite setAt_ids; exact H1.
  - apply setAt_vals; [lia|exact H2].
Qed.
Lemma ok_timer_running id : okT (timer_running id).
Proof. apply ok_get. auto. Qed.

(* ---- single assignments ---- *)
Lemma ok_set_rx v : msg_wf v -> okT (upd (set_rx v)).
Proof. intros Hv. inv_upd. Qed.
Lemma ok_set_rxv v : okT (upd (set_rxv v)).
Proof. inv_upd. Qed.
Lemma ok_set_st v : okT (upd (set_st v)).
Proof. inv_upd. Qed.
Lemma ok_set_ist v : okT (upd (set_ist v)).
Proof. inv_upd. Qed.
Lemma ok_set_probe v : v < 256 -> okT (upd (set_probe v)).
Proof. intros Hv. inv_upd. Qed.
Lemma ok_set_page v : v < 65536 -> okT (upd (set_page v)).
Proof. intros Hv. inv_upd. Qed.
Lemma ok_set_alarm v : v < 256 -> okT (upd (set_alarm v)).
Proof. intros Hv. inv_upd. Qed.
Lemma ok_set_epoch v : v < 4294967296 -> okT (upd (set_epoch v)).
Proof. intros Hv. inv_upd. Qed.
Lemma ok_set_hbEn v : okT (upd (set_hbEn v)).
Proof. inv_upd. Qed.
Lemma ok_set_sec v : v < 256 -> okT (upd (set_sec v)).
Proof. intros Hv. inv_upd. Qed.
Lemma ok_set_rreq v : okT (upd (set_rreq v)).
Proof. inv_upd. Qed.
Lemma ok_set_xpage v : v < 65536 -> okT (upd (set_xpage v)).
Proof. intros Hv. inv_upd. Qed.
Lemma ok_set_xaddr v : v < 256 -> okT (upd (set_xaddr v)).
Proof. intros Hv. inv_upd. Qed.
Lemma ok_set_xcount v : v <= 256 -> okT (upd (set_xcount v)).
Proof. intros Hv. inv_upd. Qed.
Lemma ok_set_xseq v : v < 256 -> okT (upd (set_xseq v)).
Proof. intros Hv. inv_upd. Qed.
Lemma ok_set_guidSt v : v < 16 -> okT (upd (set_guidSt v)).
Proof. intros Hv. inv_upd. Qed.
Lemma ok_set_txe v : v <= 255 -> okT (upd (set_txe v)).
Proof. intros Hv. inv_upd. Qed.
Lemma ok_set_dmIdx v : v < 256 -> okT (upd (set_dmIdx v)).
Proof. intros Hv. inv_upd. Qed.
Lemma ok_set_ngCnt v : v < 256 -> okT (upd (set_ngCnt v)).
Proof. intros Hv. inv_upd. Qed.
Lemma ok_set_ngIdx v : v < 65536 -> okT (upd (set_ngIdx v)).
Proof. intros Hv. inv_upd. Qed.
Lemma ok_set_ngErr v : okT (upd (set_ngErr v)).
Proof. inv_upd. Qed.
Lemma ok_set_ngRule v : v < 256 -> okT (upd (set_ngRule v)).
Proof. intros Hv. inv_upd. Qed.
Lemma ok_set_ngPos v : v < 256 -> okT (upd (set_ngPos v)).
Proof. intros Hv. inv_upd. Qed.
Lemma ok_set_logEn v : okT (upd (set_logEn v)).
Proof. inv_upd. Qed.
Lemma ok_set_logLvl v : v < 256 -> okT (upd (set_logLvl v)).
Proof. intros Hv. inv_upd. Qed.
Lemma ok_set_app v : okT (upd (set_app v)).
Proof. inv_upd. Qed.
Lemma ok_set_wr v : okT (upd (set_wr v)).
Proof. inv_upd. Qed.

Lemma ok_get_eq {X} (f : World A -> X) : ok (get f) (fun r => exists w, Inv w /\ r = f w).
Proof. apply ok_get. intros w Hw. exists w. auto. Qed.

(* ---- automation ---- *)
Local Hint Resolve ok_psRead8 ok_writeNicknameId ok_timer_start ok_timer_stop ok_timer_running
  ok_set_rx ok_set_rxv ok_set_st ok_set_ist ok_set_probe ok_set_page ok_set_alarm ok_set_epoch ok_set_hbEn ok_set_sec ok_set_rreq ok_set_xpage ok_set_xaddr ok_set_xcount ok_set_xseq ok_set_guidSt ok_set_txe ok_set_dmIdx ok_set_ngCnt ok_set_ngIdx ok_set_ngErr ok_set_ngRule ok_set_ngPos ok_set_logEn ok_set_logLvl ok_set_app ok_set_wr : okdb.
Local Hint Resolve u8_lt u16_lt u32_lt : okdb.
Local Hint Extern 8 (_ < _) => lia : okdb.
Local Hint Extern 8 (_ <= _) => lia : okdb.
Local Hint Extern 1 (ok (emit _) _) => (apply ok_emit; [discriminate | cbn; auto]) : okdb.

Ltac kleaf := cbv beta; solve [ eauto 4 with okdb nocore
  | eapply ok_weaken; [ solve [eauto 4 with okdb nocore] | cbv beta; intros; solve [exact Logic.I | assumption | lia | auto] ] ].
Ltac kstep :=
  cbv beta zeta;
  lazymatch goal with
  | |- keeps _ _ (bind ?m _) _ =>
      first
      [ eapply ok_bind; [ kleaf | cbv beta; intros ? ? ]
      | lazymatch m with get _ => eapply ok_bind; [ apply ok_get_eq | cbv beta; intros ? (? & ? & ->) ] end
      | lazymatch type of m with
        | M _ unit => eapply (ok_bind m _ (fun _ => True)); [ | intros [] _ ]
        | M _ bool => eapply (ok_bind m _ (fun _ => True)); [ | intros ? _ ]
        | M _ N => eapply (ok_bind m _ (fun v => v < 256)); [ | cbv beta; intros ? ? ]
        end
      | eapply ok_bind; [ | cbv beta; intros ? ? ] ]
  | |- keeps _ _ (if _ then _ else _) _ => apply ok_if; intro
  | |- keeps _ _ (match ?x with _ => _ end) _ => destruct x
  | |- keeps _ _ (ret _) _ => apply ok_ret; try solve [exact Logic.I | cbv beta; auto with okdb | cbv beta; lia]
  | |- keeps _ _ (forM _ _) _ => first [ kleaf | apply ok_forM; intros ? ? ]
  | |- keeps _ _ (get _) _ => first [ kleaf | apply ok_get; intros ? ? ]
  | |- _ => kleaf
  end.
Ltac kp := repeat kstep.

(* ---- persistent memory ---- *)
Lemma ok_psReadIdx a n i : ok (psReadIdx a n i) (fun v => v < 256).
Proof. unfold psReadIdx. kp. Qed.
Lemma ok_psWriteIdx a n i v : ps_ctrl cfg <= a -> a + n <= ps_next cfg -> okT (psWriteIdx a n i v).
Proof.
  intros H1 H2. unfold psWriteIdx. kstep; [|kstep]. apply ok_psWrite8; [lia|].
  revert H1. layout. lia.
Qed.
Lemma ok_psReadMultiple a n : ok (psReadMultiple a n) (fun l => bytes l).
Proof.
  apply ok_get. intros w Hw. unfold bytes. apply Forall_forall. intros x Hx. apply in_map_iff in Hx as (y & <- & _).
  apply (i_ps w Hw).
Qed.
Lemma ok_psWriteMultiple l : forall a, ps_ctrl cfg <= a -> a + N.of_nat (length l) <= ps_next cfg -> okT (psWriteMultiple a l).
Proof.
  induction l as [|v l IH]; intros a H1 H2; cbn [psWriteMultiple]; [kp|]. cbn [length] in H2.
  eapply ok_bind.
  - apply ok_psWrite8; [lia|]. revert H1. layout. lia.
  - intros _ _. apply IH; lia.
Qed.
Local Hint Resolve ok_psReadIdx ok_psReadMultiple : okdb.
Ltac kw := first [ apply ok_psWriteIdx | apply ok_psWrite8 ]; layout; lia.
Lemma ok_ps_readCRC : ok ps_readCRC (fun v => v < 256). Proof. apply ok_psRead8. Qed.
Lemma ok_ps_writeCRC v : okT (ps_writeCRC v). Proof. unfold ps_writeCRC. kw. Qed.
Lemma ok_ps_readCtrl : ok ps_readCtrl (fun v => v < 256). Proof. apply ok_psRead8. Qed.
Lemma ok_ps_writeCtrl v : okT (ps_writeCtrl v). Proof. unfold ps_writeCtrl. kw. Qed.
Lemma ok_ps_readUserId i : ok (ps_readUserId i) (fun v => v < 256). Proof. apply ok_psReadIdx. Qed.
Lemma ok_ps_writeUserId i v : okT (ps_writeUserId i v). Proof. unfold ps_writeUserId. kw. Qed.
Lemma ok_ps_readGUID i : ok (ps_readGUID i) (fun v => v < 256). Proof. apply ok_psReadIdx. Qed.
Lemma ok_ps_writeGUID i v : okT (ps_writeGUID i v). Proof. unfold ps_writeGUID. kw. Qed.
Lemma ok_ps_writeMDev i v : okT (ps_writeMDev i v). Proof. unfold ps_writeMDev. kw. Qed.
Lemma ok_ps_writeMSub i v : okT (ps_writeMSub i v). Proof. unfold ps_writeMSub. kw. Qed.
Lemma ok_ps_writeMdf i v : okT (ps_writeMdf i v). Proof. unfold ps_writeMdf. kw. Qed.
Lemma ok_ps_writeFam i v : okT (ps_writeFam i v). Proof. unfold ps_writeFam. kw. Qed.
Lemma ok_ps_writeType i v : okT (ps_writeType i v). Proof. unfold ps_writeType. kw. Qed.
Lemma ok_ps_writeDM i v : okT (ps_writeDM i v). Proof. unfold ps_writeDM. kw. Qed.
Lemma ok_ps_writeNG i v : okT (ps_writeNG i v). Proof. unfold ps_writeNG. kw. Qed.
Lemma ok_ps_readMDev i : ok (ps_readMDev i) (fun v => v < 256). Proof. apply ok_psReadIdx. Qed.
Lemma ok_ps_readMSub i : ok (ps_readMSub i) (fun v => v < 256). Proof. apply ok_psReadIdx. Qed.
Lemma ok_ps_readMdf i : ok (ps_readMdf i) (fun v => v < 256). Proof. apply ok_psReadIdx. Qed.
Lemma ok_ps_readFam i : ok (ps_readFam i) (fun v => v < 256). Proof. apply ok_psReadIdx. Qed.
Lemma ok_ps_readType i : ok (ps_readType i) (fun v => v < 256). Proof. apply ok_psReadIdx. Qed.
Lemma ok_ps_readDM i : ok (ps_readDM i) (fun v => v < 256). Proof. apply ok_psReadIdx. Qed.
Lemma ok_ps_readNG i : ok (ps_readNG i) (fun v => v < 256). Proof. apply ok_psReadIdx. Qed.
Lemma ok_ps_readZone : ok ps_readZone (fun v => v < 256). Proof. apply ok_psRead8. Qed.
Lemma ok_ps_readSub : ok ps_readSub (fun v => v < 256). Proof. apply ok_psRead8. Qed.
Lemma ok_ps_readLogId : ok ps_readLogId (fun v => v < 256). Proof. apply ok_psRead8. Qed.
Lemma ok_ps_writeZone v : d_zone_ps cfg = true -> okT (ps_writeZone v).
Proof. intros H. unfold ps_writeZone. assert (sz_zone cfg = 1) by (unfold sz_zone; rewrite H; reflexivity). kw. Qed.
Lemma ok_ps_writeSub v : d_sub_ps cfg = true -> okT (ps_writeSub v).
Proof. intros H. unfold ps_writeSub. assert (sz_sub cfg = 1) by (unfold sz_sub; rewrite H; reflexivity). kw. Qed.
Lemma ok_ps_writeLogId v : c_logger cfg = true -> okT (ps_writeLogId v).
Proof. intros H. unfold ps_writeLogId. assert (sz_log cfg = 1) by (unfold sz_log; rewrite H; reflexivity). kw. Qed.
Lemma ok_ps_writeBootFlag v : c_boot cfg = true -> okT (ps_writeBootFlag v).
Proof. intros H. unfold ps_writeBootFlag. assert (sz_boot cfg = 1) by (unfold sz_boot; rewrite H; reflexivity). kw. Qed.
Lemma ok_ps_readDMRow i : ok (ps_readDMRow i) (fun l => bytes l).
Proof. unfold ps_readDMRow. kp. unfold bytes. apply Forall_forall. intros x Hx. apply repeat_spec in Hx. subst. lia. Qed.
Lemma ok_ps_readDMExtRow i : ok (ps_readDMExtRow i) (fun l => bytes l).
Proof. unfold ps_readDMExtRow. kp. unfold bytes. apply Forall_forall. intros x Hx. apply repeat_spec in Hx. subst. lia. Qed.
Lemma ok_ps_writeDMMultiple i l : okT (ps_writeDMMultiple i l).
Proof. unfold ps_writeDMMultiple. kstep; [|kstep]. apply ok_psWriteMultiple; layout; lia. Qed.
Lemma ok_ps_writeDMExtMultiple i l : okT (ps_writeDMExtMultiple i l).
Proof. unfold ps_writeDMExtMultiple. kstep; [|kstep]. apply ok_psWriteMultiple; layout; lia. Qed.
Local Hint Resolve ok_ps_readCRC ok_ps_writeCRC ok_ps_readCtrl ok_ps_writeCtrl ok_ps_readUserId ok_ps_writeUserId
  ok_ps_readGUID ok_ps_writeGUID ok_ps_writeMDev ok_ps_writeMSub ok_ps_writeMdf ok_ps_writeFam ok_ps_writeType ok_ps_writeDM
  ok_ps_writeNG ok_ps_readMDev ok_ps_readMSub ok_ps_readMdf ok_ps_readFam ok_ps_readType ok_ps_readDM ok_ps_readNG
  ok_ps_readZone ok_ps_readSub ok_ps_readLogId ok_ps_writeZone ok_ps_writeSub ok_ps_writeLogId ok_ps_writeBootFlag
  ok_ps_readDMRow ok_ps_readDMExtRow ok_ps_writeDMMultiple ok_ps_writeDMExtMultiple : okdb.

(* ---- device data ---- *)
Lemma ok_dd_restore : okT dd_restore.
Proof. unfold dd_restore. kp. Qed.
Lemma at0_byte l i : bytes l -> at0 l i < 256.
Proof.
  intros H. unfold at0. destruct (nth_in_or_default (N.to_nat i) l 0) as [Hi | ->]; [|lia].
  apply (proj1 (Forall_forall _ _) H _ Hi).
Qed.
Lemma hostByte_lt x i : hostByte x i < 256.
Proof. unfold hostByte, byteN. rewrite land255. lia. Qed.
Lemma ok_dd_getGUID i : ok (dd_getGUID i) (fun v => v < 256).
Proof. unfold dd_getGUID. kp. destruct (i <? _); [|lia]. apply at0_byte, (v_guid cfg VC). Qed.
Lemma ok_dd_getZone : ok dd_getZone (fun v => v < 256).
Proof. unfold dd_getZone. kp. apply (v_zone cfg VC). Qed.
Lemma ok_dd_getSubZone : ok dd_getSubZone (fun v => v < 256).
Proof. unfold dd_getSubZone. kp. apply (v_sub cfg VC). Qed.
Lemma ok_dd_getMDev i : ok (dd_getMDev i) (fun v => v < 256).
Proof. unfold dd_getMDev. kp. destruct (i <? 4); [apply hostByte_lt|lia]. Qed.
Lemma ok_dd_getMSub i : ok (dd_getMSub i) (fun v => v < 256).
Proof. unfold dd_getMSub. kp. destruct (i <? 4); [apply hostByte_lt|lia]. Qed.
Lemma ok_dd_getMdf i : ok (dd_getMdf i) (fun v => v < 256).
Proof.
  unfold dd_getMdf. kp. apply at0_byte. unfold bytes. eapply Forall_impl; [|exact (v_mdf cfg VC)].
  cbv beta. intros; lia.
Qed.
Lemma land255_lt x : N.land x 255 < 256. Proof. rewrite land255. lia. Qed.
Local Hint Resolve land255_lt : okdb.
Lemma ok_dd_getFam i : ok (dd_getFam i) (fun v => v < 256).
Proof. unfold dd_getFam. kp. destruct (_ =? 255); lia. Qed.
Lemma ok_dd_getType i : ok (dd_getType i) (fun v => v < 256).
Proof. unfold dd_getType. kp. destruct (_ =? 255); lia. Qed.
Local Hint Resolve ok_dd_restore ok_dd_getGUID ok_dd_getZone ok_dd_getSubZone ok_dd_getMDev ok_dd_getMSub ok_dd_getMdf ok_dd_getFam ok_dd_getType : okdb.

(* ---- transport ---- *)
Lemma ok_adapterWrite m : msg_wf m -> okT (adapterWrite m).
Proof.
  intros Hm. unfold adapterWrite. kstep. kstep. { inv_upd. }
  eapply ok_bind; [apply ok_emit; [discriminate|exact Hm]|]. intros. kp.
Qed.
Lemma loop_ok w b' q : Inv w -> cb_num b' = cb_num (w_loop w) -> Repr b' q -> Forall msg_wf q ->
  c_loop cfg = true -> Inv (set_loop b' w).
Proof.
  intros Hw Hn HR Hq Hc. dinv w Hw. constructor; wsimp; try assumption. destruct loop as [L1 L2].
  destruct (L2 Hc) as (q0 & R0 & _). split; [|eauto].
  pose proof (rp_store _ _ HR). pose proof (rp_store _ _ R0). lia.
Qed.
Lemma ok_loopWrite m : c_loop cfg = true -> msg_wf m -> okT (loopWrite m).
Proof.
  intros Hc Hm w Hw. unfold loopWrite, bind, get. cbn [fst snd].
  destruct (proj2 (i_loop w Hw) Hc) as (q & HR & Hq). destruct (cbWrite1 _ _ m HR) as (n & b' & E1 & E2 & E3).
  rewrite E1. unfold upd. cbn [fst snd]. split; [|split; [exists []; reflexivity|exact Logic.I]].
  eapply loop_ok; try eassumption. destruct (Nat.ltb _ _); [apply Forall_app; auto|exact Hq].
Qed.
Lemma ok_tp_readMessage rd : (forall m, rd = Some m -> msg_wf m) ->
  ok (tp_readMessage rd) (fun r => forall m, r = Some m -> msg_wf m).
Proof.
  intros Hrd. unfold tp_readMessage. kstep; [|kp; exact Hrd].
  intros w Hw. unfold bind, get. cbn [fst snd].
  destruct (proj2 (i_loop w Hw) H) as (q & HR & Hq). destruct (cbRead1 _ _ HR) as (b' & E1 & E2 & E3). rewrite E1.
  assert (Hw' : Inv (set_loop b' w)).
  { eapply loop_ok; try eassumption. destruct q; [constructor|inversion Hq; assumption]. }
  destruct q as [|m q]; cbn [firstn].
  - unfold upd, ret. cbn [fst snd]. split; [exact Hw'|]. split; [exists []; reflexivity|exact Hrd].
  - unfold upd. cbn [fst snd]. inversion Hq as [|? ? Hm Hq']; subst. destruct rd as [x|].
    + destruct (ok_loopWrite x H (Hrd x eq_refl) _ Hw') as (W1 & W2 & _). unfold ret. cbn [fst snd].
      split; [exact W1|]. split; [|intros m0 Hm0; congruence]. exact W2.
    + unfold ret. cbn [fst snd]. split; [exact Hw'|]. split; [exists []; reflexivity|intros m0 Hm0; congruence].
Qed.
Local Hint Resolve ok_adapterWrite ok_loopWrite : okdb.
Lemma ok_tp_writeMessage m : msg_wf m -> okT (tp_writeMessage m).
Proof.
  intros Hm. unfold tp_writeMessage. kp. { exfalso. destruct Hm as (_ & _ & _ & _ & Hm & _). unfold L1_DATA_SIZE in *. lia. } apply ok_upd. intros w Hw. destruct (w_txe w <? 255) eqn:Q; [|split; [exact Hw|apply ext_refl]].
  destruct (ok_set_txe (w_txe w + 1) ltac:(lia) w Hw) as (?&?&_). auto.
Qed.
Lemma ok_tp_getTransmitErrors : ok tp_getTransmitErrors (fun n => n <= 255).
Proof. unfold tp_getTransmitErrors. kp. apply (i_txe x). assumption. Qed.

(* ---- frames built by the framework ---- *)
Lemma pad8_length l : (length l <= 8)%nat -> length (pad8 l) = 8%nat.
Proof. intros H. unfold pad8. rewrite app_length, repeat_length. lia. Qed.
Lemma pad8_bytes l : bytes l -> bytes (pad8 l).
Proof. intros H. unfold bytes, pad8. apply Forall_app. split; [exact H|]. apply Forall_forall. intros x Hx. apply repeat_spec in Hx. subst. lia. Qed.
Lemma mkTx_wf cls ty prio nick d : cls < 65536 -> ty < 256 -> prio < 8 -> nick < 256 -> (length d <= 8)%nat -> bytes d ->
  msg_wf (mkTx cls ty prio nick d).
Proof.
  intros H1 H2 H3 H4 H5 H6. unfold msg_wf, mkTx. cbn.
  repeat (split; [assumption || lia|]). split; [apply pad8_length; exact H5|apply pad8_bytes; exact H6].
Qed.
Lemma ok_get_nick : ok (get w_nick) (fun v => v < 256).
Proof. apply ok_get. intros w Hw. rewrite (i_nick w Hw). apply (i_ps w Hw). Qed.
Local Hint Resolve ok_get_nick : okdb.
Lemma ok_sendTx cls ty prio nick d : cls < 65536 -> ty < 256 -> prio < 8 -> nick < 256 -> (length d <= 8)%nat -> bytes d ->
  okT (tp_writeMessage (mkTx cls ty prio nick d)).
Proof. intros. apply ok_tp_writeMessage, mkTx_wf; assumption. Qed.
Lemma ok_sendProt ty prio d : ty < 256 -> prio < 8 -> (length d <= 8)%nat -> bytes d -> okT (sendProt ty prio d).
Proof. intros. unfold sendProt. kstep. apply ok_sendTx; try assumption. reflexivity. Qed.
Lemma bytes_nil : bytes []. Proof. constructor. Qed.
Lemma bytes_cons x l : x < 256 -> bytes l -> bytes (x :: l). Proof. constructor; assumption. Qed.
Lemma bytes_app l1 l2 : bytes l1 -> bytes l2 -> bytes (l1 ++ l2). Proof. intros; apply Forall_app; auto. Qed.
Lemma bytes_firstn n l : bytes l -> bytes (firstn n l).
Proof. revert n; induction l as [|x l IH]; intros [|n] H; cbn; try constructor; inversion H; subst; auto. apply IH; assumption. Qed.
Lemma bytes_skipn n l : bytes l -> bytes (skipn n l).
Proof. revert n; induction l as [|x l IH]; intros [|n] H; cbn; try assumption; inversion H; subst; auto. Qed.
Lemma bytes_repeat0 n : bytes (repeat 0 n).
Proof. apply Forall_forall. intros x Hx. apply repeat_spec in Hx. subst. lia. Qed.
Local Hint Resolve bytes_nil bytes_cons bytes_app bytes_firstn bytes_skipn bytes_repeat0 ok_sendProt ok_sendTx ok_tp_writeMessage : okdb.
Local Hint Extern 8 (_ <= _)%nat => (cbn [length]; lia) : okdb.
Local Hint Extern 8 (_ < _) => (reflexivity) : okdb.

(* ---- logger ---- *)
Lemma ok_log_loop fuel : forall nick id lvl idx data, nick < 256 -> id < 256 -> lvl < 256 -> bytes data ->
  okT (log_loop fuel nick id lvl idx data).
Proof.
  induction fuel as [|f IH]; intros nick id lvl idx data H1 H2 H3 H4; cbn [log_loop].
  all: assert (okT (tp_writeMessage (mkTx CLASS_LOG LT_MESSAGE PRIO_3_NORMAL nick ([id; lvl; u8 idx] ++ log_chunk data)))).
  1,3: apply ok_sendTx; try assumption; try reflexivity;
     [ unfold log_chunk; rewrite !app_length, repeat_length, firstn_length; cbn [length]; lia
     | pose proof (u8_lt idx); unfold log_chunk; repeat apply bytes_app; auto with okdb ].
  - kp.
  - kp.
Qed.
Local Hint Resolve ok_log_loop : okdb.
Lemma bytes_map_u8 l : bytes (map u8 l).
Proof. apply Forall_forall. intros x Hx. apply in_map_iff in Hx as (y & <- & _). apply u8_lt. Qed.
Lemma ok_log_log id lvl data : id < 256 -> lvl < 256 -> bytes data -> okT (log_log id lvl data).
Proof.
  intros. unfold log_log, log_sendLogEvent. kp.
 Qed.
Lemma ok_log_handleEvent m : msg_wf m -> okT (log_handleEvent m).
Proof.
  intros Hm. unfold log_handleEvent. kp. apply ok_set_logLvl. apply at0_byte. apply Hm.
Qed.

Local Hint Resolve ok_log_log ok_log_handleEvent ok_tp_getTransmitErrors : okdb.

(* ---- decision matrix ---- *)
Lemma ok_dm_restore : okT dm_restore.
Proof. unfold dm_restore. kp. Qed.
Lemma ok_get_dmIdx : ok (get w_dmIdx) (fun v => v < 256).
Proof. apply ok_get. intros w Hw. apply (i_dmIdx w Hw). Qed.
Local Hint Resolve ok_dm_restore ok_get_dmIdx : okdb.
Lemma ok_dm_readRegister page addr : ok (dm_readRegister page addr) (fun v => v < 256).
Proof. unfold dm_readRegister, dm_readPaged, dm_readStd. kp. Qed.
Lemma ok_dm_writeRegister page addr v : v < 256 -> ok (dm_writeRegister page addr v) (fun v => v < 256).
Proof. intros Hv. unfold dm_writeRegister, dm_writePaged, dm_writeStd. kp. Qed.
Local Hint Resolve ok_dm_readRegister ok_dm_writeRegister : okdb.
Lemma ok_dm_executeActions exec m : (forall a p, okT (exec a p m)) -> okT (dm_executeActions exec m).
Proof.
  intros Hx. unfold dm_executeActions, dm_step, dm_rowEnabled, dm_readRow, dm_readExtRow.
  kstep. eapply (ok_bind _ _ (fun _ => True)); [kp|]. intros en _. kstep; [|kp].
  eapply (ok_bind _ _ (fun _ => True)); [kp|]. intros row _.
  eapply (ok_bind _ _ (fun _ => True)); [kp|]. intros er _.
  kstep. kstep. destruct (dm_rowAction _ _ _ _ _) as [[a p]|]; [apply Hx|kp].
Qed.

(* ---- decision matrix next generation ---- *)
Lemma ok_ng_restore : okT ng_restore.
Proof. unfold ng_restore. kp. Qed.
Lemma ok_ng_readRegister page addr : ok (ng_readRegister page addr) (fun v => v < 256).
Proof. unfold ng_readRegister. kp. Qed.
Lemma ok_ng_writeRegister page addr v : v < 256 -> ok (ng_writeRegister page addr v) (fun v => v < 256).
Proof. intros Hv. unfold ng_writeRegister. kp. Qed.
Lemma ok_ng_copy n : forall idx buf, okT (ng_copy n idx buf).
Proof.
  induction n as [|n IH]; intros idx buf; cbn [ng_copy]; [destruct buf; kp|]. destruct buf as [|x buf]; [kp|].
  kstep. eapply ok_bind; [apply IH|]. intros. kp.
Qed.
Local Hint Resolve ok_ng_restore ok_ng_readRegister ok_ng_writeRegister ok_ng_copy : okdb.
Lemma ok_ng_getNextRule buf : okT (ng_getNextRule buf).
Proof.
  unfold ng_getNextRule. kstep. kstep; [kp|]. kstep. kstep. kstep; [kp|].
  eapply (ok_bind _ _ (fun _ => True)); [apply ok_ng_copy|]. intros b' _. kp.
Qed.
Lemma ok_ng_getFirstRule buf : okT (ng_getFirstRule buf).
Proof. unfold ng_getFirstRule. kstep. kstep. kstep. kstep. apply ok_ng_getNextRule. Qed.
Lemma ok_dbgIncRule : okT dbgIncRule.
Proof. unfold dbgIncRule. kp. inv_upd. apply u8_lt. Qed.
Lemma ok_dbgIncPos p : okT (dbgIncPos p).
Proof. unfold dbgIncPos. kp. inv_upd. apply u8_lt. Qed.
Local Hint Resolve ok_ng_getNextRule ok_ng_getFirstRule ok_dbgIncRule ok_dbgIncPos ok_setNgUB : okdb.
Lemma ok_ng_rule exec m buf : c_dm_ng cfg = true -> (forall a p, okT (exec a p m)) -> okT (ng_rule exec m buf).
Proof.
  intros Hc Hx. unfold ng_rule, ng_decide, dbgSetError. kstep. destruct (rp buf 0) as [rs u0]. kstep; [kp|].
  destruct (rp buf 1), (rp buf 2). kp.
Qed.
Lemma ok_ng_rules fuel exec m : c_dm_ng cfg = true -> (forall a p, okT (exec a p m)) ->
  forall buf, okT (ng_rules fuel exec m buf).
Proof.
  intros Hc Hx. induction fuel as [|f IH]; intros buf; cbn [ng_rules]; [kp|].
  eapply ok_bind; [apply ok_ng_rule; assumption|]. intros _ _. kstep. destruct (fst r); [apply IH|kp|kp].
Qed.
Lemma ok_ng_executeActions exec m : c_dm_ng cfg = true -> (forall a p, okT (exec a p m)) -> okT (ng_executeActions exec m).
Proof.
  intros Hc Hx. unfold ng_executeActions, dbgClrError. kstep. destruct (fst r); [|kp|kp]. kstep; [kp|].
  apply ok_ng_rules; assumption.
Qed.

(* ---- core ---- *)
Lemma ok_changeToStateInit b : okT (changeToStateInit b).
Proof. unfold changeToStateInit. pose proof (v_start_nick cfg VC). kp. Qed.
Lemma ok_changeToStateActive : okT changeToStateActive.
Proof. unfold changeToStateActive. kp. Qed.
Lemma ok_changeToStateIdle : okT changeToStateIdle.
Proof. unfold changeToStateIdle. kp. Qed.
Lemma ok_changeToStateReset t : t < 256 -> okT (changeToStateReset t).
Proof. intros. unfold changeToStateReset. kp. Qed.
Lemma ok_changeToStateError : okT changeToStateError.
Proof. unfold changeToStateError. kp. Qed.
Lemma ok_changeToStatePreActive : okT changeToStatePreActive.
Proof. unfold changeToStatePreActive. kp. Qed.
Local Hint Resolve ok_changeToStateInit ok_changeToStateActive ok_changeToStateIdle ok_changeToStateReset
  ok_changeToStateError ok_changeToStatePreActive : okdb.
Lemma ok_restoreFactory : okT restoreFactory.
Proof. unfold restoreFactory. kp. inv_upd. Qed.
Local Hint Resolve ok_restoreFactory : okdb.
Lemma ok_startNodeSegmentInit : okT startNodeSegmentInit.
Proof. unfold startNodeSegmentInit. kp. Qed.
Local Hint Resolve ok_startNodeSegmentInit : okdb.
Lemma ok_doApi c : api_wf c -> okT (doApi c).
Proof.
  intros Hc. unfold doApi. eapply ok_bind; [apply ok_emit; [discriminate|exact Hc]|]. intros _ _.
  destruct c; unfold setAlarm, setTimeSinceEpoch, enableHeartbeat, log_enable, log_setLevel; kp.
  - inv_upd. apply u8_lt.
  - inv_upd.
  - apply ok_log_log; try apply u8_lt. apply bytes_map_u8.
Qed.
Lemma ok_apis l : Forall api_wf l -> okT (forM l doApi).
Proof. intros H. apply ok_forM. intros c Hc. apply ok_doApi. apply (proj1 (Forall_forall _ _) H _ Hc). Qed.
Lemma vew a p r v : Forall api_wf (snd (fst (app_write a p r v))). Proof. apply (ve_write E VE). Qed.
Lemma vea a x p m : Forall api_wf (fst (app_action a x p m)). Proof. apply (ve_action E VE). Qed.
Lemma vee a m : Forall api_wf (fst (app_event a m)). Proof. apply (ve_event E VE). Qed.
Lemma vep a m : Forall api_wf (snd (fst (app_prot a m))). Proof. apply (ve_prot E VE). Qed.
Lemma veh a : Forall api_wf (fst (app_hb a)). Proof. apply (ve_hb E VE). Qed.
Local Hint Resolve vew vea vee vep veh ok_apis : okdb.
Lemma ok_appRead page addr : ok (appRead page addr) (fun v => v < 256).
Proof. unfold appRead. kp. Qed.
Lemma ok_appWrite page addr v : ok (appWrite page addr v) (fun v => v < 256).
Proof. unfold appWrite. kp. Qed.
Lemma ok_actionExecute a p m : okT (actionExecute a p m).
Proof. unfold actionExecute. kp. Qed.
Lemma ok_provideEvent m : okT (provideEvent m).
Proof. unfold provideEvent. kp. Qed.
Lemma ok_provideProtocolEvent m : okT (provideProtocolEvent m).
Proof. unfold provideProtocolEvent. kp. Qed.
Lemma ok_customHeartbeat : okT customHeartbeat.
Proof. unfold customHeartbeat. kp. Qed.
Local Hint Resolve ok_appRead ok_appWrite ok_actionExecute ok_provideEvent ok_provideProtocolEvent ok_customHeartbeat : okdb.

Lemma ok_get_page : ok (get w_page) (fun v => v < 65536).
Proof. apply ok_get. intros w Hw. apply (i_page w Hw). Qed.
Lemma wordMSB_lt x : wordMSB x < 256. Proof. apply land255_lt. Qed.
Lemma wordLSB_lt x : wordLSB x < 256. Proof. apply land255_lt. Qed.
Local Hint Resolve ok_get_page wordMSB_lt wordLSB_lt : okdb.
Lemma ok_readVscpRegister addr : ok (readVscpRegister addr) (fun v => v < 256).
Proof.
  unfold readVscpRegister. pose proof (v_vmaj cfg VC). pose proof (v_vmin cfg VC). pose proof (v_vsub cfg VC). kp.
  - apply (i_alarm x). assumption.
Qed.
Local Hint Resolve ok_readVscpRegister : okdb.
Lemma ok_readRegister page addr : ok (readRegister page addr) (fun v => v < 256).
Proof. unfold readRegister. kp. Qed.
Lemma lor_lt a b k : a < 2 ^ k -> b < 2 ^ k -> N.lor a b < 2 ^ k.
Proof.
  intros Ha Hb. destruct (N.eq_dec a 0) as [->|Ha0]; [exact Hb|].
  destruct (N.eq_dec b 0) as [->|Hb0]; [rewrite N.lor_0_r; exact Ha|].
  assert (N.lor a b <> 0) by (intros H; apply N.lor_eq_0_l in H; congruence).
  apply N.log2_lt_pow2; [lia|]. rewrite N.log2_lor.
  apply N.max_lub_lt; apply N.log2_lt_pow2; try lia; assumption.
Qed.
Lemma land_lt a b k : b < 2 ^ k -> N.land a b < 2 ^ k.
Proof.
  intros Hb. destruct (N.eq_dec (N.land a b) 0) as [->|Hn]; [apply N.lt_le_trans with 1; [lia|]; change 1 with (2^0); apply N.pow_le_mono_r; lia|].
  assert (b <> 0) by (intros ->; rewrite N.land_0_r in Hn; congruence).
  apply N.log2_lt_pow2; [lia|]. apply N.le_lt_trans with (N.log2 b).
  - etransitivity; [apply N.log2_land|]. apply N.le_min_r.
  - apply N.log2_lt_pow2; [lia|assumption].
Qed.
Lemma ok_writeVscpRegister addr v : v < 256 -> ok (writeVscpRegister addr v) (fun r => fst r < 256).
Proof.
  intros Hv. unfold writeVscpRegister. kp; cbn [fst]; auto with okdb; try lia.
  - inv_upd. apply (lor_lt _ _ 16); [rewrite land255; change (2^16) with 65536; lia|].
    rewrite N.shiftl_mul_pow2. change (2^8) with 256. change (2^16) with 65536. lia.
  - inv_upd. apply (lor_lt _ _ 16); [|change (2^16) with 65536; lia].
    apply land_lt. reflexivity.
Qed.

Local Hint Resolve ok_readRegister ok_writeVscpRegister : okdb.
Lemma ok_getRegAppWriteProtect : okT getRegAppWriteProtect.
Proof. unfold getRegAppWriteProtect. kp. Qed.
Lemma ok_getStartUpControl : okT getStartUpControl.
Proof. unfold getStartUpControl. kp. Qed.
Local Hint Resolve ok_getRegAppWriteProtect ok_getStartUpControl : okdb.
Lemma ok_writeRegister page addr v : v < 256 -> ok (writeRegister page addr v) (fun r => fst r < 256).
Proof. intros Hv. unfold writeRegister. kp. Qed.
Lemma ok_sendRWRsp addr v : addr < 256 -> v < 256 -> okT (sendRWRsp addr v).
Proof. intros. unfold sendRWRsp. kp. Qed.
Lemma ok_rxSize : ok rxSize (fun n => n <= 8).
Proof. apply ok_get. intros w Hw. apply (i_rx w Hw). Qed.
Lemma ok_rxForMe : okT rxForMe.
Proof. apply ok_get. auto. Qed.
Lemma ok_rxd i : ok (rxd i) (fun v => v < 256).
Proof. apply ok_get. intros w Hw. apply at0_byte. apply (i_rx w Hw). Qed.
Lemma aget_lt {X} (l : list X) i : i < N.of_nat (length l) -> exists v, aget l i = Some v.
Proof. intros H. unfold aget. destruct (nth_error l (N.to_nat i)) eqn:Q; eauto. apply nth_error_None in Q. lia. Qed.
Lemma ok_rxdv i : i < 8 -> ok (rxdv i) (fun v => v < 256).
Proof.
  intros Hi. unfold rxdv. kstep. rename x into w0. destruct (i_rx _ H) as (_&_&_&_&_&HL&HB).
  destruct (aget_lt (m_data (w_rx w0)) i) as [v Hv]; [lia|]. rewrite Hv. kp.
  unfold aget in Hv. apply nth_error_In in Hv. apply (proj1 (Forall_forall _ _) HB _ Hv).
Qed.
Lemma ok_push d v : (length d < 8)%nat -> ok (push d v) (fun d' => d' = d ++ [v]).
Proof. intros H. unfold push, L1_DATA_SIZE. replace (_ <? 8) with true by lia. kp. Qed.
Lemma ok_timer_rr id : okT (timer_running id).
Proof. apply ok_timer_running. Qed.
Local Hint Resolve ok_writeRegister ok_sendRWRsp ok_rxSize ok_rxForMe ok_rxd ok_rxdv ok_push : okdb.

Lemma ok_handleHeartbeat : okT handleHeartbeat.
Proof.
  unfold handleHeartbeat. kp. apply ok_set_epoch.
  repeat apply (lor_lt _ _ 32); rewrite ?N.shiftl_mul_pow2; change (2^8) with 256; change (2^16) with 65536;
    change (2^24) with 16777216; change (2^32) with 4294967296; lia.
Qed.
Lemma ok_handleNewNodeOnline : okT handleNewNodeOnline.
Proof. unfold handleNewNodeOnline. kp. Qed.
Lemma ok_handleProbeAck : okT handleProbeAck.
Proof. unfold handleProbeAck. kp. Qed.
Lemma ok_handleSetNickname : okT handleSetNickname.
Proof. unfold handleSetNickname. kp. Qed.
Lemma ok_handleDropNickname : okT handleDropNickname.
Proof. unfold handleDropNickname. kp; apply ok_changeToStateReset; destruct (_ =? 3); lia. Qed.
Lemma ok_handleReadRegister : okT handleReadRegister.
Proof. unfold handleReadRegister. kp. Qed.
Lemma ok_handleWriteRegister : okT handleWriteRegister.
Proof. unfold handleWriteRegister. kp. Qed.
Lemma ok_handleEnterBootLoader : okT handleEnterBootLoader.
Proof. unfold handleEnterBootLoader. kp. Qed.
Lemma ok_handleGuidDrop : okT handleGuidDrop.
Proof.
  unfold handleGuidDrop. kp. inv_upd. pose proof (u8_lt (N.lor (w_guidSt w) (N.shiftl 1 r0))).
  assert (N.lor (w_guidSt w) (N.shiftl 1 r0) < 2 ^ 4).
  { apply lor_lt; [exact guidSt|]. rewrite N.shiftl_mul_pow2.
    assert (r0 = 0 \/ r0 = 1 \/ r0 = 2 \/ r0 = 3) as [->|[->|[->| ->]]] by lia; reflexivity. }
  change (2^4) with 16 in *. rewrite u8_small; lia.
Qed.
Lemma ok_pageReadLoop n : forall nick addr d, nick < 256 -> bytes d -> (1 <= length d <= 7)%nat ->
  ok (pageReadLoop n nick addr d) (fun d' => bytes d' /\ (length d' <= 7)%nat).
Proof.
  induction n as [|n IH]; intros nick addr d H1 H2 H3; cbn [pageReadLoop].
  - apply ok_ret. split; [assumption|lia].
  - kstep. kstep. eapply ok_bind; [apply ok_push; lia|]. intros d' ->. unfold L1_DATA_SIZE. rewrite app_length. cbn [length].
    assert (bytes (d ++ [r0])) by auto with okdb. kstep.
    + eapply ok_bind; [apply ok_sendTx; try reflexivity; try assumption; rewrite app_length; cbn [length]; lia|].
      intros. apply IH; [assumption|auto with okdb|cbn; lia].
    + apply IH; [assumption|assumption|rewrite app_length; cbn [length]; lia].
Qed.
Lemma clampNum_le num addr : addr < 256 -> clampNum num addr <= num.
Proof. intros H. unfold clampNum. destruct (N.ltb_spec (255 - num) addr); lia. Qed.
Lemma ok_handlePageRead : okT handlePageRead.
Proof.
  unfold handlePageRead. kstep. kstep. kstep; [|kp]. kstep. kstep. kstep.
  eapply ok_bind; [apply ok_pageReadLoop; auto with okdb; cbn; lia|]. cbv beta. intros d [Hd1 Hd2]. kstep; [|kp].
  eapply ok_bind; [apply ok_sendTx; try reflexivity; try assumption; lia|]. intros. kp.
Qed.
Lemma ok_writeLoop n : forall pg addr rxi d, okT pg -> bytes d -> (length d + n <= 8)%nat -> rxi + N.of_nat n <= 8 ->
  ok (writeLoop n pg addr rxi d) (fun d' => bytes d' /\ (length d' <= 8)%nat).
Proof.
  induction n as [|n IH]; intros pg addr rxi d H1 H2 H3 H4; cbn [writeLoop].
  - apply ok_ret. split; [assumption|lia].
  - eapply ok_bind; [exact H1|]. intros p _. eapply ok_bind; [apply ok_rxdv; lia|]. cbv beta. intros x Hx.
    kstep. eapply ok_bind; [apply ok_push; lia|]. intros d' ->. apply IH; auto with okdb; try lia.
    rewrite app_length. cbn [length]. lia.
Qed.
Lemma ok_handlePageWrite : okT handlePageWrite.
Proof.
  unfold handlePageWrite. kstep. kstep. kstep; [|kp]. kstep. kstep.
  eapply ok_bind.
  - pose proof (clampNum_le (r - 2) r1 H2). apply ok_writeLoop; auto with okdb; cbn [length]; try lia.
  - cbv beta. intros d [Hd1 Hd2]. eapply ok_bind; [apply ok_sendTx; try reflexivity; assumption|]. intros. kp.
Qed.
Lemma ok_handleIncDec delta : okT (handleIncDec delta).
Proof. unfold handleIncDec. kp. Qed.
Lemma ok_whoLoop l : forall nick row d, Forall (fun m => ok m (fun v => v < 256)) l -> nick < 256 -> row < 256 -> bytes d ->
  (1 <= length d <= 7)%nat -> ok (whoLoop l nick row d) (fun d' => bytes d' /\ (length d' <= 7)%nat).
Proof.
  induction l as [|m l IH]; intros nick row d H0 H1 Hr H2 H3; cbn [whoLoop].
  - apply ok_ret. split; [assumption|lia].
  - inversion H0; subst. kstep. eapply ok_bind; [apply ok_push; lia|]. intros d' ->. unfold L1_DATA_SIZE. rewrite app_length. cbn [length].
    assert (bytes (d ++ [r])) by auto with okdb. kstep.
    + eapply ok_bind; [apply ok_sendTx; try reflexivity; try assumption; rewrite app_length; cbn [length]; lia|].
      intros. apply IH; try assumption; auto with okdb.
    + apply IH; try assumption; try solve [rewrite app_length; cbn [length]; lia].
Qed.
Lemma ok_handleWhoIsThere : okT handleWhoIsThere.
Proof.
  unfold handleWhoIsThere. kstep. kstep. kstep. kstep; [|kp]. kstep.
  eapply ok_bind.
  - apply ok_whoLoop; auto with okdb; try solve [cbn; lia].
    apply Forall_app. split; apply Forall_forall; intros m Hm; apply in_map_iff in Hm as (i & <- & _); auto with okdb.
  - cbv beta. intros d [Hd1 Hd2]. eapply ok_bind; [apply ok_sendTx; try reflexivity; try assumption|].
    + rewrite pad8_length; lia.
    + apply pad8_bytes. assumption.
    + intros. kp.
Qed.
Lemma ok_handleGetMatrixInfo : okT handleGetMatrixInfo.
Proof.
  unfold handleGetMatrixInfo. kstep. kstep. kstep; [|kp].
  eapply ok_bind; [|intros; kp]. apply ok_sendProt; try reflexivity; [cbn; lia|].
  repeat apply bytes_cons; auto with okdb; destruct (c_dm cfg); auto with okdb.
Qed.
Lemma ok_extReadLoop fuel : forall page addr count d, addr < 256 -> 0 < count <= 256 -> bytes d ->
  (length d + fuel = 8)%nat -> (1 <= fuel)%nat ->
  ok (extReadLoop fuel page addr count d)
     (fun r => let '(d', addr', count', _) := r in bytes d' /\ (length d' <= 8)%nat /\ addr' < 256 /\ count' <= 256).
Proof.
  induction fuel as [|f IH]; intros page addr count d H1 H2 H3 H4 H5; [lia|]. cbn [extReadLoop].
  kstep. eapply ok_bind; [apply ok_push; lia|]. intros d' ->. cbv zeta. unfold L1_DATA_SIZE. rewrite app_length. cbn [length].
  assert (bytes (d ++ [r])) by auto with okdb.
  assert (u16 (count + 65535) = count - 1) as -> by (unfold u16; lia).
  kstep.
  - apply IH; try assumption; try lia. + destruct (N.ltb_spec addr 255); lia. + rewrite app_length. cbn [length]. lia.
  - apply ok_ret. split; [assumption|]. split; [rewrite app_length; cbn [length]; lia|]. split; [destruct (N.ltb_spec addr 255); lia|lia].
Qed.
Lemma ok_get_xs : ok (get w_xpage) (fun v => v < 65536) /\ ok (get w_xaddr) (fun v => v < 256) /\
  ok (get w_xcount) (fun v => v <= 256) /\ ok (get w_xseq) (fun v => v < 256).
Proof. split; [|split; [|split]]; apply ok_get; intros w Hw; apply Hw. Qed.
Lemma ok_extendedPageRead : okT extendedPageRead.
Proof.
  unfold extendedPageRead. destruct ok_get_xs as (X1 & X2 & X3 & X4).
  eapply ok_bind; [exact X3|]. cbv beta. intros count Hc. kstep; [|kp].
  eapply ok_bind; [exact X1|]. cbv beta. intros page Hp. eapply ok_bind; [exact X2|]. cbv beta. intros addr Ha.
  eapply ok_bind; [exact X4|]. cbv beta. intros seq Hs. kstep.
  eapply ok_bind; [apply ok_extReadLoop; auto with okdb; cbn; lia|].
  intros [[[d addr'] count'] np] (D1 & D2 & D3 & D4). cbv iota.
  eapply (ok_bind _ _ (fun _ => True)); [apply ok_sendTx; try reflexivity; assumption|]. intros okk _. kp.
Qed.
Local Hint Resolve ok_extendedPageRead : okdb.
Lemma mkWord_lt a b : a < 256 -> b < 256 -> mkWord a b < 65536.
Proof. intros. unfold mkWord. rewrite be2 by assumption. lia. Qed.
Local Hint Resolve mkWord_lt : okdb.
Lemma ok_handleExtPageRead : okT handleExtPageRead.
Proof.
  unfold handleExtPageRead. kp. apply ok_set_xcount. destruct (_ =? 5); [destruct (_ =? 0)|]; lia.
Qed.
Lemma ok_handleExtPageWrite : okT handleExtPageWrite.
Proof.
  unfold handleExtPageWrite. kstep. kstep. kstep; [|kp]. kstep. kstep. kstep. kstep. kstep.
  - apply ok_writeLoop; [apply ok_ret; exact Logic.I | repeat (apply bytes_cons; [assumption || lia|]); apply bytes_nil | | ];
      cbn [length]; destruct (N.ltb_spec (255 - (r - 4) + 1) r3); lia.
  - cbv beta in *. destruct H6. eapply ok_bind; [apply ok_sendTx; try reflexivity; assumption|]. intros. kp.
Qed.
Local Hint Resolve ok_handleHeartbeat ok_handleNewNodeOnline ok_handleProbeAck ok_handleSetNickname ok_handleDropNickname
  ok_handleReadRegister ok_handleWriteRegister ok_handleEnterBootLoader ok_handleGuidDrop ok_handlePageRead ok_handlePageWrite
  ok_handleIncDec ok_handleWhoIsThere ok_handleGetMatrixInfo ok_handleExtPageRead ok_handleExtPageWrite : okdb.
Lemma ok_handleProtocolClassType : okT handleProtocolClassType.
Proof. unfold handleProtocolClassType. kp. Qed.
Local Hint Resolve ok_handleProtocolClassType : okdb.

(* ---- states and process ---- *)
Lemma ok_rxIsProt t : okT (rxIsProt t).
Proof. apply ok_get. auto. Qed.
Local Hint Resolve ok_rxIsProt : okdb.
Lemma ok_stateStartup : okT stateStartup.
Proof. unfold stateStartup. kp. Qed.
Lemma ok_get_probe : ok (get w_probe) (fun v => v < 256).
Proof. apply ok_get. intros w Hw. apply Hw. Qed.
Local Hint Resolve ok_get_probe : okdb.
Lemma ok_stateInit : okT stateInit.
Proof. unfold stateInit. pose proof (v_start_nick cfg VC). kstep. kstep. destruct (w_ist x); kp. Qed.
Lemma ok_statePreActive : okT statePreActive.
Proof. unfold statePreActive. kp. Qed.
Lemma ok_sendNodeHeartbeat : okT sendNodeHeartbeat.
Proof.
  unfold sendNodeHeartbeat. kp. apply ok_sendTx; try reflexivity; try assumption; [cbn; lia|].
  repeat (apply bytes_cons; [assumption || lia|]); apply bytes_nil.
Qed.
Local Hint Resolve ok_sendNodeHeartbeat ok_stateStartup ok_stateInit ok_statePreActive : okdb.
Lemma ok_activeMessage : okT activeMessage.
Proof.
  unfold activeMessage. kp.
  - apply ok_dm_executeActions. intros. apply ok_actionExecute.
  - apply ok_ng_executeActions; [assumption|]. intros. apply ok_actionExecute.
Qed.
Lemma ok_activeHeartbeat : okT activeHeartbeat.
Proof. unfold activeHeartbeat. kp. Qed.
Local Hint Resolve ok_activeMessage ok_activeHeartbeat : okdb.
Lemma ok_stateActive : okT stateActive.
Proof. unfold stateActive. kp. Qed.
Lemma ok_stateReset : okT stateReset.
Proof. unfold stateReset. kp. inv_upd. Qed.
Local Hint Resolve ok_stateActive ok_stateReset : okdb.
Lemma ok_get_rx : ok (get w_rx) msg_wf.
Proof. apply ok_get. intros w Hw. apply Hw. Qed.
Lemma ok_process rd : (forall m, rd = Some m -> msg_wf m) -> okT (process rd).
Proof.
  intros Hrd. unfold process. kstep. eapply ok_bind; [apply ok_tp_readMessage; exact Hrd|]. cbv beta. intros r0 Hr.
  kstep. { destruct r0 as [m|]; [|kp]. pose proof (Hr m eq_refl). kp. }
  kstep. { kstep; [|kp]. eapply ok_bind; [apply ok_get_rx|]. cbv beta. intros. kp. }
  kstep. kstep. kstep. { kstep; [|kp]. kstep. { inv_upd. apply u32_lt. } kp. }
  kstep. kstep. { destruct (w_st x0); kp. }
  kp.
Qed.

(* ---- initialisation ---- *)
Record PreInv (w : World A) : Prop := mkPreInv {
  j_rx : msg_wf (w_rx w);
  j_probe : w_probe w < 256;
  j_page : w_page w < 65536;
  j_alarm : w_alarm w < 256;
  j_epoch : w_epoch w < 4294967296;
  j_sec : w_sec w < 256;
  j_xpage : w_xpage w < 65536;
  j_xaddr : w_xaddr w < 256;
  j_xcount : w_xcount w <= 256;
  j_xseq : w_xseq w < 256;
  j_guidSt : w_guidSt w < 16;
  j_tHb : c_hb_node cfg = false -> w_tHb w = TIMER_ID_INVALID;
  j_ps : forall a, w_ps w a < 256;
  j_txe : w_txe w <= 255;
  j_loop : length (cb_store (w_loop w)) = N.to_nat (c_loop_num cfg);
  j_dmIdx : w_dmIdx w < 256;
  j_ngCnt : w_ngCnt w < 256;
  j_ngIdx : w_ngIdx w < 65536;
  j_ngRule : w_ngRule w < 256;
  j_ngPos : w_ngPos w < 256;
  j_logLvl : w_logLvl w < 256;
  j_out : Forall okObs (w_out w);
  j_replay : forall a, w_ps w a = replay ps0 (w_out w) a;
  j_ub : w_ub w = false;
  j_ngub : c_dm_ng cfg = false -> w_ngub w = false
}.
Lemma inv_pre w : Inv w -> PreInv w.
Proof.
  intros Hw. dinv w Hw. constructor; try assumption; try apply loop. intros H. rewrite tHb, H. reflexivity.
Qed.
Lemma create_from ts : forall i k, (i + length ts <= 255)%nat ->
  map t_id ts = map (fun j => if N.of_nat j <? k then N.of_nat j else TIMER_ID_INVALID) (seq i (length ts)) ->
  N.of_nat i <= k ->
  fst (timerCreateFrom (N.of_nat i) ts) = (if k <? N.of_nat (i + length ts) then k else TIMER_ID_INVALID) /\
  map t_id (snd (timerCreateFrom (N.of_nat i) ts)) =
    map (fun j => if N.of_nat j <? k + 1 then N.of_nat j else TIMER_ID_INVALID) (seq i (length ts)) /\
  map t_val (snd (timerCreateFrom (N.of_nat i) ts)) = map t_val ts.
Proof.
  induction ts as [|t ts IH]; intros i k HL HM Hk.
  - cbn. replace (k <? _) with false by lia. auto.
  - cbn [length seq map] in *. injection HM as H1 H2. cbn [timerCreateFrom].
    destruct (N.ltb_spec (N.of_nat i) k) as [L|L].
    + assert (t_id t =? TIMER_ID_INVALID = false) as -> by (rewrite H1; unfold TIMER_ID_INVALID; lia).
      specialize (IH (S i) k ltac:(lia) H2 ltac:(lia)). replace (N.of_nat (S i)) with (N.of_nat i + 1) in IH by lia.
      destruct (timerCreateFrom (N.of_nat i + 1) ts) as [id r']. cbn [fst snd map] in *. destruct IH as (I1 & I2 & I3).
      replace (S i + length ts)%nat with (i + S (length ts))%nat in I1 by lia.
      rewrite I1, I2, I3, H1. replace (N.of_nat i <? k + 1) with true by lia. auto.
    + rewrite H1. cbn [N.eqb]. assert (N.of_nat i = k) by lia.
      change (TIMER_ID_INVALID =? TIMER_ID_INVALID) with true. cbn [fst snd map t_id t_val].
      replace (N.of_nat i <? k + 1) with true by lia. replace (k <? _) with true by lia.
      split; [assumption|]. split; [|reflexivity]. f_equal. rewrite H2. apply map_ext_in. intros j Hj. apply in_seq in Hj.
      replace (N.of_nat j <? k) with false by lia. replace (N.of_nat j <? k + 1) with false by lia. reflexivity.
Qed.
Lemma create_tids ts k : map t_id ts = tids k (c_timers cfg) ->
  fst (timerCreate ts) = tid k /\ map t_id (snd (timerCreate ts)) = tids (k + 1) (c_timers cfg) /\
  map t_val (snd (timerCreate ts)) = map t_val ts.
Proof.
  intros H. assert (HL : length ts = N.to_nat (c_timers cfg)).
  { rewrite <- (map_length t_id ts), H. unfold tids. rewrite map_length, seq_length. reflexivity. }
  unfold tids in H. rewrite <- HL in H. pose proof (v_timers cfg VC).
  destruct (create_from ts 0 k ltac:(lia) H ltac:(lia)) as (C1 & C2 & C3).
  unfold timerCreate. change 0 with (N.of_nat 0). rewrite C1, C2, C3. unfold tid, tids. rewrite <- HL.
  replace (N.of_nat (0 + length ts)) with (c_timers cfg) by lia. auto.
Qed.
Definition vals0 (ts : Timers) : Prop := Forall (fun t => t_val t < 65536) ts.
Lemma vals0_map ts ts' : map t_val ts' = map t_val ts -> vals0 ts -> vals0 ts'.
Proof.
  unfold vals0. intros H Hv. apply Forall_forall. intros t Ht. apply (in_map t_val) in Ht. rewrite H in Ht.
  apply in_map_iff in Ht as (t' & E1 & Ht'). rewrite <- E1. apply (proj1 (Forall_forall _ _) Hv _ Ht').
Qed.
Lemma tids_init : map t_id (timerInit (c_timers cfg)) = tids 0 (c_timers cfg).
Proof.
  unfold timerInit, tids. generalize (N.to_nat (c_timers cfg)) as n. intros n.
  generalize 0%nat as i. induction n as [|n IH]; intros i; [reflexivity|]. cbn [repeat seq map].
  replace (N.of_nat i <? 0) with false by lia. f_equal. apply IH.
Qed.
Lemma vals0_init n : vals0 (timerInit n).
Proof. apply Forall_forall. intros t Ht. apply repeat_spec in Ht. subst t. cbn. lia. Qed.

(* vscp_core_init behind the creation of the timers *)
Definition initTail (b : bool) : M A bool :=
  c <- getStartUpControl ;;
  (when negb (c =? 1) && negb (c =? 2) do restoreFactory) ;;
  (when negb b do changeToStateError) ;;
  ret b.
Lemma ok_initTail b : okT (initTail b).
Proof. unfold initTail. kp. Qed.

(* the state after the timers have been created *)
Definition allTimers : bool := ntimers <=? c_timers cfg.
Lemma tid_valid k : (tid k =? TIMER_ID_INVALID) = negb (k <? c_timers cfg).
Proof. pose proof (v_timers cfg VC). unfold tid, TIMER_ID_INVALID. destruct (N.ltb_spec k (c_timers cfg)); cbn; lia. Qed.


(* during initialisation: k timers exist *)
Record Stage (k : N) (w : World A) : Prop := mkStage {
  s_pre : PreInv w;
  s_nick : w_nick w = w_ps w (ps_nick cfg);
  s_loop : c_loop cfg = true -> exists q, Repr (w_loop w) q /\ Forall msg_wf q;
  s_tm : map t_id (w_tm w) = tids k (c_timers cfg);
  s_vals : vals0 (w_tm w);
  s_0 : 1 <= k -> w_tSt w = tid 0;
  s_1 : 2 <= k -> w_tGuid w = tid 1;
  s_2 : 3 <= k -> w_t162 w = tid 2;
  s_3 : 4 <= k -> w_tEp w = tid 3
}.
Lemma byte0 x : x < 256 -> u8 x = x. Proof. apply u8_small. Qed.
Definition initHead : M A unit :=
  emit OInit ;;
  upd (set_tm (timerInit (c_timers cfg))) ;;
  tp_init ;;
  (when c_dm cfg do dm_init) ;;
  n <- ps_readNicknameId ;;
  upd (set_nick n) ;;
  upd (set_st STARTUP) ;;
  upd (set_ist PROBE) ;;
  upd (set_rreq false) ;;
  upd (fun w => set_rx (mkMsg PRIO_7_LOW CLASS_PROTOCOL 0 NICK_NOT_INIT false
                          (m_size (w_rx w)) (m_data (w_rx w))) w) ;;
  upd (set_rxv false) ;;
  emit (OLamp LampBlinkSlow).
Definition initTimers : M A bool :=
  b1 <- createTimer set_tSt ;;
  b2 <- createTimer set_tGuid ;;
  b3 <- createTimer set_t162 ;;
  b4 <- createTimer set_tEp ;;
  (when b4 do (id <- get w_tEp ;; timer_start id 1000)) ;;
  b5 <- (if c_hb_node cfg then createTimer set_tHb else ret true) ;;
  ret (b1 && b2 && b3 && b4 && b5).
Lemma bind_assoc {X Y Z} (m : M A X) (k : X -> M A Y) (f : Y -> M A Z) w :
  bind (bind m k) f w = bind m (fun x => bind (k x) f) w.
Proof. reflexivity. Qed.
Lemma bind_ext {X Y} (m : M A X) (k k' : X -> M A Y) w : (forall r v, k r v = k' r v) -> bind m k w = bind m k' w.
Proof. intros H. apply H. Qed.
Lemma bind_ret {X Y} (r : X) (k : X -> M A Y) w : bind (ret r) k w = k r w.
Proof. reflexivity. Qed.
Lemma core_init_eq0 w : core_init w = (initHead ;; b <- initTimers ;; initTail b) w.
Proof.
  unfold core_init, initHead.
  repeat (rewrite bind_assoc; apply bind_ext; intros ? ?). apply bind_ext; intros ? ?. unfold initTimers.
  repeat (rewrite bind_assoc; apply bind_ext; intros ? ?). rewrite bind_ret. reflexivity.
Qed.
Lemma core_init_eq w : core_init w = initTail (fst (initTimers (snd (initHead w)))) (snd (initTimers (snd (initHead w)))).
Proof. rewrite core_init_eq0. unfold bind at 1 2. reflexivity. Qed.
Ltac dpre w Hw := destruct Hw as [?rx ?probe ?page ?alarm ?epoch ?sec ?xpage ?xaddr ?xcount ?xseq ?guidSt
   ?tHb ?ps ?txe ?loop ?dmIdx ?ngCnt ?ngIdx ?ngRule ?ngPos ?logLvl ?out ?replay ?ub ?ngub].
Lemma initHead_ok w : PreInv w -> Stage 0 (snd (initHead w)) /\ ext w (snd (initHead w)).
Proof.
  intros Hw. dpre w Hw. split.
  2:{ exists [OLamp LampBlinkSlow; OInit]. unfold initHead, tp_init, dm_init, ps_readNicknameId, psRead8, emit, bind, upd, get.
      cbn [fst snd]. wsimp. destruct (c_loop cfg), (c_dm cfg), (c_dm_paged cfg); reflexivity. }
  assert (HR : c_loop cfg = true -> Repr (cbInit (cb_store (w_loop w)) (c_loop_num cfg * c_msg_size cfg) (c_msg_size cfg)) []).
  { intros H. destruct (v_loop cfg VC H) as (L1 & L2 & L3).
    replace (c_loop_num cfg) with (N.of_nat (length (cb_store (w_loop w)))) in * by lia.
    apply repr_init; try lia. destruct (cb_store (w_loop w)); cbn in *; [lia|discriminate]. }
  unfold initHead, tp_init, dm_init, ps_readNicknameId, psRead8, emit, bind, upd, get. cbn [fst snd].
  destruct (c_loop cfg) eqn:CL, (c_dm cfg), (c_dm_paged cfg); cbn [fst snd ret]; wsimp;
  (constructor; [constructor| | | | | | | |]; wsimp; try assumption; try reflexivity; try lia;
   try (intros; discriminate);
   try apply vals0_init; try apply tids_init;
   try (repeat (constructor; try exact Logic.I); assumption);
   try (intros _; exists []; split; [apply HR; reflexivity|constructor]);
   try (destruct rx as (R1 & R2 & R3 & R4 & R5 & R6 & R7); unfold msg_wf; cbn; repeat split; try assumption; try reflexivity);
   try (intros H; apply CL in H; discriminate)).
  all: intros H; rewrite CL in H; discriminate H.
Qed.
Lemma stage_ext_tm k w : Stage k w -> forall f, w_out (f w) = w_out w -> ext w (f w).
Proof. intros _ f H. exists []. exact H. Qed.
Ltac mk k := (* one creation *)
  let H := fresh in
  intros w Hw; destruct Hw as [PR NI LO TM VA S0 S1 S2 S3]; destruct (create_tids (w_tm w) k TM) as (C1 & C2 & C3);
  unfold createTimer, bind, get, upd, ret; cbn [fst snd]; rewrite C1, tid_valid, Bool.negb_involutive;
  split; [|split; [reflexivity|exists []; reflexivity]];
  dpre w PR; (constructor; [constructor| | | | | | | |]; wsimp; try assumption; try reflexivity; try (intros; reflexivity);
    try (intros; exfalso; lia); try exact C2; try (eapply vals0_map; [exact C3|exact VA])).
Lemma create0 w : Stage 0 w -> Stage 1 (snd (createTimer set_tSt w)) /\ fst (createTimer set_tSt w) = (0 <? c_timers cfg) /\ ext w (snd (createTimer set_tSt w)).
Proof. revert w. mk 0. Qed.
Lemma create1 w : Stage 1 w -> Stage 2 (snd (createTimer set_tGuid w)) /\ fst (createTimer set_tGuid w) = (1 <? c_timers cfg) /\ ext w (snd (createTimer set_tGuid w)).
Proof. revert w. mk 1. intros _. apply S0. lia. Qed.
Lemma create2 w : Stage 2 w -> Stage 3 (snd (createTimer set_t162 w)) /\ fst (createTimer set_t162 w) = (2 <? c_timers cfg) /\ ext w (snd (createTimer set_t162 w)).
Proof. revert w. mk 2. intros _. apply S1. lia. Qed.
Lemma create3 w : Stage 3 w -> Stage 4 (snd (createTimer set_tEp w)) /\ fst (createTimer set_tEp w) = (3 <? c_timers cfg) /\ ext w (snd (createTimer set_tEp w)).
Proof. revert w. mk 3. intros _. apply S2. lia. Qed.
Lemma stage_inv w : Stage ntimers w -> w_tHb w = (if c_hb_node cfg then tid 4 else TIMER_ID_INVALID) -> Inv w.
Proof.
  intros [PR NI LO TM VA S0 S1 S2 S3] HT. dpre w PR.
  assert (4 <= ntimers) by (unfold ntimers; destruct (c_hb_node cfg); lia).
  constructor; try assumption; try (split; assumption).
  - apply S0. lia.
  - apply S1. lia.
  - apply S2. lia.
  - apply S3. lia.
Qed.
Lemma stage_start k id v w : Stage k w -> Stage k (snd (timer_start id v w)).
Proof.
  intros [PR NI LO TM VA S0 S1 S2 S3]. dpre w PR. unfold timer_start, upd. cbn [fst snd].
  constructor; [constructor| | | | | | | |]; wsimp; try assumption.
  - unfold timerStart. rewrite setAt_ids. exact TM.
  - unfold timerStart. apply setAt_vals; [apply u16_lt|exact VA].
Qed.
Lemma create4 w : c_hb_node cfg = true -> Stage 4 w ->
  Stage 5 (snd (createTimer set_tHb w)) /\ fst (createTimer set_tHb w) = (4 <? c_timers cfg) /\
  ext w (snd (createTimer set_tHb w)) /\ w_tHb (snd (createTimer set_tHb w)) = tid 4.
Proof.
  intros HB Hw; destruct Hw as [PR NI LO TM VA S0 S1 S2 S3]; destruct (create_tids (w_tm w) 4 TM) as (C1 & C2 & C3);
  unfold createTimer, bind, get, upd, ret; cbn [fst snd]; rewrite C1, tid_valid, Bool.negb_involutive.
  split; [|split; [reflexivity|split; [exists []; reflexivity|reflexivity]]].
  dpre w PR; (constructor; [constructor| | | | | | | |]; wsimp; try assumption; try exact C2; try (eapply vals0_map; [exact C3|exact VA])).
  + intros; congruence.
  + intros _. apply S3. lia.
Qed.
Lemma bind_eq {X Y} (m : M A X) (k : X -> M A Y) w r w' : fst (m w) = r -> snd (m w) = w' -> bind m k w = k r w'.
Proof. intros <- <-. reflexivity. Qed.
Definition startEp : M A unit := id <- get w_tEp ;; timer_start id 1000.
Lemma stage_startEp (b : bool) w : Stage 4 w -> Stage 4 (snd ((when b do startEp) w)) /\ ext w (snd ((when b do startEp) w)).
Proof.
  intros H. destruct b; [|split; [exact H|apply ext_refl]].
  split; [apply (stage_start 4 (w_tEp w) 1000 w H)|exists []; reflexivity].
Qed.
Definition stepHb : M A bool := if c_hb_node cfg then createTimer set_tHb else ret true.
Lemma stage_hb w : Stage 4 w -> Inv (snd (stepHb w)) /\ fst (stepHb w) = negb (c_hb_node cfg) || (4 <? c_timers cfg) /\ ext w (snd (stepHb w)).
Proof.
  intros H. unfold stepHb. destruct (c_hb_node cfg) eqn:HB.
  - assert (HN : ntimers = 5) by (unfold ntimers; rewrite HB; reflexivity).
    destruct (create4 w HB H) as (H1 & H2 & H3 & H4). split; [|split; [exact H2|exact H3]].
    apply stage_inv; [rewrite HN; exact H1|rewrite HB; exact H4].
  - assert (HN : ntimers = 4) by (unfold ntimers; rewrite HB; reflexivity).
    split; [|split; [reflexivity|apply ext_refl]]. apply stage_inv; [rewrite HN; exact H|]. rewrite HB. apply H. exact HB.
Qed.
Lemma initTimers_ok w : Stage 0 w -> Inv (snd (initTimers w)) /\ fst (initTimers w) = allTimers /\ ext w (snd (initTimers w)).
Proof.
  intros H0.
  destruct (create0 w H0) as (H1 & R1 & X1). remember (snd (createTimer set_tSt w)) as w1 eqn:W1. symmetry in W1.
  destruct (create1 w1 H1) as (H2 & R2 & X2). remember (snd (createTimer set_tGuid w1)) as w2 eqn:W2. symmetry in W2.
  destruct (create2 w2 H2) as (H3 & R3 & X3). remember (snd (createTimer set_t162 w2)) as w3 eqn:W3. symmetry in W3.
  destruct (create3 w3 H3) as (H4 & R4 & X4). remember (snd (createTimer set_tEp w3)) as w4 eqn:W4. symmetry in W4.
  destruct (stage_startEp (3 <? c_timers cfg) w4 H4) as [H5 X5].
  remember (snd ((when 3 <? c_timers cfg do startEp) w4)) as w5 eqn:W5. symmetry in W5.
  destruct (stage_hb w5 H5) as (H6 & R6 & X6). remember (snd (stepHb w5)) as w6 eqn:W6. symmetry in W6.
  assert (EQ : initTimers w = (allTimers, w6)).
  { unfold initTimers. rewrite (bind_eq _ _ _ _ _ R1 W1), (bind_eq _ _ _ _ _ R2 W2), (bind_eq _ _ _ _ _ R3 W3), (bind_eq _ _ _ _ _ R4 W4).
    fold startEp stepHb. rewrite (bind_eq _ _ _ _ _ eq_refl W5), (bind_eq _ _ _ _ _ R6 W6). unfold ret. f_equal. unfold allTimers, ntimers. destruct (c_hb_node cfg); cbn [negb orb]; lia. }
  rewrite EQ. cbn [fst snd]. split; [exact H6|]. split; [reflexivity|].
  apply (ext_trans _ w5); [|exact X6].
  apply (ext_trans _ w4); [|exact X5]. apply (ext_trans _ w3); [|exact X4]. apply (ext_trans _ w2); [|exact X3]. apply (ext_trans _ w1); assumption.
Qed.

Lemma ok_core_init w : PreInv w -> Inv (snd (core_init w)) /\ ext w (snd (core_init w)).
Proof.
  intros Hw. rewrite core_init_eq. destruct (initHead_ok w Hw) as (H1 & X1). destruct (initTimers_ok _ H1) as (H2 & _ & X2).
  destruct (ok_initTail (fst (initTimers (snd (initHead w)))) _ H2) as (H3 & X3 & _). split; [exact H3|].
  eapply ext_trans; [eassumption|]. eapply ext_trans; eassumption.
Qed.

(* ---- operations ---- *)
Lemma ok_step o : op_wf o -> okT (step o).
Proof.
  destruct o as [rd|p|c|]; intros H; cbn [step].
  - eapply ok_bind; [apply ok_process; intros m ->; exact H|intros; kp].
  - kstep. inv_upd. destruct tm as [T1 T2]. split; [rewrite process_ids; exact T1|apply process_vals; exact T2].
  - apply ok_doApi. exact H.
  - eapply (ok_bind _ _ (fun _ => True)); [|intros; kp]. intros w Hw. destruct (ok_core_init w (inv_pre w Hw)). auto.
Qed.

Lemma boot_pre ps a wr out ub ngub : (forall x, ps x < 256) -> (forall x, ps x = replay ps0 out x) -> Forall okObs out ->
  ub = false -> (c_dm_ng cfg = false -> ngub = false) -> PreInv (boot ps a wr out ub ngub).
Proof.
  intros H1 H2 H3 H4 H5. unfold boot. constructor; wsimp; try assumption; try reflexivity; try (cbn; lia).
  - unfold msgZero, msg_wf. cbn. repeat split; try reflexivity; try lia. repeat (apply bytes_cons; [lia|]). apply bytes_nil.
  - cbn. apply repeat_length.
Qed.
Lemma skipn_suffix {T} n (d l : list T) : (n <= length d)%nat -> skipn n (d ++ l) = skipn n d ++ l.
Proof. intros H. rewrite skipn_app. replace (n - length d)%nat with 0%nat by lia. reflexivity. Qed.
Lemma replay_app ps d l x : replay ps (d ++ l) x = replay (replay ps l) d x.
Proof.
  revert x. induction d as [|o d IH]; intros x; [reflexivity|]. cbn [app]. destruct o; cbn [replay]; try apply IH.
  unfold fupd. destruct (x =? a); [reflexivity|apply IH].
Qed.
Lemma replay_eq ps1 ps2 d x : (forall y, ps1 y = ps2 y) -> replay ps1 d x = replay ps2 d x.
Proof.
  intros H. revert x. induction d as [|o d IH]; intros x; [apply H|]. destruct o; cbn [replay]; try apply IH.
  unfold fupd. destruct (x =? a); [reflexivity|apply IH].
Qed.
Lemma replay_byte d : forall ps x, (forall y, ps y < 256) -> Forall okObs d -> replay ps d x < 256.
Proof.
  induction d as [|o d IH]; intros ps x H HF; [apply H|]. inversion HF; subst. destruct o; cbn [replay]; try (apply IH; assumption).
  unfold fupd. destruct (x =? a); [|apply IH; assumption]. cbn in H2. apply H2.
Qed.
(* the log at a crash point: the old log and the first k effects of the operation *)
Lemma crash_split (w w1 : World A) k : ext w w1 ->
  exists d, skipn (length (w_out w1) - (length (w_out w) + k)) (w_out w1) = d ++ w_out w /\
            firstn (length (d ++ w_out w) - length (w_out w)) (d ++ w_out w) = d /\
            exists d', w_out w1 = d' ++ d ++ w_out w.
Proof.
  intros [d0 H]. rewrite H. set (n := (length (d0 ++ w_out w) - (length (w_out w) + k))%nat).
  assert (Hn : (n <= length d0)%nat) by (subst n; rewrite app_length; lia).
  exists (skipn n d0). split; [apply skipn_suffix; exact Hn|]. split.
  - rewrite app_length. replace (length (skipn n d0) + _ - _)%nat with (length (skipn n d0) + 0)%nat by lia.
    rewrite firstn_app_2. cbn [firstn]. apply app_nil_r.
  - exists (firstn n d0). rewrite app_assoc, firstn_skipn. reflexivity.
Qed.
(* a power loss is a power up with the memory contents of that moment *)
Lemma crash_boot o k a w : op_wf o -> Inv w ->
  exists ps out ub ngub, PreInv (boot ps a (w_wr (snd (step o w))) (OPower :: out) ub ngub) /\
    (exists d d', out = d ++ w_out w /\ w_out (snd (step o w)) = d' ++ out) /\
    stepE (ECrash o k a) w = snd (core_init (boot ps a (w_wr (snd (step o w))) (OPower :: out) ub ngub)).
Proof.
  intros Ho Hw. cbn [stepE]. cbv zeta. destruct (ok_step o Ho w Hw) as (H1 & H2 & _).
  set (w1 := snd (step o w)) in *. destruct (crash_split w w1 k H2) as (d & E1 & E2 & d' & E3). rewrite E1, E2.
  assert (HF : Forall okObs (d ++ w_out w)) by (pose proof (i_out w1 H1) as F; rewrite E3 in F; apply Forall_app in F; apply F).
  assert (HR : forall x, replay (w_ps w) d x = replay ps0 (d ++ w_out w) x).
  { intros x. rewrite replay_app. apply replay_eq. apply (i_replay w Hw). }
  exists (replay (w_ps w) d), (d ++ w_out w), (w_ub w1), (w_ngub w1). split; [|split; [exists d, d'; auto|reflexivity]].
  apply boot_pre.
  + intros x. apply replay_byte; [apply (i_ps w Hw)|]. apply Forall_app in HF. apply HF.
  + exact HR.
  + constructor; [exact Logic.I|exact HF].
  + apply (i_ub w1 H1).
  + apply (i_ngub w1 H1).
Qed.
Lemma inv_stepE e w : event_wf e -> Inv w -> Inv (stepE e w) /\ (match e with EOp _ => ext w (stepE e w) | _ => True end).
Proof.
  intros He Hw. destruct e as [o|o k a].
  - destruct (ok_step o He w Hw) as (H1 & H2 & _). split; assumption.
  - split; [|exact Logic.I]. destruct (crash_boot o k a w He Hw) as (ps & out & ub & ngub & HP & _ & ->).
    apply (ok_core_init _ HP).
Qed.
Lemma inv_powerUp a wr : (forall x, ps0 x < 256) -> Inv (powerUp ps0 a wr).
Proof. intros H. apply ok_core_init. apply boot_pre; auto. Qed.
Lemma inv_run es : forall w, Forall event_wf es -> Inv w -> Inv (run es w).
Proof.
  induction es as [|e es IH]; intros w H Hw; [exact Hw|]. inversion H; subst. cbn [run fold_left].
  apply IH; [assumption|]. apply inv_stepE; assumption.
Qed.
End Inv.

Section Reach.
Context {A : Type} {E : Env A}.
Hypothesis VE : valid_env E.
Lemma reachFrom_inv ps0 w : reachableFrom ps0 w -> Inv ps0 w.
Proof. intros (a & wr & es & H1 & H2 & ->). apply inv_run; [exact VE|exact H2|]. apply inv_powerUp; assumption. Qed.
Lemma reachFrom_step ps0 w e : reachableFrom ps0 w -> event_wf e -> reachableFrom ps0 (stepE e w).
Proof.
  intros (a & wr & es & H1 & H2 & ->) He. exists a, wr, (es ++ [e]). split; [exact H1|]. split.
  - apply Forall_app. auto.
  - unfold run. rewrite fold_left_app. reflexivity.
Qed.
Lemma reach_inv w : reachable w -> exists ps0, Inv ps0 w.
Proof. intros [ps0 H]. exists ps0. apply reachFrom_inv. exact H. Qed.
End Reach.

(* effects of a call *)
Lemma effects_app {A} (w w' : World A) d : w_out w' = d ++ w_out w -> effects w w' = rev d.
Proof.
  intros H. unfold effects. rewrite H, app_length. replace (length d + length (w_out w) - length (w_out w))%nat with (length d + 0)%nat by lia.
  rewrite firstn_app_2. cbn [firstn]. rewrite app_nil_r. reflexivity.
Qed.
Lemma replay_memAfter d : forall ps x, replay ps (rev d) x = memAfter ps d x.
Proof.
  induction d as [|o d IH]; intros ps x; [reflexivity|]. cbn [rev]. rewrite replay_app.
  destruct o; cbn [memAfter replay]; rewrite IH; reflexivity.
Qed.
