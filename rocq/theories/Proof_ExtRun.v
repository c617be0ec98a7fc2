(* Proof_ExtRun.v - what the frames of a transfer carry *)
From Verif Require Export Proof_Ext.

(* ---- what the frames carry ---- *)
Lemma seq_off k : forall c z, seq (k + z) c = map (fun i => (k + i)%nat) (seq z c).
Proof. induction c as [|c IH]; intros z; [reflexivity|]. cbn [seq map]. f_equal. rewrite <- IH. f_equal. lia. Qed.
Lemma regsFrom_split p a n k : (k <= n)%nat -> a + N.of_nat k <= 256 -> p < 65536 ->
  regsFrom p a n = regsFrom p a k ++ regsFrom (if a + N.of_nat k =? 256 then (p + 1) mod 65536 else p) (if a + N.of_nat k =? 256 then 0 else a + N.of_nat k) (n - k).
Proof.
  intros HK HA HP. unfold regsFrom. replace n with (k + (n - k))%nat at 1 by lia. rewrite seq_app, map_app. f_equal.
  replace (seq (0 + k) (n - k)) with (map (fun i => (k + i)%nat) (seq 0 (n - k))).
  - rewrite map_map. apply map_ext. intros i. destruct (N.eqb_spec (a + N.of_nat k) 256) as [Q|Q].
    + replace (a + N.of_nat (k + i)) with (256 + N.of_nat i) by lia. rewrite (N.add_0_l (N.of_nat i)). f_equal; lia.
    + replace (a + N.of_nat k + N.of_nat i) with (a + N.of_nat (k + i)) by lia. reflexivity.
  - symmetry. replace (0 + k)%nat with (k + 0)%nat by lia. apply seq_off.
Qed.
Lemma covers_fit p a n q f : xb (p, a, n, q) -> xfits (p, a, n, q) f -> 
  covers f = regsFrom p a (N.to_nat (xk f)) /\ seqNumber f = q /\ (0 < N.to_nat (xk f) <= N.to_nat n)%nat /\ a + xk f <= 256.
Proof.
  intros (B1 & B2 & B3 & B4) (vs & P & K1 & K2). unfold covers, seqNumber, xk. rewrite P. cbn [length hd]. replace (S (S (S (S (length vs)))) - 4)%nat with (length vs) by lia.
  split; [|split; [reflexivity|split; lia]]. unfold regsFrom. rewrite Nat2N.id. apply map_ext_in. intros i Hi. apply in_seq in Hi. f_equal; [|lia].
  replace ((a + N.of_nat i) / 256) with 0 by (symmetry; apply N.div_small; lia). lia.
Qed.
Definition ownReads (b : bool) (l : list Obs) : list Msg := map fst (filter snd (filter (fun x => isReadFrame (fst x)) (nodeFrames b l))).
Lemma regsFrom_length p a n : length (regsFrom p a n) = n. Proof. unfold regsFrom. rewrite map_length, seq_length. reflexivity. Qed.
Lemma xr_dead l : forall b b' p a q st', xr (b, (p, a, 0, q)) l (b', st') -> ownReads b l = [].
Proof.
  induction l as [|o l IH]; intros b b' p a q st' H; [reflexivity|]. destruct H as ((b1 & s1) & H1 & H2).
  assert (NX : forall f, ~ xfits (p, a, 0, q) f) by (intros f (vs & _ & K & _); lia).
  destruct o; cbn [xs] in H1; try (injection H1 as -> ->; exact (IH _ _ _ _ _ _ H2)).
  - destruct c; injection H1 as -> ->; exact (IH _ _ _ _ _ _ H2).
  - destruct H1 as [F1 F2]. cbn [fst snd] in *. injection F2 as -> ->. unfold ownReads. cbn [nodeFrames]. destruct b.
    + destruct (isReadFrame m) eqn:IR; [exfalso; apply (NX m); auto|]. cbn [andb] in H2. cbn [app filter fst]. rewrite IR. exact (IH _ _ _ _ _ _ H2).
    + cbn [andb app] in *. exact (IH _ _ _ _ _ _ H2).
  - destruct H1 as [H1|H1]; injection H1 as -> ->; [exact (IH _ _ _ _ _ _ H2)|exact (IH _ _ 0 0 0 _ H2)].
  - destruct H1 as [H1|H1]; injection H1 as -> ->; [exact (IH _ _ _ _ _ _ H2)|exact (IH _ _ 0 0 0 _ H2)].
Qed.
Lemma xr_delivers l : forall b p a n q b' p' a' n' q', xr (b, (p, a, n, q)) l (b', (p', a', n', q')) -> xb (p, a, n, q) ->
  let fs := ownReads b l in exists left, concat (map covers fs) ++ left = regsFrom p a (N.to_nat n) /\
    map seqNumber fs = map (fun i => (q + N.of_nat i) mod 256) (seq 0 (length fs)) /\ Forall (fun f => covers f <> []) fs /\
    (~ abandoned l -> left = regsFrom p' a' (N.to_nat n') /\ q' = (q + N.of_nat (length fs)) mod 256).
Proof.
  induction l as [|o l IH]; intros b p a n q b' p' a' n' q' H B fs.
  - cbn [xr] in H. injection H as -> -> -> -> ->. exists (regsFrom p a (N.to_nat n)). cbn. split; [reflexivity|]. split; [reflexivity|]. split; [constructor|]. intros _. split; [reflexivity|]. destruct B as (_ & _ & _ & B). rewrite N.add_0_r, N.mod_small by exact B. reflexivity.
  - destruct H as ((b1 & s1) & H1 & H2).
    assert (NA : ~ abandoned (o :: l) -> ~ abandoned l) by (intros HN [K|K]; apply HN; [left|right]; right; exact K).
    assert (PASS : b1 = true \/ b1 = false -> s1 = (p, a, n, q) -> ownReads b (o :: l) = ownReads b1 l -> exists left, concat (map covers fs) ++ left = regsFrom p a (N.to_nat n) /\
      map seqNumber fs = map (fun i => (q + N.of_nat i) mod 256) (seq 0 (length fs)) /\ Forall (fun f => covers f <> []) fs /\
      (~ abandoned (o :: l) -> left = regsFrom p' a' (N.to_nat n') /\ q' = (q + N.of_nat (length fs)) mod 256)).
    { intros _ -> EQ. unfold fs. rewrite EQ. destruct (IH _ _ _ _ _ _ _ _ _ _ H2 B) as (left & I1 & I2 & I3 & I4). exists left. split; [exact I1|]. split; [exact I2|]. split; [exact I3|]. intros HN. apply I4, NA, HN. }
    assert (DEAD : s1 = x0 -> (o = OAppRestore \/ o = OPower) -> ownReads b (o :: l) = ownReads b1 l -> exists left, concat (map covers fs) ++ left = regsFrom p a (N.to_nat n) /\
      map seqNumber fs = map (fun i => (q + N.of_nat i) mod 256) (seq 0 (length fs)) /\ Forall (fun f => covers f <> []) fs /\
      (~ abandoned (o :: l) -> left = regsFrom p' a' (N.to_nat n') /\ q' = (q + N.of_nat (length fs)) mod 256)).
    { intros -> OO EQ. unfold fs. rewrite EQ. rewrite (xr_dead _ _ _ _ _ _ _ H2). exists (regsFrom p a (N.to_nat n)). split; [reflexivity|]. split; [reflexivity|]. split; [constructor|].
      intros HN. exfalso. apply HN. destruct OO as [-> | ->]; [left|right]; left; reflexivity. }
    destruct o; cbn [xs] in H1; try (injection H1 as -> ->; apply PASS; auto; fail).
    + destruct c; injection H1 as -> ->; apply PASS; auto.
    + destruct H1 as [F1 F2]. cbn [fst snd] in *. destruct (b && isReadFrame m && ok) eqn:C.
      * injection F2 as -> ->. assert (CC : b = true /\ isReadFrame m = true /\ ok = true) by (destruct b, (isReadFrame m), ok; auto). destruct CC as (-> & IR & ->).
        pose proof (F1 eq_refl IR) as FT. pose proof (xadv_b _ _ B FT) as B1. destruct (covers_fit p a n q m B FT) as (CV & SN & LK & LA).
        cbn [xadv] in H2, B1. destruct (IH _ _ _ _ _ _ _ _ _ _ H2 B1) as (left & I1 & I2 & I3 & I4).
        assert (EQ : fs = m :: ownReads true l) by (unfold fs, ownReads; cbn [nodeFrames app filter fst]; rewrite IR; reflexivity).
        rewrite EQ. cbn [map concat length]. exists left. split; [|split; [|split]].
        -- rewrite <- app_assoc, I1, CV. rewrite (regsFrom_split p a (N.to_nat n) (N.to_nat (xk m))); [|lia|lia|apply B]. rewrite N2Nat.id. replace (N.to_nat (n - xk m)) with (N.to_nat n - N.to_nat (xk m))%nat by lia. reflexivity.
        -- cbn [seq map]. rewrite I2, SN. f_equal; [destruct B as (_ & _ & _ & B); change (N.of_nat 0) with 0; rewrite N.add_0_r, N.mod_small by exact B; reflexivity|].
           rewrite <- seq_shift, map_map. apply map_ext. intros i. lia.
        -- constructor; [|exact I3]. rewrite CV. intros Q. apply (f_equal (@length _)) in Q. rewrite regsFrom_length in Q. cbn [length] in Q. lia.
        -- intros HN. destruct (I4 (NA HN)) as [J1 J2]. split; [exact J1|]. rewrite J2. lia.
      * injection F2 as -> ->. apply PASS; auto. unfold ownReads. cbn [nodeFrames]. destruct b; [|reflexivity]. cbn [app filter fst andb] in *. destruct (isReadFrame m); [|reflexivity]. cbn [andb] in C. subst ok. reflexivity.
    + destruct H1 as [H1|H1]; injection H1 as -> ->; [apply PASS|apply DEAD]; auto.
    + destruct H1 as [H1|H1]; injection H1 as -> ->; [apply PASS|apply DEAD]; auto.
Qed.
Lemma covers_count fs : Forall (fun f => covers f <> []) fs -> (length fs <= length (concat (map covers fs)))%nat.
Proof. induction fs as [|f fs IH]; intros H; [cbn; lia|]. inversion H; subst. cbn [map concat length]. rewrite app_length. specialize (IH H3). destruct (covers f); [congruence|]. cbn [length]. lia. Qed.

Section I.
Context {A : Type} {E : Env A}.
Implicit Types w : World A.
Lemma readRegs_same p : forall k a w H, same w H -> fst (readRegs p a k w) = fst (readRegs p a k H) /\ same (snd (readRegs p a k w)) (snd (readRegs p a k H)).
Proof.
  induction k as [|k IH]; intros a w H S; [split; [reflexivity|exact S]|]. cbn [readRegs fst snd]. destruct (read_step p a w H S) as (R1 & R2 & R3 & _). cbv zeta in *.
  destruct (IH (a + 1) _ _ R2) as [I1 I2]. rewrite R1, I1, (effects_app _ _ _ R3), rev_involutive. split; [reflexivity|exact I2].
Qed.
(* a cycle without a message *)
Lemma idle_x (VE : valid_env E) w rd : timersNeeded cfg <= c_timers cfg -> reachable w -> op_wf (OpProcess rd) -> isActive w = true -> taken (effects w (after w rd)) = [] -> heartbeatDue w = false -> 0 < w_xcount w ->
  let p := w_xpage w in let a := w_xaddr w in let n := w_xcount w in let k := chunk a n in let r := readRegs p a k w in
  exists f ok, protFrame f 39 7 (w_nick w) ([w_xseq w; p / 256; p mod 256; a] ++ map fst (fst r)) /\
    effects w (after w rd) = OProcess :: concat (map snd (fst r)) ++ [OTx f ok; ORet true] /\ same (after w rd) (if ok then xset (xadv (xst w) (N.of_nat k)) (snd r) else snd r).
Proof.
  intros HT HR HO HA TK HB HC p a n k r. pose proof (process_taken rd w) as PT. unfold after in TK. rewrite TK in PT. assert (RM : received rd w = None) by (destruct (received rd w); [discriminate PT|reflexivity]).
  set (u := snd (prologue rd w)). assert (SU : same u w) by apply prologue_same. destruct (prologue_norx rd w RM) as [_ RV]. fold u in RV.
  assert (OU : w_out u = OProcess :: w_out w) by (unfold u; rewrite prologue_out, RM; reflexivity).
  assert (AU : apart u) by (apply apart_prologue; apply (reach_apart w VE HR HT)).
  assert (ST : w_st u = ACTIVE) by (rewrite (same_st _ _ SU); unfold isActive in HA; destruct (w_st w); try discriminate HA; reflexivity).
  assert (XU := same_xst _ _ SU). assert (NU := same_nick _ _ SU).
  assert (AHB : activeHeartbeat u = (tt, u)).
  { unfold activeHeartbeat. unfold heartbeatDue in HB. destruct (c_hb_node cfg) eqn:HN; [|reflexivity]. unfold timer_running. rewrite !bind_get. cbn [andb] in HB.
    assert (HE : w_hbEn u = w_hbEn w) by (destruct SU as [V _]; unfold visible in V; congruence). assert (HI : w_tHb u = w_tHb w) by (destruct SU as [V _]; unfold visible in V; congruence).
    assert (TR : timerRunning (w_tm u) (w_tHb u) = timerRunning (w_tm w) (w_tHb w)).
    { rewrite HI. destruct SU as [V T]. unfold timerRunning. rewrite T; [reflexivity|]. assert (A1 : w_tHb u = 4) by (apply AU; exact HN). assert (A2 : w_tEp u = 3) by apply AU. rewrite <- HI, A1, A2. discriminate. }
    rewrite HE, TR. replace (w_hbEn w && negb (timerRunning (w_tm w) (w_tHb w))) with false by (symmetry; exact HB). reflexivity. }
  assert (BU : xb (xst u)) by (rewrite XU; exact (reach_xb VE w HR)).
  assert (DS : snd (dispatch u) = snd (extendedPageRead u) /\ fst (dispatch u) = true).
  { unfold dispatch. rewrite bind_get, ST. unfold stateActive, activeMessage. rewrite bind_assoc, bind_get, RV, bind_ret. rewrite (bind_val _ _ _ _ _ AHB). rewrite bind_get.
    replace (0 <? w_xcount u) with true by (unfold xst in XU; injection XU; intros; lia). split; reflexivity. }
  assert (CU : 0 < w_xcount u) by (unfold xst in XU; injection XU; intros; lia).
  destruct (ext_frame u BU CU) as (f & ok & v & PF & OV & KV & EQ). cbv zeta in *.
  assert (P1 : w_xpage u = p /\ w_xaddr u = a /\ w_xcount u = n /\ w_xseq u = w_xseq w) by (unfold xst in XU; injection XU; auto). destruct P1 as (P1 & P2 & P3 & P4). rewrite P1, P2, P3, P4 in *. fold k in PF, OV, KV, EQ.
  destruct (readRegs_same p k a u w SU) as [RS1 RS2]. fold r in RS1, RS2. rewrite RS1, NU in PF. exists f, ok. split; [exact PF|].
  destruct (readRegs_out p k a u) as [RO _]. rewrite RS1 in RO. destruct DS as [DS1 DS2].
  assert (WA : after w rd = set_out (ORet true :: w_out (snd (extendedPageRead u))) (set_rxv false (snd (extendedPageRead u)))).
  { unfold after, step. rewrite snd_then, (process_state rd w). cbv zeta. cbn [snd]. rewrite RM. fold u. rewrite DS1, DS2. reflexivity. }
  assert (OE : w_out (snd (extendedPageRead u)) = OTx f ok :: w_out (snd (readRegs p a k u))).
  { rewrite EQ, <- OV. destruct ok; [destruct (xadv _ _) as [[[? ?] ?] ?]|]; reflexivity. }
  split.
  - rewrite (effects_app w (after w rd) (ORet true :: OTx f ok :: rev (concat (map snd (fst r))) ++ [OProcess])).
    + cbn [rev]. rewrite rev_app_distr, rev_involutive. cbn [rev app]. rewrite <- !app_assoc. reflexivity.
    + rewrite WA. wsimp. rewrite OE, RO, OU, <- !app_comm_cons, <- app_assoc. reflexivity.
  - assert (SV : same v (snd r)) by exact (same_trans _ _ _ (keeps_same _ _ KV) RS2).
    rewrite WA. rewrite EQ. rewrite <- XU. destruct ok.
    + destruct (xadv (xst u) (N.of_nat k)) as [[[p' a'] n'] q']. destruct SV as [V T]. split; [unfold visible in *; cbn [xset]; wsimp; congruence|exact T].
    + destruct SV as [V T]. split; [exact V|exact T].
Qed.
Lemma xr_zero l : forall b p a q b' p' a' n' q', xr (b, (p, a, 0, q)) l (b', (p', a', n', q')) -> n' = 0.
Proof.
  induction l as [|o l IH]; intros b p a q b' p' a' n' q' H; cbn [xr] in H; [congruence|]. destruct H as ((b1 & s1) & H1 & H2).
  assert (K : exists p1 a1 q1, s1 = (p1, a1, 0, q1)).
  { assert (P : (b1, s1) = (true, (p, a, 0, q)) \/ (b1, s1) = (false, (p, a, 0, q)) \/ (b1, s1) = (true, x0)).
    { destruct o; cbn [xs fst snd] in H1; auto; try tauto.
      - destruct c; auto.
      - destruct H1 as [F H1]. match type of H1 with context [if ?c then _ else _] => destruct c eqn:C end; [|auto]. apply andb_prop in C. destruct C as [C _]. apply andb_prop in C. destruct C as [C1 C2].
        destruct (F C1 C2) as (vs & _ & K1 & K2). lia. }
    destruct P as [P|[P|P]]; inversion P; unfold x0; eauto. }
  destruct K as (p1 & a1 & q1 & ->). exact (IH _ _ _ _ _ _ _ _ _ H2).
Qed.
Lemma nodeFrames_still l : Forall (fun o => still2 o = true) l -> forall b r, l <> [] -> nodeFrames b (l ++ r) = nodeFrames true r.
Proof.
  induction 1 as [|o l Ho Hl IH]; intros b r N; [congruence|]. cbn [app]. assert (K : nodeFrames b (o :: l ++ r) = nodeFrames true (l ++ r)).
  { destruct o; try discriminate Ho; try reflexivity. destruct c; try discriminate Ho; reflexivity. }
  rewrite K. destruct l; [reflexivity|]. apply IH. discriminate.
Qed.
Lemma nodeFrames_ret l1 : forall b l2, nodeFrames b (l1 ++ ORet true :: l2) = nodeFrames b (l1 ++ [ORet true]) ++ nodeFrames true l2.
Proof.
  induction l1 as [|o l1 IH]; intros b l2; [reflexivity|]. cbn [app]. destruct o; try (exact (IH true l2)). - destruct c; exact (IH _ l2). - cbn [nodeFrames]. rewrite IH, app_assoc. reflexivity.
Qed.
Lemma idle_none es : forall w, idleCycles es w -> noFurther es w.
Proof.
  induction es as [|e es IH]; intros w H; [exact I|]. destruct e as [o|]; [|destruct H]. destruct o; try (destruct H; fail). cbn [idleCycles] in H. destruct H as (_ & H2 & _ & H4). split; [|apply IH; exact H4].
  intros m HI. change (taken (effects w (after w rd))) in HI || idtac. unfold after in H2. change (stepE (EOp (OpProcess rd)) w) with (snd (step (OpProcess rd) w)) in HI. rewrite H2 in HI. destruct HI.
Qed.
Lemma progress (VE : valid_env E) : timersNeeded cfg <= c_timers cfg -> forall es w, reachable w -> Forall event_wf es -> idleCycles es w ->
  let w' := run es w in readPending w' = true -> (length es + N.to_nat (w_xcount w') <= N.to_nat (w_xcount w) + refused (effects w w'))%nat.
Proof.
  intros HT. induction es as [|e es IH]; intros w HR HE HI w' HP; [unfold w'; cbn; lia|].
  assert (PW : 0 < w_xcount w).
  { destruct (run_x VE (e :: es) w HR HE (idle_none _ _ HI)) as (l & _ & X). fold w' in X. destruct (N.eq_dec (w_xcount w) 0) as [Z|]; [|lia]. unfold xst in X. rewrite Z in X. apply xr_zero in X.
    unfold readPending in HP. rewrite X in HP. discriminate HP. }
  destruct e as [o|]; [|destruct HI]. destruct o; try (destruct HI; fail). cbn [idleCycles] in HI. destruct HI as (I1 & I2 & I3 & I4).
  inversion HE as [|? ? E1 E2]; subst. destruct (idle_x VE w rd HT HR E1 I1 I2 I3 PW) as (f & ok & PF & EF & SA). cbv zeta in *.
  set (k := chunk (w_xaddr w) (w_xcount w)) in *. set (r := readRegs (w_xpage w) (w_xaddr w) k w) in *. set (w1 := after w rd) in *.
  assert (R1 : reachable w1) by (apply reach_op; assumption). assert (W1 : w' = run es w1) by reflexivity.
  rewrite W1 in HP. specialize (IH w1 R1 E2 I4 HP). cbv zeta in IH. rewrite <- W1 in IH.
  assert (XB := reach_xb VE w HR). destruct XB as (B1 & B2 & B3 & B4).
  assert (LK : (0 < k <= 4)%nat /\ N.of_nat k <= w_xcount w) by (unfold k, chunk; lia).
  destruct (readRegs_x (w_xpage w) k (w_xaddr w) w) as (X1 & _). fold r in X1. destruct (readRegs_out (w_xpage w) k (w_xaddr w) w) as [_ S1]. fold r in S1.
  assert (XC : (N.to_nat (w_xcount w1) + (if ok then 1 else 0) <= N.to_nat (w_xcount w))%nat).
  { apply same_xst in SA. unfold xst in SA. destruct ok.
    - unfold xadv in SA. destruct (w_xaddr w + N.of_nat k =? 256); cbn [xset] in SA; apply (f_equal (fun x => snd (fst x))) in SA; cbn [fst snd] in SA; rewrite SA; wsimp; lia.
    - assert (XX : w_xcount w1 = w_xcount w) by (unfold xst in X1; congruence). lia. }
  set (l1 := OProcess :: concat (map snd (fst r)) ++ [OTx f ok]).
  assert (EL : effects w w1 = l1 ++ [ORet true]) by (rewrite EF; unfold l1; cbn [app]; rewrite <- app_assoc; reflexivity).
  assert (IRF : isReadFrame f = true) by (destruct PF as (F1 & F2 & F3 & _); unfold isReadFrame; rewrite F1, F2, F3; reflexivity).
  assert (RF : (refused (effects w w1) = (if ok then 0 else 1))%nat).
  { rewrite EF. unfold refused, readFrames. rewrite app_comm_cons, nodeFrames_still; [|constructor; [reflexivity|exact S1]|discriminate]. cbn [nodeFrames app filter fst]. rewrite IRF. destruct ok; reflexivity. }
  assert (RA : refused (effects w w') = (refused (effects w w1) + refused (effects w1 w'))%nat).
  { destruct (run_x VE es w1 R1 E2 (idle_none _ _ I4)) as (d2 & O2 & _). rewrite <- W1 in O2. destruct (reach_inv VE w HR) as [ps0 HI]. destruct (proj2 (inv_stepE ps0 VE (EOp (OpProcess rd)) w E1 HI)) as [d1 O1].
    change (w_out w1 = d1 ++ w_out w) in O1. assert (EW : effects w w' = effects w w1 ++ effects w1 w').
    { rewrite (effects_app w w' (d2 ++ d1)) by (rewrite O2, O1, app_assoc; reflexivity). rewrite rev_app_distr, <- (effects_app w w1 d1 O1), <- (effects_app w1 w' d2 O2). reflexivity. }
    rewrite EW, EL, <- app_assoc. unfold refused, readFrames. cbn [app]. rewrite nodeFrames_ret, !filter_app, app_length. reflexivity. }
  cbn [length]. destruct ok; lia.
Qed.
End I.

