(* Prop_Ext.v - property C41: EXTENDED_PAGE_READ. *)
From Verif Require Import Spec_Ext Proof_ExtRun FixtureReq.

(* C41: an accepted request for n registers from register a of page p on, followed by any history without another request:
   the frames that went out carry the requested registers, each once and in order, with consecutive sequence numbers; what is left is what
   the node has yet to send, unless factory settings were restored or power was lost *)
Theorem C41_transfer :
  forall A (E : Env A), valid_env E ->
    forall w rd m p1 p2 a rest es, request w rd m 37 (w_nick w :: p1 :: p2 :: a :: rest) ->
    Forall event_wf es -> noFurther es (after w rd) ->
    let w' := run es (after w rd) in let l := effects w w' in let fs := sentReads l in
    exists left, concat (map covers fs) ++ left = regsFrom (256 * p1 + p2) a (asked rest) /\
      map seqNumber fs = map N.of_nat (seq 0 (length fs)) /\ Forall (fun f => covers f <> []) fs /\
      (~ abandoned l -> left = regsFrom (w_xpage w') (w_xaddr w') (N.to_nat (w_xcount w')) /\ w_xseq w' = N.of_nat (length fs) mod 256).
Proof.
  intros A E VE w rd m p1 p2 a rest es HQ HE HN w' l fs. destruct (request_x VE w rd m p1 p2 a rest HQ) as (w0 & l1 & _ & _ & H). cbv zeta in H. destruct H as (H1 & H2 & H3 & _).
  assert (HR : reachable (after w rd)) by (apply reach_op; apply HQ). destruct (run_x VE es (after w rd) HR HE HN) as (l2 & O2 & X2). fold w' in O2, X2.
  assert (LL : l = OProcess :: ORx m :: notice m ++ l1 ++ rev l2).
  { unfold l. assert (EX : exists d, w_out (after w rd) = d ++ w_out w) by (destruct (reach_inv VE w (proj1 HQ)) as [ps0 HI]; exact (proj2 (inv_stepE ps0 VE (EOp (OpProcess rd)) w (proj1 (proj2 HQ)) HI))). destruct EX as [d D].
    rewrite (effects_app w w' (l2 ++ d)) by (rewrite O2, D, app_assoc; reflexivity). rewrite rev_app_distr, <- (effects_app w (after w rd) d D), H1. cbn [app]. rewrite <- app_assoc. reflexivity. }
  assert (XR1 : xr (true, (256 * p1 + p2, a, N.of_nat (asked rest), 0)) (l1 ++ rev l2) (true, xst w')) by (apply xr_app; eauto).
  destruct (xr_delivers _ _ _ _ _ _ _ _ _ _ _ XR1 H2) as (left & D1 & D2 & D3 & D4). cbv zeta in *.
  assert (FS : fs = ownReads true (l1 ++ rev l2)) by (unfold fs, sentReads, readFrames; rewrite LL; unfold notice, ownReads; destruct (c_prot_ev cfg); reflexivity).
  rewrite FS. set (gs := ownReads true (l1 ++ rev l2)) in *. rewrite Nat2N.id in D1. exists left. split; [exact D1|]. split; [|split; [exact D3|]].
  - rewrite D2. apply map_ext_in. intros i Hi. apply in_seq in Hi. pose proof (covers_count gs D3) as LC. apply (f_equal (@length _)) in D1. rewrite app_length, regsFrom_length in D1.
    destruct H2 as (_ & _ & H2 & _). lia.
  - intros NA. destruct D4 as [K1 K2]; [|split; [exact K1|rewrite K2; reflexivity]]. intros K. apply NA. rewrite LL. unfold abandoned in *. cbn [In]. rewrite !in_app_iff. rewrite !in_app_iff in K. tauto.
Qed.
Print Assumptions C41_transfer.

(* 20 registers from register 250 of page 0 on; the transfer is complete after six more cycles *)
Example C41_transfer_sat :
  let E := exEnv (exCfg oDm) in
  let w := exNode oDm [] in let m := exReq 37 [5; 0; 0; 250; 20] in let es := repeat (EOp (A := Regs) (OpProcess None)) 6 in
  valid_env E /\ request w (Some m) m 37 [w_nick w; 0; 0; 250; 20] /\ Forall event_wf es /\ noFurther es (after w (Some m)) /\
  let w' := run es (after w (Some m)) in let fs := sentReads (effects w w') in
  readPending w' = false /\ ~ abandoned (effects w w') /\ length fs = 6%nat /\ concat (map covers fs) = regsFrom 0 250 20 /\ last (regsFrom 0 250 20) (0, 0) = (1, 13).
Proof.
  cbv zeta. split; [exvalid|]. split; [exreq|]. split; [repeat constructor; exwf|]. split; [vm_compute; repeat split; intros; try contradiction|]. split; [vmc|].
  split; [vm_compute; intuition discriminate|]. vmc.
Qed.

(* C41: when nothing is left, every requested register has been sent *)
Theorem C41_complete :
  forall A (E : Env A), valid_env E ->
    forall w rd m p1 p2 a rest es, request w rd m 37 (w_nick w :: p1 :: p2 :: a :: rest) ->
    Forall event_wf es -> noFurther es (after w rd) ->
    let w' := run es (after w rd) in let l := effects w w' in
    ~ abandoned l -> readPending w' = false -> concat (map covers (sentReads l)) = regsFrom (256 * p1 + p2) a (asked rest).
Proof.
  intros A E VE w rd m p1 p2 a rest es HQ HE HN w' l NA RP. destruct (C41_transfer A E VE w rd m p1 p2 a rest es HQ HE HN) as (left & D & _ & _ & K). cbv zeta in *.
  destruct (K NA) as [L _]. unfold readPending in RP. fold w' in L. replace (w_xcount w') with 0 in L by lia. rewrite L in D. cbn [regsFrom N.to_nat seq map] in D. rewrite app_nil_r in D. exact D.
Qed.
Print Assumptions C41_complete.

(* C41: the transfer does not stall: as long as it is unfinished, every idle cycle of an active node sends at least one of the registers
   or has a frame rejected by the adapter *)
Theorem C41_progress :
  forall A (E : Env A), valid_env E -> timersNeeded cfg <= c_timers cfg ->
    forall w es, reachable w -> Forall event_wf es -> idleCycles es w ->
    let w' := run es w in readPending w' = true -> (length es + N.to_nat (w_xcount w') <= N.to_nat (w_xcount w) + refused (effects w w'))%nat.
Proof. intros A E VE HT w es HR HE HI. exact (progress VE HT es w HR HE HI). Qed.
Print Assumptions C41_progress.

(* not in general: a factory restore ends the transfer *)
Theorem C41_restore_refuted :
  exists E : Env Regs, valid_env E /\
  exists w m es, request w (Some m) m 37 [w_nick w; 0; 0; 0; 200] /\ Forall event_wf es /\ noFurther es (after w (Some m)) /\
    let w' := run es (after w (Some m)) in readPending w' = false /\ concat (map covers (sentReads (effects w w'))) <> regsFrom 0 0 200.
Proof.
  pose (E := exEnv (exCfg oDm)). exists E. split; [exvalid|]. exists (exNode oDm []), (exReq 37 [5; 0; 0; 0; 200]), [EOp (A := Regs) (OpApi ARestore)]. split; [exreq|].
  split; [repeat constructor; exwf|]. split; [vm_compute; repeat split; intros; try contradiction|]. vm_compute. split; [reflexivity|discriminate].
Qed.
Print Assumptions C41_restore_refuted.

(* C41: the frame with the first registers is sent when the request is received, and carries what reading them returns *)
Theorem C41_first :
  forall A (E : Env A), valid_env E ->
    forall w rd m p1 p2 a rest, request w rd m 37 (w_nick w :: p1 :: p2 :: a :: rest) ->
    let p := 256 * p1 + p2 in let n := asked rest in let k := Nat.min 4 (Nat.min n (N.to_nat (256 - a))) in
    let r := readRegs p a k (transfer (heard w m) p a n 0) in
    exists f ok others, protFrame f 39 7 (w_nick w) ([0; p1; p2; a] ++ map fst (fst r)) /\
      effects w (after w rd) = OProcess :: ORx m :: notice m ++ concat (map snd (fst r)) ++ OTx f ok :: others.
Proof.
  intros A E VE w rd m p1 p2 a rest HQ p n k r. destruct (request_x VE w rd m p1 p2 a rest HQ) as (w0 & l1 & S0 & O0 & H). cbv zeta in H. destruct H as (H1 & H2 & H3 & l' & H4).
  fold p in H1, H2, H3, H4. fold n in H2, H3, H4. set (u := xset (p, a, N.of_nat n, 0) w0) in *.
  assert (XU : xst u = (p, a, N.of_nat n, 0)) by reflexivity. assert (N0 : (0 < n)%nat) by (unfold n, asked; destruct rest as [|c [|]]; try lia; destruct (N.eqb_spec c 0); lia).
  destruct H2 as (B1 & B2 & B3 & B4).
  destruct (ext_frame u) as (f & ok & v & PF & OV & KV & EQ); [rewrite XU; unfold xb; lia|change (w_xcount u) with (N.of_nat n); lia|].
  cbv zeta in *. change (w_xpage u) with p in *. change (w_xaddr u) with a in *. change (w_xcount u) with (N.of_nat n) in *. change (w_xseq u) with 0 in *. 
  assert (CK : chunk a (N.of_nat n) = k) by (unfold chunk, k; lia). rewrite CK in *.
  assert (SU : same u (transfer (heard w m) p a n 0)) by (destruct S0 as [V T]; split; [unfold u, transfer; cbn [xset]; unfold visible in *; wsimp; congruence|exact T]).
  destruct (readRegs_same p k a u _ SU) as [RS1 RS2]. fold r in RS1, RS2. rewrite RS1 in PF.
  assert (NK : w_nick u = w_nick w) by (transitivity (w_nick w0); [reflexivity|]; rewrite (same_nick _ _ S0), heard_nick; reflexivity). rewrite NK in PF.
  exists f, ok, (rev l'). split.
  - assert (PB : p / 256 = p1 /\ p mod 256 = p2).
    { destruct HQ as (HR & HO & HA & HT & HC & HTY & HP & HU). pose proof (received_wf VE rd w m HR HO (received_taken rd w m HT)) as WF. destruct (payload_at m _ WF HP) as [SZ AT]. cbn [length] in *.
      assert (D2 := AT 2 ltac:(lia)). change (N.to_nat 2) with 2%nat in D2. cbn [nth] in D2. assert (P2 : p2 < 256).
      { destruct WF as (_ & _ & _ & _ & _ & _ & HB). rewrite <- D2. unfold at0. destruct (nth_in_or_default (N.to_nat 2) (m_data m) 0) as [HI|D0]; [|rewrite D0; lia]. unfold bytes in HB. rewrite Forall_forall in HB. apply HB. exact HI. }
      unfold p. lia. }
    destruct PB as [PB1 PB2]. rewrite PB1, PB2 in PF. exact PF.
  - destruct (readRegs_out p k a u) as [RO _]. rewrite RS1 in RO.
    assert (OE : w_out (snd (extendedPageRead u)) = (OTx f ok :: rev (concat (map snd (fst r)))) ++ w_out u).
    { rewrite EQ. transitivity (w_out v); [destruct ok; [destruct (xadv _ _) as [[[? ?] ?] ?]|]; reflexivity|]. rewrite OV, RO. reflexivity. }
    rewrite (effects_app u _ _ OE) in H4. apply (f_equal (@rev Obs)) in H4. rewrite rev_involutive, rev_app_distr, rev_involutive in H4. rewrite H1, H4. cbn [rev]. rewrite rev_involutive, <- !app_assoc. reflexivity.
Qed.
Print Assumptions C41_first.

Example C41_first_sat :
  let E := exEnv (exCfg oDm) in let w := exNode oDm [] in let m := exReq 37 [5; 0; 0; 250] in
  valid_env E /\ request w (Some m) m 37 [w_nick w; 0; 0; 250].
Proof. cbv zeta. split; [exvalid|exreq]. Qed.

(* C41: in an idle cycle of an active node the next frame is sent, and repeated in the next one if the adapter rejects it.
   p, a, n, s: page, register, number of registers and sequence number that are next *)
Theorem C41_next :
  forall A (E : Env A), valid_env E -> timersNeeded cfg <= c_timers cfg ->
    forall w rd, reachable w -> op_wf (OpProcess rd) -> isActive w = true -> taken (effects w (after w rd)) = [] -> heartbeatDue w = false -> readPending w = true ->
    let p := w_xpage w in let a := w_xaddr w in let n := N.to_nat (w_xcount w) in let s := w_xseq w in
    let k := Nat.min 4 (Nat.min n (N.to_nat (256 - a))) in let r := readRegs p a k w in
    exists f ok, protFrame f 39 7 (w_nick w) ([s; p / 256; p mod 256; a] ++ map fst (fst r)) /\
      effects w (after w rd) = OProcess :: concat (map snd (fst r)) ++ [OTx f ok; ORet true] /\
      same (after w rd) (if ok then (if a + N.of_nat k =? 256 then transfer (snd r) ((p + 1) mod 65536) 0 (n - k) ((s + 1) mod 256)
                                     else transfer (snd r) p (a + N.of_nat k) (n - k) ((s + 1) mod 256)) else snd r).
Proof.
  intros A E VE HT w rd HR HO HA TK HB RP p a n s k r. unfold readPending in RP. assert (HC : 0 < w_xcount w) by lia.
  destruct (idle_x VE w rd HT HR HO HA TK HB HC) as (f & ok & H1 & H2 & H3). cbv zeta in *. fold p in H1, H2, H3. fold a in H1, H2, H3. fold s in H1.
  assert (CK : chunk a (w_xcount w) = k) by (unfold chunk, k, n; lia). rewrite CK in *. fold r in H1, H2, H3. exists f, ok. split; [exact H1|]. split; [exact H2|].
  destruct ok; [|exact H3]. unfold xst, xadv in H3. fold a in H3. fold p in H3. fold s in H3.
  replace (w_xcount w - N.of_nat k) with (N.of_nat (n - k)) in H3 by (unfold n; lia). destruct (a + N.of_nat k =? 256); exact H3.
Qed.
Print Assumptions C41_next.

Example C41_next_sat :
  let E := exEnv (exCfg oDm) in let w := exNode oDm [EOp (A := Regs) (OpProcess (Some (exReq 37 [5; 0; 0; 250; 20])))] in
  valid_env E /\ timersNeeded cfg <= c_timers cfg /\ reachable w /\ op_wf (OpProcess None) /\ isActive w = true /\ taken (effects w (after w None)) = [] /\ heartbeatDue w = false /\
  readPending w = true /\ idleCycles [EOp (A := Regs) (OpProcess None); EOp (OpProcess None)] w.
Proof. cbv zeta. split; [exvalid|]. split; [vm_compute; discriminate|]. split; [exreach|]. split; [exwf|]. vmc. Qed.
