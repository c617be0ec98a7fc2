(* Prop_Request.v - properties C32, C35, C36 and C43: protocol events that an active node receives. *)
From Verif Require Import Spec_Request Proof_RW FixtureReq.

(* C32: a protocol event that is meant for another node has no effect at all. *)
Theorem C32_other_nodes :
  forall A (E : Env A), valid_env E -> forall w rd m ty data,
    request w rd m ty data -> notFor (w_nick w) m -> served w (after w rd) m [] (heard w m).
Proof.
  intros A E VE w rd m ty data HQ HN.
  destruct (served_by VE (fun l w1 => l = [] /\ w1 = heard w m) w rd m ty data HQ) as (l & w1 & (-> & ->) & H); [|exact H].
  intros w0 S0 RX WF _ _ NK. exists [], (heard w m). split; [split; reflexivity|]. cbv zeta. rewrite (notFor_nothing w0 m RX WF) by (rewrite NK; exact HN).
  split; [reflexivity|]. split; [exact S0|]. intros _. apply undisturbed_refl.
Qed.
Print Assumptions C32_other_nodes.

Example C32_example :
  let E := exEnv (exCfg oFull) in
  let w := exNode oFull [] in let m := exReq 9 [6; 128] in
  valid_env E /\ request w (Some m) m 9 [6; 128] /\ notFor (w_nick w) m /\ quiet w (after w (Some m)) /\
  effects w (after w (Some m)) = [OProcess; ORx m; OProtEvent m; ORet true].
Proof. cbv zeta. split; [exvalid|]. split; [exreq|]. split; [left; split; [vm_compute; tauto|vm_compute; discriminate]|]. vmc. Qed.

(* C32: neither has a protocol event that the application claims, whatever it is and whoever it is meant for:
   the application is the only one that hears of it. *)
Theorem C32_claimed :
  forall A (E : Env A), valid_env E -> forall w rd m,
    reachable w -> op_wf (OpProcess rd) -> isActive w = true -> taken (effects w (after w rd)) = [m] -> m_class m = 0 ->
    claims w m -> served w (after w rd) m [] (heard w m).
Proof.
  intros A E VE w rd m HR HO HA HT HC [H1 H2].
  destruct (reception VE true w rd m HR HO HA HT HC) as (w0 & S0 & _ & _ & _ & rest & G1 & G2); [unfold reacts; rewrite H1; exact H2|].
  cbv zeta in G1, G2. change (snd (serving true w0)) with w0 in G1, G2.
  assert (EN : effects w0 w0 = []) by (unfold effects; rewrite Nat.sub_diag; reflexivity).
  rewrite EN in G1. exists rest. split; [exact G1|]. intros Q. destruct (G2 Q (undisturbed_refl w0)) as [K1 K2].
  split; [exact K1|]. exact (same_trans _ _ _ K2 S0).
Qed.
Print Assumptions C32_claimed.

(* writing the page select register: carried out if the application does not claim it *)
Example C32_claimed_example :
  let m := exReq 11 [5; 147; 3] in
  (let E := exClaim (exCfg oFull) in
   let w := exNode oFull [] in let w' := after w (Some m) in
   valid_env E /\ reachable w /\ op_wf (OpProcess (Some m)) /\ isActive w = true /\ taken (effects w w') = [m] /\ claims w m /\
   quiet w w' /\ effects w w' = [OProcess; ORx m; OProtEvent m; ORet true] /\ w_page w' = 0 /\ w_app w' 9 0 = 11) /\
  (let E := exEnv (exCfg oFull) in
   let w := exNode oFull [] in let w' := after w (Some m) in
   w_page w' = 3 /\ map (fun f => (m_type (fst f), payload (fst f))) (frames (effects w w')) = [(10, [147; 3])]).
Proof.
  cbv zeta. split; [|vmc]. split; [apply exClaim_valid; exvalid|]. split; [exreach|].
  split; [cbn; repeat split; cbn; try lia; repeat constructor; lia|]. vmc.
Qed.

(* C35: the VSCP registers. The answer is one response with the register's value; nothing
   changes, except that reading the alarm register clears it. *)
Theorem C35_vscp_register :
  forall A (E : Env A), valid_env E -> forall w rd m a,
    request w rd m 9 [w_nick w; a] -> 128 <= a -> ~ (154 <= a <= 161) ->
    exists f ok, protFrame f 10 3 (w_nick w) [a; vscpRegister (heard w m) a] /\
      served w (after w rd) m [OTx f ok] (if a =? 128 then set_alarm 0 (heard w m) else heard w m).
Proof.
  intros A E VE w rd m a HQ H1 H2. set (H := heard w m).
  destruct (served_by VE (fun l w1 => exists f ok, l = [OTx f ok] /\ protFrame f 10 3 (w_nick w) [a; vscpRegister H a] /\ w1 = if a =? 128 then set_alarm 0 H else H) w rd m 9 _ HQ)
    as (l & w1 & (f & ok & -> & PF & ->) & HS); [|exists f, ok; split; assumption].
  intros w0 S0 RX WF HT HP NK. fold H in S0.
  assert (HB : a < 256) by (apply (payload_byte m); [exact WF|rewrite HP; right; left; reflexivity]).
  rewrite <- NK in HP. destruct (read_handler w0 m a RX WF HT HP) as (ok & G1 & G2). rewrite (readVscp VE a w0) in G1, G2 by assumption. cbn [fst snd] in G1, G2.
  assert (NI : w_nick (if a =? 128 then set_alarm 0 w0 else w0) = w_nick w) by (destruct (a =? 128); exact NK). rewrite NI in G1.
  eexists. exists (if a =? 128 then set_alarm 0 H else H). split; [|split; [rewrite G1|split]].
  - eexists. exists ok. split; [reflexivity|]. rewrite <- (vscp_same w0 H a S0). split; [|reflexivity]. apply protFrame_mk. cbn; lia.
  - destruct (a =? 128); reflexivity.
  - apply (same_trans _ _ _ (keeps_same _ _ G2)). destruct (a =? 128); [|exact S0]. samet S0.
  - intros _. apply (undisturbed_trans w0 (if a =? 128 then set_alarm 0 w0 else w0)); [|apply keeps_undisturbed; exact G2].
    destruct (a =? 128); [|apply undisturbed_refl]. repeat split; auto.
Qed.
Print Assumptions C35_vscp_register.

Example C35_vscp_example :
  let E := exEnv (exCfg oDm) in
  let w := exNode oDm [EOp (OpApi (AAlarm 12))] in let m := exReq 9 [5; 128] in
  valid_env E /\ request w (Some m) m 9 [w_nick w; 128] /\ quiet w (after w (Some m)) /\
  vscpRegister (heard w m) 128 = 12 /\ vscpRegister (after w (Some m)) 128 = 0 /\
  map (fun f => (m_type (fst f), payload (fst f))) (frames (effects w (after w (Some m)))) = [(10, [128; 12])] /\
  map (vscpRegister w) [130; 131; 145; 148; 208; 224] = [13; 96; 5; 1; 0; 0].
Proof. cbv zeta. split; [exvalid|]. split; [exreq|]. vmc. Qed.

(* C35: a register below 0x80 that is a window on the decision logic *)
Theorem C35_window_register :
  forall A (E : Env A), valid_env E -> forall w rd m a f k,
    request w rd m 9 [w_nick w; a] -> isWindowOn 0 a f k ->
    exists fr ok, protFrame fr 10 3 (w_nick w) [a; stored (heard w m) f k] /\
      served w (after w rd) m [OTx fr ok] (heard w m).
Proof.
  intros A E VE w rd m a f k HQ HI. set (H := heard w m).
  destruct (served_by VE (fun l w1 => exists fr ok, l = [OTx fr ok] /\ protFrame fr 10 3 (w_nick w) [a; stored H f k] /\ w1 = H) w rd m 9 _ HQ)
    as (l & w1 & (fr & ok & -> & PF & ->) & HS); [|exists fr, ok; split; assumption].
  intros w0 S0 RX WF HT HP NK. fold H in S0. rewrite <- NK in HP. destruct (read_handler w0 m a RX WF HT HP) as (ok & G1 & G2).
  destruct (HI w0) as [HR _]. rewrite HR in G1, G2. cbn [fst snd] in G1, G2. rewrite NK in G1.
  eexists. exists H. split; [|split; [rewrite G1|split]].
  - eexists. exists ok. split; [reflexivity|]. rewrite <- (stored_ps w0 H) by (apply same_ps; exact S0). split; [|reflexivity]. apply protFrame_mk. cbn; lia.
  - reflexivity.
  - apply (same_trans _ _ _ (keeps_same _ _ G2)). exact S0.
  - intros _. apply keeps_undisturbed. exact G2.
Qed.
Print Assumptions C35_window_register.

Lemma exWindow {E : Env Regs} : valid_env E -> cfg = exCfgAt 0 oNg -> isWindowOn 0 12 FNg 12.
Proof. intros VE H. replace 0 with (c_ng_page cfg) at 1 by (rewrite H; reflexivity). apply ng_window; rewrite H; vm_compute; try reflexivity; try discriminate. right. reflexivity. Qed.
Example C35_window_example :
  let E := exEnv (exCfgAt 0 oNg) in
  let m1 := exReq 11 [5; 12; 77] in let w := exNode0 oNg [EOp (OpProcess (Some m1))] in let m := exReq 9 [5; 12] in
  valid_env E /\ request w (Some m) m 9 [w_nick w; 12] /\ isWindowOn 0 12 FNg 12 /\
  map (fun f => (m_type (fst f), payload (fst f))) (frames (effects w (after w (Some m)))) = [(10, [12; 77])].
Proof. cbv zeta. split; [exvalid|]. split; [exreq|]. split; [apply exWindow; [exvalid|reflexivity]|]. vmc. Qed.

(* C35: a register of the application: it is asked once, and its answer is sent *)
Theorem C35_application_register :
  forall A (E : Env A), valid_env E -> forall w rd m a,
    request w rd m 9 [w_nick w; a] -> isAppRegister 0 a ->
    let r := app_read (w_app (heard w m), w_ps (heard w m)) 0 a in
    exists f ok, protFrame f 10 3 (w_nick w) [a; fst r mod 256] /\
      served w (after w rd) m [OAppRead 0 a; OTx f ok] (set_app (snd r) (heard w m)).
Proof.
  intros A E VE w rd m a HQ HI r. set (H := heard w m) in *.
  destruct (served_by VE (fun l w1 => exists f ok, l = [OAppRead 0 a; OTx f ok] /\ protFrame f 10 3 (w_nick w) [a; fst r mod 256] /\ w1 = set_app (snd r) H) w rd m 9 _ HQ)
    as (l & w1 & (f & ok & -> & PF & ->) & HS); [|exists f, ok; split; assumption].
  intros w0 S0 RX WF HT HP NK. fold H in S0. rewrite <- NK in HP. destruct (read_handler w0 m a RX WF HT HP) as (ok & G1 & G2).
  destruct (HI w0) as [(F1 & F2 & F3 & F4) _]. rewrite F1 in G1. set (u := snd (readRegister 0 a w0)) in *.
  assert (XR : ext w0 u) by (destruct (@ext_all A E) as (_ & _ & _ & _ & _ & _ & _ & XR); apply XR).
  assert (UE : u = set_out (w_out u) (set_app (w_app u) w0)) by (rewrite <- F3; destruct u; reflexivity).
  rewrite (effects_out _ _ _ XR F2) in G1. rewrite (same_app _ _ S0), (same_ps _ _ S0) in G1, F4. fold r in G1, F4.
  assert (NU : w_nick u = w_nick w) by (rewrite UE; exact NK). rewrite NU in G1.
  eexists. exists (set_app (snd r) H). split; [|split; [rewrite G1|split]].
  - eexists. exists ok. split; [reflexivity|]. split; [|reflexivity]. apply protFrame_mk. cbn; lia.
  - reflexivity.
  - apply (same_trans _ _ _ (keeps_same _ _ G2)). rewrite UE, F4. samet S0.
  - intros _. apply (undisturbed_trans w0 u); [|apply keeps_undisturbed; exact G2]. rewrite UE. repeat split; auto.
Qed.
Print Assumptions C35_application_register.

Lemma exAppReg a : a < 128 -> isAppRegister (E := exEnv (exCfg oDm)) 0 a.
Proof.
  intros Ha. assert (VE : valid_env (exEnv (exCfg oDm))) by exvalid. apply app_register; try lia; [|reflexivity|apply ext_doApi].
  rewrite dm_single by reflexivity. reflexivity.
Qed.
Example C35_application_example :
  let E := exEnv (exCfg oDm) in
  let w := exNode oDm [] in let m := exReq 9 [5; 17] in
  valid_env E /\ request w (Some m) m 9 [w_nick w; 17] /\ isAppRegister 0 17 /\
  map (fun f => (m_type (fst f), payload (fst f))) (frames (effects w (after w (Some m)))) = [(10, [17; 17])].
Proof. cbv zeta. split; [exvalid|]. split; [exreq|]. split; [apply exAppReg; lia|]. vmc. Qed.

(* C36: a write to a writable register is stored, and answered with the stored value. No other register changes. *)
Theorem C36_write_register :
  forall A (E : Env A), valid_env E -> forall w rd m a v,
    request w rd m 11 [w_nick w; a; v] -> writableReg (heard w m) a ->
    exists f ok l w1, wrote (heard w m) a v l w1 /\ protFrame f 10 3 (w_nick w) [a; v] /\
      (forall b, 128 <= b < 256 -> ~ (154 <= b <= 161) -> vscpRegister w1 b = if b =? a then v else vscpRegister (heard w m) b) /\
      served w (after w rd) m (l ++ [OTx f ok]) w1.
Proof.
  intros A E VE w rd m a v HQ HW. set (H := heard w m) in *.
  assert (HPg : w_page H < 65536). { destruct HQ as (HR & _). destruct (reach_inv VE w HR) as [ps0 HI]. unfold H. rewrite heard_page. apply (i_page _ _ HI). }
  destruct (served_by VE (fun l w1 => exists f ok l0, l = l0 ++ [OTx f ok] /\ wrote H a v l0 w1 /\ protFrame f 10 3 (w_nick w) [a; v] /\ v < 256) w rd m 11 _ HQ)
    as (l & w1 & (f & ok & l0 & -> & HWr & PF & Hv) & HS).
  2:{ exists f, ok, l0, w1. split; [exact HWr|]. split; [exact PF|]. split; [|exact HS]. intros b [Hb1 Hb2] Hb3. apply (wrote_regs H a v l0 w1 b HWr); assumption. }
  intros w0 S0 RX WF HT HP NK. fold H in S0.
  assert (Ha : a < 256) by (apply (payload_byte m); [exact WF|rewrite HP; right; left; reflexivity]).
  assert (Hv : v < 256) by (apply (payload_byte m); [exact WF|rewrite HP; right; right; left; reflexivity]).
  rewrite <- NK in HP. pose proof (write_handler w0 m a v RX WF HT HP) as HA.
  destruct (write_reg a v w0 H S0 HPg Hv Ha HW) as (l0 & w1 & HWr & F1 & O1 & S1 & U1 & N1).
  unfold answered in HA. rewrite F1 in HA. cbn [fst snd] in HA. destruct HA as (ok & G1 & G2). rewrite N1, NK in G1.
  exists (l0 ++ [OTx (mkTx CLASS_PROTOCOL PT_RW_RESPONSE PRIO_3_NORMAL (w_nick w) [a; v]) ok]), w1. split; [|split; [|split]].
  - eexists. exists ok, l0. split; [reflexivity|]. split; [exact HWr|]. split; [apply protFrame_mk; cbn; lia|exact Hv].
  - cbv zeta. rewrite G1, O1, rev_app_distr. reflexivity.
  - exact (same_trans _ _ _ (keeps_same _ _ G2) S1).
  - intros _. apply (undisturbed_trans w0 _ _ U1). apply keeps_undisturbed. exact G2.
Qed.
Print Assumptions C36_write_register.

Example C36_write_example :
  let E := exEnv (exCfg oDm) in
  let w := exNode oDm [] in let m := exReq 11 [5; 134; 200] in
  valid_env E /\ request w (Some m) m 11 [w_nick w; 134; 200] /\ writableReg (heard w m) 134 /\
  map (fun f => (m_type (fst f), payload (fst f))) (frames (effects w (after w (Some m)))) = [(10, [134; 200])] /\
  map (vscpRegister (after w (Some m))) [132; 133; 134; 135; 136] = [0; 0; 200; 0; 0].
Proof.
  cbv zeta. split; [exvalid|]. split; [exreq|]. split; [|vmc]. right. right. exists FUser, 2. right. left. repeat split; lia.
Qed.

(* C36: a write to a read-only or reserved VSCP register, or to a write protected register, has no effect at all *)
Theorem C36_read_only :
  forall A (E : Env A), valid_env E -> forall w rd m a v,
    request w rd m 11 [w_nick w; a; v] ->
    (128 <= a /\ ~ (131 <= a <= 136) /\ a <> 146 /\ a <> 147 /\ a <> 162) \/ (a < 128 /\ ~ writable w) ->
    served w (after w rd) m [] (heard w m).
Proof.
  intros A E VE w rd m a v HQ HW. set (H := heard w m) in *.
  destruct (served_by VE (fun l w1 => l = [] /\ w1 = H) w rd m 11 _ HQ) as (l & w1 & (-> & ->) & HS); [|exact HS].
  intros w0 S0 RX WF HT HP NK. fold H in S0.
  assert (Ha : a < 256) by (apply (payload_byte m); [exact WF|rewrite HP; right; left; reflexivity]).
  rewrite <- NK in HP. pose proof (write_handler w0 m a v RX WF HT HP) as HA.
  assert (EQ : writeRegister 0 a v w0 = ((0, true), w0)).
  { destruct HW as [(H1 & H2 & H3 & H4 & H5)|[H1 H2]]; [apply write_readonly; assumption|]. apply write_protected; [lia|exact Ha|].
    unfold writable in *. rewrite (stored_ps w0 w); [exact H2|]. rewrite (same_ps _ _ S0). apply heard_ps. }
  rewrite EQ in HA. unfold answered in HA. cbn [fst snd] in HA. exists [], H. split; [split; reflexivity|]. cbv zeta. rewrite HA.
  split; [reflexivity|]. split; [exact S0|]. intros _. apply undisturbed_refl.
Qed.
Print Assumptions C36_read_only.

Example C36_read_only_example :
  let E := exEnv (exCfg oDm) in
  let w := exNode oDm [EOp (OpProcess (Some (exReq 11 [5; 131; 64])))] in
  let m := exReq 11 [5; 145; 9] in let m2 := exReq 11 [5; 17; 9] in
  valid_env E /\ request w (Some m) m 11 [w_nick w; 145; 9] /\ request w (Some m2) m2 11 [w_nick w; 17; 9] /\ ~ writable w /\
  effects w (after w (Some m)) = [OProcess; ORx m; ORet true] /\ effects w (after w (Some m2)) = [OProcess; ORx m2; ORet true].
Proof. cbv zeta. split; [exvalid|]. split; [exreq|]. split; [exreq|]. vmc. Qed.

(* C36: a write to an unprotected register of the application is passed on, and answered with the application's answer *)
Theorem C36_application_register :
  forall A (E : Env A), valid_env E -> forall w rd m a v,
    request w rd m 11 [w_nick w; a; v] -> isAppRegister 0 a -> writable w ->
    let r := app_write (w_app (heard w m), w_ps (heard w m)) 0 a v in
    snd (fst r) = [] ->
    exists f ok, protFrame f 10 3 (w_nick w) [a; fst (fst r) mod 256] /\
      served w (after w rd) m [OAppWrite 0 a v; OTx f ok] (set_app (snd r) (heard w m)).
Proof.
  intros A E VE w rd m a v HQ HI HW r HN. set (H := heard w m) in *.
  destruct (served_by VE (fun l w1 => exists f ok, l = [OAppWrite 0 a v; OTx f ok] /\ protFrame f 10 3 (w_nick w) [a; fst (fst r) mod 256] /\ w1 = set_app (snd r) H) w rd m 11 _ HQ)
    as (l & w1 & (f & ok & -> & PF & ->) & HS); [|exists f, ok; split; assumption].
  intros w0 S0 RX WF HT HP NK. fold H in S0. rewrite <- NK in HP. pose proof (write_handler w0 m a v RX WF HT HP) as HA.
  assert (W0 : writable w0). { unfold writable in *. rewrite (stored_ps w0 w); [exact HW|]. rewrite (same_ps _ _ S0). apply heard_ps. }
  destruct (HI w0) as [_ HI2]. destruct (HI2 v W0) as (F1 & _ & F2). assert (RE : app_write (w_app w0, w_ps w0) 0 a v = r) by (unfold r; rewrite (same_app _ _ S0), (same_ps _ _ S0); reflexivity).
  rewrite RE in F1, F2. destruct (F2 HN) as (F3 & F4 & F5).
  set (u := snd (writeRegister 0 a v w0)) in *. unfold answered in HA. rewrite F1 in HA. fold u in HA. cbn [fst snd] in HA. destruct HA as (ok & G1 & G2).
  assert (XR : ext w0 u) by (destruct (@ext_all A E) as (_ & _ & _ & _ & _ & _ & XR & _); apply XR).
  assert (UE : u = set_out (w_out u) (set_app (w_app u) w0)) by (rewrite <- F4; destruct u; reflexivity).
  rewrite (effects_out _ _ _ XR F3) in G1.
  assert (NU : w_nick u = w_nick w) by (rewrite UE; exact NK). rewrite NU in G1.
  eexists. exists (set_app (snd r) H). split; [|split; [rewrite G1|split]].
  - eexists. exists ok. split; [reflexivity|]. split; [|reflexivity]. apply protFrame_mk. cbn; lia.
  - reflexivity.
  - apply (same_trans _ _ _ (keeps_same _ _ G2)). rewrite UE, F5. samet S0.
  - intros _. apply (undisturbed_trans w0 u); [|apply keeps_undisturbed; exact G2]. rewrite UE. repeat split; auto.
Qed.
Print Assumptions C36_application_register.

Example C36_application_example :
  let E := exEnv (exCfg oDm) in
  let w := exNode oDm [] in let m := exReq 11 [5; 17; 9] in
  valid_env E /\ request w (Some m) m 11 [w_nick w; 17; 9] /\ isAppRegister 0 17 /\ writable w /\
  snd (fst (app_write (w_app (heard w m), w_ps (heard w m)) 0 17 9)) = [] /\
  map (fun f => (m_type (fst f), payload (fst f))) (frames (effects w (after w (Some m)))) = [(10, [17; 9])].
Proof. cbv zeta. split; [exvalid|]. split; [exreq|]. split; [apply exAppReg; lia|]. vmc. Qed.

(* C36 is false for the index register 0x7E of a paged decision matrix: a write of an index that does not exist is
   answered with this index, but not stored *)
Theorem C36_paged_index_refuted :
  exists (E : Env Regs), valid_env E /\ exists w m v, request w (Some m) m 11 [w_nick w; 126; v] /\
    map (fun f => payload (fst f)) (frames (effects w (after w (Some m)))) = [[126; v]] /\
    fst (readRegister 0 126 (after w (Some m))) <> v.
Proof.
  pose (E := exEnv (exCfg oPage)). exists E. split; [exvalid|].
  exists (exNode oPage []), (exReq 11 [5; 126; 200]), 200. split; [exreq|]. vmc.
Qed.
Print Assumptions C36_paged_index_refuted.

(* C43: INCREMENT_REGISTER (up) and DECREMENT_REGISTER of a writable register that holds x *)
Theorem C43_increment_decrement :
  forall A (E : Env A), valid_env E -> forall w rd m a x (up : bool),
    request w rd m (if up then 29 else 30) [w_nick w; a] -> writableReg (heard w m) a -> holds (heard w m) a x ->
    let y := if up then (x + 1) mod 256 else (x + 255) mod 256 in
    exists f ok l w1, wrote (heard w m) a y l w1 /\ protFrame f 10 3 (w_nick w) [a; y] /\
      served w (after w rd) m (l ++ [OTx f ok]) w1.
Proof.
  intros A E VE w rd m a x up HQ HW HX y0. set (H := heard w m) in *. set (y := (x + (if up then 1 else 255)) mod 256).
  assert (YE : y0 = y) by (unfold y, y0; destruct up; reflexivity). rewrite YE. clear YE y0.
  assert (HPg : w_page H < 65536). { destruct HQ as (HR & _). destruct (reach_inv VE w HR) as [ps0 HI]. unfold H. rewrite heard_page. apply (i_page _ _ HI). }
  destruct (served_by VE (fun l w1 => exists f ok l0, l = l0 ++ [OTx f ok] /\ wrote H a y l0 w1 /\ protFrame f 10 3 (w_nick w) [a; y]) w rd m _ _ HQ)
    as (l & w1 & (f & ok & l0 & -> & HWr & PF) & HS); [|exists f, ok, l0, w1; auto].
  intros w0 S0 RX WF HT HP NK. fold H in S0.
  assert (Ha : a < 256) by (apply (payload_byte m); [exact WF|rewrite HP; right; left; reflexivity]).
  assert (Hy : y < 256) by (unfold y; lia).
  rewrite <- NK in HP. pose proof (incdec_handler w0 m a up RX WF HT HP) as HA. cbv zeta in HA.
  assert (RD : readRegister 0 a w0 = (x, w0)).
  { destruct HX as [[H1 ->]|(H1 & f & k & HI & ->)].
    - assert (HA2 : 131 <= a <= 136 \/ a = 146 \/ a = 147).
      { destruct HW as [->|[->|(f & k & [(-> & _)|[(L & _)|(L & _)]])]]; lia. }
      rewrite (readVscp VE a w0) by lia. replace (a =? 128) with false by lia. rewrite (vscp_same _ _ a S0). reflexivity.
    - destruct (HI w0) as [HR _]. rewrite HR. rewrite (stored_ps w0 H) by (apply same_ps; exact S0). reflexivity. }
  rewrite RD in HA. cbn [fst snd] in HA. fold y in HA.
  destruct (write_reg a y w0 H S0 HPg Hy Ha HW) as (l0 & w1 & HWr & F1 & O1 & S1 & U1 & N1).
  unfold answered in HA. rewrite F1 in HA. cbn [fst snd] in HA. destruct HA as (ok & G1 & G2). rewrite N1, NK in G1.
  exists (l0 ++ [OTx (mkTx CLASS_PROTOCOL PT_RW_RESPONSE PRIO_3_NORMAL (w_nick w) [a; y]) ok]), w1. split; [|split; [|split]].
  - eexists. exists ok, l0. split; [reflexivity|]. split; [exact HWr|]. apply protFrame_mk; cbn; lia.
  - cbv zeta. rewrite G1, O1, rev_app_distr. reflexivity.
  - exact (same_trans _ _ _ (keeps_same _ _ G2) S1).
  - intros _. apply (undisturbed_trans w0 _ _ U1). apply keeps_undisturbed. exact G2.
Qed.
Print Assumptions C43_increment_decrement.

Example C43_example :
  let E := exEnv (exCfgAt 0 oNg) in
  let w := exNode0 oNg [] in let m := exReq 30 [5; 12] in let m2 := exReq 29 [5; 131] in
  valid_env E /\
  request w (Some m) m 30 [w_nick w; 12] /\ writableReg (heard w m) 12 /\ holds (heard w m) 12 0 /\
  map (fun f => payload (fst f)) (frames (effects w (after w (Some m)))) = [[12; 255]] /\
  request w (Some m2) m2 29 [w_nick w; 131] /\ writableReg (heard w m2) 131 /\ holds (heard w m2) 131 96 /\
  map (fun f => payload (fst f)) (frames (effects w (after w (Some m2)))) = [[131; 97]].
Proof.
  cbv zeta. assert (VE : valid_env (exEnv (exCfgAt 0 oNg))) by exvalid. pose proof (exWindow VE eq_refl) as HW. split; [exact VE|]. split; [exreq|].
  split; [right; right; exists FNg, 12; right; right; split; [lia|]; split; [cbn; tauto|]; split; [vm_compute; reflexivity|]; split; [exact HW|vm_compute; reflexivity]|].
  split; [right; split; [lia|]; exists FNg, 12; split; [exact HW|vm_compute; reflexivity]|]. split; [vmc|]. split; [exreq|].
  split; [right; right; exists FCtrl, 0; left; auto|]. split; [left; split; [lia|vm_compute; reflexivity]|]. vmc.
Qed.

(* C43: an application register is read, and the changed value is written to it *)
Theorem C43_application_register :
  forall A (E : Env A), valid_env E -> forall w rd m a (up : bool),
    request w rd m (if up then 29 else 30) [w_nick w; a] -> isAppRegister 0 a -> writable w ->
    let r := app_read (w_app (heard w m), w_ps (heard w m)) 0 a in
    let y := if up then (fst r mod 256 + 1) mod 256 else (fst r mod 256 + 255) mod 256 in
    let s := app_write (snd r, w_ps (heard w m)) 0 a y in
    snd (fst s) = [] ->
    exists f ok, protFrame f 10 3 (w_nick w) [a; fst (fst s) mod 256] /\
      served w (after w rd) m [OAppRead 0 a; OAppWrite 0 a y; OTx f ok] (set_app (snd s) (heard w m)).
Proof.
  intros A E VE w rd m a up HQ HI HW r y0. set (y := (fst r mod 256 + (if up then 1 else 255)) mod 256).
  assert (YE : y0 = y) by (unfold y, y0; destruct up; reflexivity). rewrite YE. clear YE y0. intros s HN. set (H := heard w m) in *.
  destruct (served_by VE (fun l w1 => exists f ok, l = [OAppRead 0 a; OAppWrite 0 a y; OTx f ok] /\ protFrame f 10 3 (w_nick w) [a; fst (fst s) mod 256] /\ w1 = set_app (snd s) H) w rd m _ _ HQ)
    as (l & w1 & (f & ok & -> & PF & ->) & HS); [|exists f, ok; split; assumption].
  intros w0 S0 RX WF HT HP NK. fold H in S0. rewrite <- NK in HP. pose proof (incdec_handler w0 m a up RX WF HT HP) as HA. cbv zeta in HA.
  destruct (HI w0) as [(R1 & R2 & R3 & R4) _]. set (v := snd (readRegister 0 a w0)) in *.
  assert (RE0 : app_read (w_app w0, w_ps w0) 0 a = r) by (unfold r; rewrite (same_app _ _ S0), (same_ps _ _ S0); reflexivity). rewrite RE0 in R1, R4. rewrite R1 in HA. fold y in HA.
  assert (VEq : v = set_out (w_out v) (set_app (w_app v) w0)) by (rewrite <- R3; destruct v; reflexivity).
  assert (XV : ext w0 v) by (destruct (@ext_all A E) as (_ & _ & _ & _ & _ & _ & _ & XR); apply XR).
  assert (PV : w_ps v = w_ps w) by (rewrite VEq; wsimp; rewrite (same_ps _ _ S0); apply heard_ps).
  assert (W0 : writable v). { unfold writable in *. rewrite (stored_ps v w); [exact HW|exact PV]. }
  destruct (HI v) as [_ HI2]. destruct (HI2 y W0) as (F1 & _ & F2). assert (RE : app_write (w_app v, w_ps v) 0 a y = s) by (unfold s, H; rewrite R4, PV, (heard_ps w m); reflexivity).
  rewrite RE in F1, F2. destruct (F2 HN) as (F3 & F4 & F5).
  set (u := snd (writeRegister 0 a y v)) in *. unfold answered in HA. rewrite F1 in HA. fold u in HA. cbn [fst snd] in HA. destruct HA as (ok & G1 & G2).
  assert (XU : ext v u) by (destruct (@ext_all A E) as (_ & _ & _ & _ & _ & _ & XR & _); apply XR).
  assert (UE : u = set_out (w_out u) (set_app (w_app u) w0)).
  { transitivity (set_out (w_out u) (set_app (w_app u) v)); [rewrite <- F4; destruct u; reflexivity|]. rewrite VEq. reflexivity. }
  rewrite (effects_out _ _ _ XU F3), (effects_out _ _ _ XV R2) in G1.
  assert (NU : w_nick u = w_nick w) by (rewrite UE; exact NK). rewrite NU in G1.
  eexists. exists (set_app (snd s) H). split; [|split; [rewrite G1|split]].
  - eexists. exists ok. split; [reflexivity|]. split; [|reflexivity]. apply protFrame_mk. cbn; lia.
  - reflexivity.
  - apply (same_trans _ _ _ (keeps_same _ _ G2)). rewrite UE, F5. samet S0.
  - intros _. apply (undisturbed_trans w0 u); [|apply keeps_undisturbed; exact G2]. rewrite UE. repeat split; auto.
Qed.
Print Assumptions C43_application_register.

Example C43_application_example :
  let E := exEnv (exCfg oDm) in
  let w := exNode oDm [EOp (OpProcess (Some (exReq 11 [5; 17; 255])))] in let m := exReq 29 [5; 17] in
  valid_env E /\ request w (Some m) m 29 [w_nick w; 17] /\ isAppRegister 0 17 /\ writable w /\
  snd (fst (app_write (snd (app_read (w_app (heard w m), w_ps (heard w m)) 0 17), w_ps (heard w m)) 0 17 0)) = [] /\
  map (fun f => payload (fst f)) (frames (effects w (after w (Some m)))) = [[17; 0]].
Proof. cbv zeta. split; [exvalid|]. split; [exreq|]. split; [apply exAppReg; lia|]. vmc. Qed.

(* C43: a register that cannot be written does not change and is not answered, but the attempt clears the alarm register *)
Theorem C43_read_only :
  forall A (E : Env A), valid_env E -> forall w rd m a (up : bool),
    request w rd m (if up then 29 else 30) [w_nick w; a] ->
    128 <= a -> ~ (131 <= a <= 136) -> ~ (154 <= a <= 161) -> a <> 146 -> a <> 147 -> a <> 162 ->
    served w (after w rd) m [] (if a =? 128 then set_alarm 0 (heard w m) else heard w m).
Proof.
  intros A E VE w rd m a up HQ H1 H2 H6 H3 H4 H5. set (H := heard w m) in *. set (X := if a =? 128 then set_alarm 0 H else H).
  destruct (served_by VE (fun l w1 => l = [] /\ w1 = X) w rd m _ _ HQ) as (l & w1 & (-> & ->) & HS); [|exact HS].
  intros w0 S0 RX WF HT HP NK. fold H in S0.
  assert (Ha : a < 256) by (apply (payload_byte m); [exact WF|rewrite HP; right; left; reflexivity]).
  rewrite <- NK in HP. pose proof (incdec_handler w0 m a up RX WF HT HP) as HA. cbv zeta in HA.
  rewrite (readVscp VE a w0) in HA by assumption. cbn [fst snd] in HA. rewrite write_readonly in HA by assumption. unfold answered in HA. cbn [fst snd] in HA.
  exists [], X. split; [split; reflexivity|]. cbv zeta. rewrite HA. split; [destruct (a =? 128); reflexivity|]. unfold X. destruct (a =? 128).
  - split; [samet S0|]. intros _. repeat split; auto.
  - split; [exact S0|]. intros _. apply undisturbed_refl.
Qed.
Print Assumptions C43_read_only.

Example C43_read_only_example :
  let E := exEnv (exCfg oDm) in
  let w := exNode oDm [EOp (OpApi (AAlarm 3))] in let m := exReq 29 [5; 128] in
  valid_env E /\ request w (Some m) m 29 [w_nick w; 128] /\ w_alarm w = 3 /\ w_alarm (after w (Some m)) = 0 /\
  frames (effects w (after w (Some m))) = [].
Proof. cbv zeta. split; [exvalid|]. split; [exreq|]. vmc. Qed.
