(* Prop_States.v - properties C30, C31, C34, C44, C45 and C59: the life cycle of a node. *)
From Verif Require Import Spec_States Proof_Disc4 Fixture.

(* C30: one process call moves the node along a documented edge or not at all; IDLE, RESET and ERROR are final *)
Theorem C30_transitions :
  forall A (E : Env A) w rd, In (w_st (after w rd)) (successors (w_st w)).
Proof. intros A E w rd. rewrite after_state, <- (prologue_st rd w). apply dispatch_st. Qed.
Print Assumptions C30_transitions.

(* C30: nothing but process, vscp_core_startNodeSegmentInit and vscp_core_init changes the state *)
Theorem C30_other_operations :
  forall A (E : Env A), valid_env E -> forall w, reachable w ->
    (forall p, w_st (snd (step (OpTick p) w)) = w_st w) /\
    (forall c, w_st (snd (step (OpApi c) w)) = match c with AStartInit => INIT | _ => w_st w end) /\
    w_st (snd (step OpInit w)) = if timersNeeded cfg <=? c_timers cfg then STARTUP else ERROR.
Proof.
  intros A E VE w HR. split; [reflexivity|]. split; [|apply init_state; assumption].
  intros c. exact (api_st c w).
Qed.
Print Assumptions C30_other_operations.

Example C30_example :
  let E := exEnv (exCfg oDm) in
  let boot := run [] (powerUp (exPs (exCfg oDm) 255) regs0 []) in
  let ack n := EOp (OpProcess (Some (exMsg 0 3 n []))) in
  let p := EOp (OpProcess None) in
  let w := run [p; p; ack 0; EOp (OpProcess (Some (exMsg 0 6 0 [255; 9]))); EOp (OpProcess (Some (exMsg 0 8 0 [9]))); EOp (OpApi AStartInit)] (powerUp (exPs (exCfg oDm) 255) regs0 []) in
  valid_env E /\ reachable w /\ w_st boot = STARTUP /\
  w_st (run [p] boot) = INIT /\ w_st (run [p; p; ack 0] boot) = PREACTIVE /\
  w_st (run [p; p; ack 0; EOp (OpProcess (Some (exMsg 0 6 0 [255; 9])))] boot) = ACTIVE /\
  w_st (run [p; p; ack 0; EOp (OpProcess (Some (exMsg 0 6 0 [255; 9]))); EOp (OpProcess (Some (exMsg 0 8 0 [9])))] boot) = RESET /\ w_st w = INIT.
Proof. cbv zeta. split; [exvalid|]. split; [exreach|]. vmc. Qed.

(* C31: a node that is not active does nothing but look for a nickname: mayDo lists all its effects; nothing behind the registers
   changes, and of the persistent memory only the nickname *)
Theorem C31_passive :
  forall A (E : Env A) w rd, isActive w = false -> let w' := after w rd in
    Forall (mayDo (w_st w)) (effects w w') /\ registers w' = registers w /\ (forall a, a <> ps_nick cfg -> w_ps w' a = w_ps w a).
Proof.
  intros A E w rd HA w'. assert (NA : w_st w <> ACTIVE) by (intros X; unfold isActive in HA; rewrite X in HA; discriminate HA).
  destruct (process_quiet rd w NA) as (d & D & F & G & H). fold w' in D, G, H. rewrite (effects_app w w' d D).
  split; [apply Forall_rev, F|]. split; [exact G|exact H].
Qed.
Print Assumptions C31_passive.

(* in particular: no event for the application, no action, no register access *)
Theorem C31_nothing_delivered :
  forall A (E : Env A) w rd, isActive w = false -> forall o, In o (effects w (after w rd)) ->
    match o with OEvent _ | OProtEvent _ | OAction _ _ _ | OAppRead _ _ | OAppWrite _ _ _ | OAppRestore | OApi _ => False
    | OTx m _ => m_class m = 0 /\ (m_type m = 2 \/ m_type m = 7) | _ => True end.
Proof.
  intros A E w rd HA o HO. destruct (C31_passive A E w rd HA) as (F & _). rewrite Forall_forall in F. specialize (F o HO).
  destruct o; try exact F; try exact I. destruct F as [F1 F2]. split; [exact F1|]. tauto.
Qed.
Print Assumptions C31_nothing_delivered.

(* a request that an active node serves is ignored during discovery *)
Example C31_example :
  let E := exEnv (exCfg oFull) in
  let wr := OpProcess (Some (exMsg 0 11 9 [5; 3; 77])) in
  let w := run [EOp (OpProcess None)] (powerUp (exPs (exCfg oFull) 255) regs0 []) in
  let w5 := run [EOp (OpProcess None)] (powerUp (exPs (exCfg oFull) 5) regs0 []) in
  valid_env E /\ reachable w /\ isActive w = false /\ effects w (snd (step wr w)) <> [] /\ w_app (snd (step wr w)) 0 3 = 3 /\
  isActive w5 = true /\ w_app (snd (step wr w5)) 0 3 = 77.
Proof. cbv zeta. split; [exvalid|]. split; [exreach|]. vmc. Qed.

(* C34: no access with a computed index leaves its array, whatever has been received; every such access of the code is a checked one in
   the model, which notes a miss in w_ub (w_ngub for the rule buffer of the next generation matrix, see C19) *)
Theorem C34_memory_safe :
  forall A (E : Env A), valid_env E -> forall w, reachable w -> w_ub w = false /\ (c_dm_ng cfg = false -> w_ngub w = false).
Proof. intros A E VE w HR. destruct (reach_inv VE w HR) as [ps0 HI]. split; [apply (i_ub _ _ HI)|apply (i_ngub _ _ HI)]. Qed.
Print Assumptions C34_memory_safe.

(* frames that stretch the indices: full page read and write, extended page read, rule download *)
Example C34_example :
  let E := exEnv (exCfg oExt) in
  let f ty d := EOp (OpProcess (Some (exMsg 0 ty 9 d))) in
  let w := run [EOp (OpProcess None); f 24 [5; 0; 255]; f 25 [5; 250; 1; 2; 3; 4; 5; 6]; f 37 [5; 255; 255; 255; 0]; f 38 [5; 0; 0; 254; 1; 2; 3; 4]; f 23 [3; 255; 255; 255; 255]]
             (powerUp (exPs (exCfg oExt) 5) regs0 []) in
  valid_env E /\ reachable w /\ isActive w = true /\ (10 < length (frames (history w)))%nat /\ w_ub w = false.
Proof. cbv zeta. split; [exvalid|]. split; [exreach|]. split; [vm_compute; reflexivity|]. split; [apply Nat.ltb_lt; vm_compute; reflexivity|vm_compute; reflexivity]. Qed.

(* C44: when a discovering node becomes active, then with a nickname that it has probed successfully; all candidates below, from the
   configured start on, had been probed in ascending order and were acknowledged since discovery began; no acknowledge of the adopted
   nickname has been processed since the probe, and the probe timeout has elapsed *)
Theorem C44_adoption :
  forall A (E : Env A), valid_env E -> forall w rd,
    reachable w -> w_st w = INIT -> isActive (after w rd) = true ->
    exists older d f recent, let n := readNicknameId (after w rd) in
      history w = older ++ discovery :: d ++ OTx f true :: recent /\ ~ In discovery (d ++ OTx f true :: recent) /\
      tried n d /\ isProbe n f /\ n <> 255 /\
      (forall m, In m (taken recent) -> ~ isAck n m) /\
      (timersNeeded cfg <= c_timers cfg -> c_t_probe cfg mod 65536 <= elapsed recent).
Proof. intros A E VE w rd. apply adoption. exact VE. Qed.
Print Assumptions C44_adoption.

(* C44: a discovering node goes IDLE only after all candidates up to 254 were taken; it keeps the nickname it has, which is none *)
Theorem C44_exhausted :
  forall A (E : Env A), valid_env E -> forall w rd,
    reachable w -> w_st w = INIT -> w_st (after w rd) = IDLE ->
    readNicknameId (after w rd) = readNicknameId w /\ (c_prot_ev cfg = false -> readNicknameId w = 255) /\
    exists older d, history w = older ++ discovery :: d /\ ~ In discovery d /\ tried 255 d.
Proof.
  intros A E VE w rd HR SI HI. destruct (exhausted VE rd w HR SI HI) as (H1 & H2). split; [exact H1|]. split; [|exact H2].
  intros PE. apply (reach_unnamed w VE PE HR SI).
Qed.
Print Assumptions C44_exhausted.

(* C44: the frames of a discovering node: the probe of the segment controller, the announcement on becoming active, or a probe for the
   next candidate *)
Theorem C44_candidates :
  forall A (E : Env A), valid_env E -> forall w rd f ok,
    reachable w -> w_st w = INIT -> In (f, ok) (frames (effects w (after w rd))) ->
    isProbe 0 f \/
    (isActive (after w rd) = true /\ protFrame f 2 0 (readNicknameId (after w rd)) [readNicknameId (after w rd)]) \/
    exists n older d, isProbe n f /\ history w = older ++ discovery :: d /\ ~ In discovery d /\ tried n d.
Proof. intros A E VE w rd f ok. apply candidates. exact VE. Qed.
Print Assumptions C44_candidates.

(* C44, progress: having probed n, the node adopts n when the probe timeout has elapsed; before, an acknowledge from n makes it probe
   n + 1, and without one it goes on waiting *)
Theorem C44_waiting :
  forall A (E : Env A), valid_env E -> forall w rd n,
    reachable w -> timersNeeded cfg <= c_timers cfg -> waitsFor w n ->
    let w' := after w rd in
    exists older f recent, history w = older ++ OTx f true :: recent /\ isProbe n f /\
      (c_t_probe cfg mod 65536 <= elapsed recent -> isActive w' = true /\ readNicknameId w' = n) /\
      (elapsed recent < c_t_probe cfg mod 65536 -> (exists m, In m (taken (effects w w')) /\ isAck n m) -> probesNext w' (n + 1)) /\
      (elapsed recent < c_t_probe cfg mod 65536 -> (forall m, In m (taken (effects w w')) -> ~ isAck n m) -> waitsFor w' n).
Proof. intros A E VE w rd n. apply waiting. exact VE. Qed.
Print Assumptions C44_waiting.

(* C44, progress: a node about to probe n sends the probe, again until the adapter takes it; after the probe for 255 it gives up *)
Theorem C44_probing :
  forall A (E : Env A), valid_env E -> forall w rd n,
    reachable w -> probesNext w n -> let w' := after w rd in
    exists f ok, isProbe n f /\ frames (effects w w') = [(f, ok)] /\
      if ok : bool then if n =? 255 then w_st w' = IDLE else waitsFor w' n else probesNext w' n.
Proof. intros A E VE w rd n. apply probing. exact VE. Qed.
Print Assumptions C44_probing.

(* no segment controller; 1 is taken, 2 is free *)
Example C44_example :
  let E := exEnv (exCfg oDm) in
  let p := EOp (OpProcess None) in
  let es := [p; p; EOp (OpTick 5000); p; p; EOp (OpProcess (Some (exMsg 0 3 1 []))); p] in
  let w := run es (powerUp (exPs (exCfg oDm) 255) regs0 []) in
  let w2 := run (es ++ [EOp (OpTick 2000)]) (powerUp (exPs (exCfg oDm) 255) regs0 []) in
  valid_env E /\ reachable w /\ timersNeeded (exCfg oDm) <= c_timers (exCfg oDm) /\ waitsFor w 2 /\ reachable w2 /\
  w_st w2 = INIT /\ isActive (after w2 None) = true /\ readNicknameId (after w2 None) = 2 /\
  map (fun f => (m_type (fst f), m_prio (fst f), payload (fst f))) (frames (history (after w2 None))) = [(2, 7, [0]); (2, 7, [1]); (2, 7, [2]); (2, 0, [2])].
Proof. cbv zeta. split; [exvalid|]. split; [exreach|]. split; [vm_compute; discriminate|]. split; [vmc|]. split; [exreach|]. vmc. Qed.
(* everybody acknowledges *)
Definition exTaken : list (Event Regs) := flat_map (fun n => [EOp (OpProcess None); EOp (OpProcess (Some (exMsg 0 3 n [])))]) (map N.of_nat (seq 1 254)).
Example C44_example_exhausted :
  let E := exEnv (exCfg oDm) in
  let p := EOp (OpProcess None) in
  let w := run ([p; p; EOp (OpTick 5000); p] ++ exTaken) (powerUp (exPs (exCfg oDm) 255) regs0 []) in
  valid_env E /\ reachable w /\ probesNext w 255 /\ w_st (after w None) = IDLE /\ readNicknameId (after w None) = 255.
Proof.
  cbv zeta. split; [exvalid|]. split; [|vmc]. apply exReach; [lia|]. rewrite Forall_app. split; [exwf|]. unfold exTaken. apply Forall_forall. intros e He. apply in_flat_map in He.
  destruct He as (n & Hn & He). apply in_map_iff in Hn. destruct Hn as (k & <- & Hk). apply in_seq in Hk. destruct He as [<-|[<-|[]]]; [exact I|]. cbn; repeat split; cbn; try (change (N.of_nat k < 256); lia); try lia; repeat constructor.
Qed.

(* C45: in PREACTIVE a nickname is taken only from a SET_NICKNAME that comes from nickname 0 and is addressed to 0xFF; it is the second
   data byte; the node confirms and announces itself. Missing from the full claim: the nickname is valid, the event is complete
   (C45_invalid_nickname_refuted, C45_short_refuted) *)
Theorem C45_assignment_partial :
  forall A (E : Env A), valid_env E -> forall w rd,
    op_wf (OpProcess rd) -> reachable w -> w_st w = PREACTIVE -> isActive (after w rd) = true ->
    exists m f1 ok1 f2 ok2, let n := nth 1 (m_data m) 0 in
      taken (effects w (after w rd)) = [m] /\ assignment m /\ readNicknameId (after w rd) = n /\
      frames (effects w (after w rd)) = [(f1, ok1); (f2, ok2)] /\ protFrame f1 7 7 n [] /\ protFrame f2 2 0 n [n].
Proof. intros A E VE w rd. apply assigned. exact VE. Qed.
Print Assumptions C45_assignment_partial.

(* C45: the node is PREACTIVE because the segment controller answered its probe; it waits for an assignment, and when the timeout, counted
   from the probe, has elapsed it starts to discover a nickname on its own, without nickname *)
Theorem C45_waiting :
  forall A (E : Env A), valid_env E -> forall w rd,
    op_wf (OpProcess rd) -> reachable w -> timersNeeded cfg <= c_timers cfg -> w_st w = PREACTIVE ->
    let w' := after w rd in
    exists older f recent, history w = older ++ OTx f true :: recent /\ isProbe 0 f /\ (exists m, In m (taken recent) /\ isAck 0 m) /\
      (c_t_init cfg mod 65536 <= elapsed recent -> probesNext w' (c_start_nick cfg) /\ readNicknameId w' = 255 /\ frames (effects w w') = []) /\
      (elapsed recent < c_t_init cfg mod 65536 -> (exists m, In m (taken (effects w w')) /\ assignment m) -> isActive w' = true) /\
      (elapsed recent < c_t_init cfg mod 65536 -> (forall m, In m (taken (effects w w')) -> ~ assignment m) ->
         w_st w' = PREACTIVE /\ readNicknameId w' = readNicknameId w /\ frames (effects w w') = []).
Proof. intros A E VE w rd. apply preactive. exact VE. Qed.
Print Assumptions C45_waiting.

(* the unassigned nickname 0xFF and the nickname 0 of the segment controller are taken *)
Theorem C45_invalid_nickname_refuted :
  exists E : Env Regs, valid_env E /\ exists w, reachable w /\ w_st w = PREACTIVE /\
    forall n, In n [0; 255] -> let m := exMsg 0 6 0 [255; n] in assignment m /\
      isActive (after w (Some m)) = true /\ readNicknameId (after w (Some m)) = n.
Proof.
  pose (E := exEnv (exCfg oDm)). exists E. split; [exvalid|].
  exists (run [EOp (OpProcess None); EOp (OpProcess None); EOp (OpProcess (Some (exMsg 0 3 0 [])))] (powerUp (exPs (exCfg oDm) 255) regs0 [])).
  split; [exreach|]. split; [vm_compute; reflexivity|]. intros n [<-|[<-|[]]]; vmc.
Qed.
Print Assumptions C45_invalid_nickname_refuted.

(* the data size is not checked: an event without payload, whose unused bytes are 0xFF and 9, assigns nickname 9 *)
Theorem C45_short_refuted :
  exists E : Env Regs, valid_env E /\ exists w, reachable w /\ w_st w = PREACTIVE /\ exists m, payload m = [] /\ op_wf (OpProcess (Some m)) /\
    isActive (after w (Some m)) = true /\ readNicknameId (after w (Some m)) = 9.
Proof.
  pose (E := exEnv (exCfg oDm)). exists E. split; [exvalid|].
  exists (run [EOp (OpProcess None); EOp (OpProcess None); EOp (OpProcess (Some (exMsg 0 3 0 [])))] (powerUp (exPs (exCfg oDm) 255) regs0 [])).
  split; [exreach|]. split; [vm_compute; reflexivity|]. exists (mkMsg 3 0 6 0 false 0 [255; 9; 0; 0; 0; 0; 0; 0]). split; [reflexivity|]. split; [exwf|]. vmc.
Qed.
Print Assumptions C45_short_refuted.

Example C45_example :
  let E := exEnv (exCfg oDm) in
  let p := EOp (OpProcess None) in
  let w := run [p; p; EOp (OpProcess (Some (exMsg 0 3 0 [])))] (powerUp (exPs (exCfg oDm) 255) regs0 []) in
  let a := Some (exMsg 0 6 0 [255; 9]) in let b := Some (exMsg 0 6 7 [255; 9]) in
  valid_env E /\ reachable w /\ w_st w = PREACTIVE /\ op_wf (OpProcess a) /\ isActive (after w a) = true /\ readNicknameId (after w a) = 9 /\
  w_st (after w b) = PREACTIVE /\ w_st (after (run [EOp (OpTick 5000)] w) a) = INIT.
Proof. cbv zeta. split; [exvalid|]. split; [exreach|]. split; [vm_compute; reflexivity|]. split; [exwf|]. vmc. Qed.

(* C59: vscp_core_isActive tells the state *)
Theorem C59_isActive :
  forall A (w : World A), isActive w = true <-> w_st w = ACTIVE.
Proof. intros A w. unfold isActive. destruct (w_st w); cbn; split; intros H; try discriminate H; reflexivity. Qed.
Print Assumptions C59_isActive.

(* C59: an active node gets into the state of having no nickname only by an operation in which the factory defaults are restored or in
   which it confirms (NICKNAME_ACCEPTED) to be 0xFF. Missing from the full claim: an active node has a nickname. *)
Theorem C59_nickname_partial :
  forall A (E : Env A), valid_env E -> forall w o,
    op_wf o -> reachable w -> let w' := snd (step o w) in
    isActive w' = true -> readNicknameId w' = 255 ->
    (isActive w = true /\ readNicknameId w = 255) \/
    Exists (fun x => x = OAppRestore \/ exists f ok, x = OTx f ok /\ m_class f = 0 /\ m_type f = 7 /\ m_oaddr f = 255) (effects w w').
Proof.
  intros A E VE w o WF HR w' HA HN. destruct (keepsName o w VE WF HR) as [X|X].
  - split; [apply C59_isActive, HA|exact HN].
  - left. split; [apply C59_isActive, X|apply X].
  - right. exact X.
Qed.
Print Assumptions C59_nickname_partial.

(* after restoring the factory defaults an active node goes on as active, without nickname *)
Theorem C59_nickname_refuted :
  exists E : Env Regs, valid_env E /\ exists w, reachable w /\ isActive w = true /\ readNicknameId w = 255.
Proof.
  pose (E := exEnv (exCfg oDm)). exists E. split; [exvalid|].
  exists (run [EOp (OpProcess None); EOp (OpApi ARestore); EOp (OpProcess None)] (powerUp (exPs (exCfg oDm) 5) regs0 [])). split; [exreach|]. vmc.
Qed.
Print Assumptions C59_nickname_refuted.

(* C59: vscp_core_sendEvent hands exactly the given message to the adapter, in every state, returns its verdict and changes nothing visible *)
Theorem C59_sendEvent :
  forall A (E : Env A) w m, m_size m <= 8 ->
    let w' := snd (step (OpApi (ASend m)) w) in
    exists ok, effects w w' = [OApi (ASend m); OTx m ok] /\ visible w' = visible w /\
      fst (tp_writeMessage m (set_out (OApi (ASend m) :: w_out w) w)) = ok.
Proof.
  intros A E w m HS w'. set (w1 := set_out (OApi (ASend m) :: w_out w) w). destruct (tx_send m w1 HS) as (ok & v & EQ & HO & K & _).
  assert (W : w' = v). { unfold w', step, doApi. rewrite bind_emit. fold w1. rewrite snd_bind, EQ. reflexivity. }
  exists ok. rewrite W, EQ. split; [|split; [exact K|reflexivity]]. rewrite (effects_app w v [OTx m ok; OApi (ASend m)] HO). reflexivity.
Qed.
Print Assumptions C59_sendEvent.

Example C59_example :
  let E := exEnv (exCfg oDm) in
  let w := run [EOp (OpProcess None)] (powerUp (exPs (exCfg oDm) 5) regs0 []) in
  let w0 := run [EOp (OpProcess None)] (powerUp (exPs (exCfg oDm) 255) regs0 []) in
  let m := exMsg 20 9 5 [1; 2; 3] in
  valid_env E /\ reachable w /\ isActive w = true /\ readNicknameId w = 5 /\ isActive w0 = false /\ m_size m <= 8 /\
  effects w0 (snd (step (OpApi (ASend m)) w0)) = [OApi (ASend m); OTx m true] /\
  readNicknameId (snd (step (OpApi ARestore) w)) = 255 /\ In OAppRestore (effects w (snd (step (OpApi ARestore) w))).
Proof. cbv zeta. split; [exvalid|]. split; [exreach|]. split; [vm_compute; reflexivity|]. repeat (split; [vmc|]). vm_compute. tauto. Qed.
