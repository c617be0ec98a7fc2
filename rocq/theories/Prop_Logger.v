(* Prop_Logger.v - logger: C26, C27, C28 *)
From Verif Require Import Proof_Logger Fixture.

(* C26: a log message of n bytes is sent as max 1 (ceil (n/5)) frames with consecutive indices;
   if a frame is refused by the adapter it is the last one. *)
Theorem C26_log_frames :
  forall A (E : Env A) id lvl msg w, c_logger cfg = true -> id < 256 -> lvl < 256 -> bytes msg -> (length msg <= 255)%nat ->
  ls_on (settings w) = true -> N.testbit (ls_filter (settings w)) lvl = true ->
  let n := N.of_nat (length msg) in
  exists fr, effects w (snd (step (OpApi (ALog id lvl msg)) w)) = OApi (ALog id lvl msg) :: map (fun f => OTx (fst f) (snd f)) fr /\
    fr <> [] /\ N.of_nat (length fr) <= logFrames n /\
    (forall j m ok, nth_error fr j = Some (m, ok) -> isLogFrame (readNicknameId w) id lvl msg (N.of_nat j) m) /\
    (forall j m, nth_error fr j = Some (m, false) -> S j = length fr) /\
    ((forall j m ok, nth_error fr j = Some (m, ok) -> ok = true) -> N.of_nat (length fr) = logFrames n).
Proof.
  intros A E id lvl msg w HL H1 H2 H3 H4 S1 S2. cbv zeta. destruct (log_call id lvl msg w HL H1 H2 H3 H4) as [_ H].
  destruct H as (fr & F1 & F2 & F3 & F4); [cbn [settings ls_on ls_filter] in *; rewrite S1, S2; reflexivity|].
  exists fr. split; [exact F1|]. split; [exact F2|]. split; [exact F3|]. split; [intros j m ok Hj; apply (F4 j m ok Hj)|]. split.
  - intros j m Hj. destruct (F4 j m false Hj) as (_ & [K|K] & _); [discriminate K|exact K].
  - intros HA. destruct (nth_error fr (length fr - 1)) as [[m ok]|] eqn:Q.
    + destruct (F4 _ _ _ Q) as (_ & _ & K). pose proof (HA _ _ _ Q). destruct fr; [congruence|]. cbn [length] in *. apply K; [assumption|lia].
    + apply nth_error_None in Q. destruct fr; [congruence|]. cbn [length] in Q. lia.
Qed.
Print Assumptions C26_log_frames.
(* the message is the concatenation of the text bytes of all frames, up to the zero padding *)
Theorem C26_message_recovered :
  forall id lvl msg, let n := N.of_nat (length msg) in
    flat_map (fun i => skipn 3 (logPayload id lvl msg i)) (Nseq (logFrames n)) = msg ++ repeat 0 (N.to_nat (5 * logFrames n - n)).
Proof. exact reassemble. Qed.
Print Assumptions C26_message_recovered.

Definition logText : list N := [72; 101; 108; 108; 111; 32; 119; 111; 114; 108; 100].
Definition logNode (wr : list bool) : World Regs :=
  let E := exEnv (exCfg oNg) in run [EOp (OpProcess None); EOp (OpApi (ALogEnable true)); EOp (OpApi (ALogLevel 255))] (powerUp (exPs (exCfg oNg) 5) regs0 wr).
(* eleven bytes in three frames; with the second one refused by the adapter the third is not sent *)
Example C26_example :
  let E := exEnv (exCfg oNg) in let w := logNode [] in let w2 := logNode [true; true; false] in
  valid_env E /\ reachable w /\ ls_on (settings w) = true /\ N.testbit (ls_filter (settings w)) 4 = true /\
  map (fun f => (payload (fst f), snd f)) (frames (effects w (snd (step (OpApi (ALog 9 4 logText)) w)))) =
    [([9; 4; 0; 72; 101; 108; 108; 111], true); ([9; 4; 1; 32; 119; 111; 114; 108], true); ([9; 4; 2; 100; 0; 0; 0; 0], true)] /\
  map snd (frames (effects w2 (snd (step (OpApi (ALog 9 4 logText)) w2)))) = [true; false].
Proof. cbv zeta. split; [exvalid|]. split; [exreach|]. vmc. Qed.

(* C27: frames are sent iff logging is enabled and the level passes the filter *)
Theorem C27_log_filter :
  forall A (E : Env A) id lvl msg w, c_logger cfg = true -> id < 256 -> lvl < 256 -> bytes msg -> (length msg <= 255)%nat ->
    frames (effects w (snd (step (OpApi (ALog id lvl msg)) w))) <> [] <->
    ls_on (settings w) = true /\ N.testbit (ls_filter (settings w)) lvl = true.
Proof.
  intros A E id lvl msg w HL H1 H2 H3 H4. destruct (log_call id lvl msg w HL H1 H2 H3 H4) as [F T]. unfold logCall in F, T.
  cbn [settings ls_on ls_filter]. destruct (w_logEn w && N.testbit (w_logLvl w) lvl) eqn:Q.
  - apply andb_prop in Q. split; [intros _; exact Q|]. intros _. destruct (T eq_refl) as (fr & F1 & F2 & _). rewrite F1.
    cbn [frames flat_map app]. change (flat_map _ _) with (frames (map (fun f => OTx (fst f) (snd f)) fr)). rewrite frames_of_tx. exact F2.
  - rewrite (F eq_refl). split; [intros K; contradiction K; reflexivity|]. intros [K1 K2]. rewrite K1, K2 in Q. discriminate Q.
Qed.
Print Assumptions C27_log_filter.

(* receiving an event changes the settings as its type says (logEvent in Spec_Transport.v); calls
   the application makes in the course of the same process call come later and win *)
Theorem C27_received_events :
  forall A (E : Env A), c_logger cfg = true -> forall w rd m, let w' := snd (step (OpProcess rd) w) in
    taken (effects w w') = [m] ->
    exists calls, effects w w' = OProcess :: ORx m :: calls /\ taken calls = [] /\
      settings w' = fold_left (logObs 0) calls (logEvent (stored w FLog 0) m (settings w)).
Proof.
  intros A E HL w rd m w' HT. pose proof (process_taken rd w) as T. fold w' in T. rewrite T in HT.
  destruct (received rd w) as [m'|] eqn:Q; cbn [optList] in HT; [|discriminate HT]. injection HT as ->.
  destruct (process_settings rd w HL) as (d & E1 & E2 & E3). rewrite Q in E1, E3. cbn [optList map app] in E1.
  exists (d ++ [ORet (fst (process rd w))]). split; [exact E1|]. split; [rewrite taken_app, E2; reflexivity|].
  unfold w'. rewrite (E3 0), fold_left_app. reflexivity.
Qed.
Print Assumptions C27_received_events.

(* LOG STOP for another log id is ignored, LOG STOP for this one and LOG LEVEL are obeyed *)
Example C27_example :
  let E := exEnv (exCfg oNg) in let w := logNode [] in
  let after m := snd (step (OpProcess (Some m)) w) in
  valid_env E /\ reachable w /\ stored w FLog 0 = 0 /\
  taken (effects w (after (exMsg 509 3 9 [0]))) = [exMsg 509 3 9 [0]] /\
  settings w = mkLogSet true 255 /\ settings (after (exMsg 509 3 9 [1])) = mkLogSet true 255 /\
  settings (after (exMsg 509 3 9 [0])) = mkLogSet false 255 /\ settings (after (exMsg 509 4 9 [6])) = mkLogSet true 6.
Proof. cbv zeta. split; [exvalid|]. split; [exreach|]. vmc. Qed.

(* C28 is false: the last received event stays in the receive buffer and the logger evaluates it in
   every process call, so an old LOG STOP undoes a later vscp_logger_enable(TRUE). *)
Theorem C28_setting_persists_refuted :
  exists (E : Env Regs), valid_env E /\ exists w, reachable w /\ ls_on (settings w) = true /\
    let w' := snd (step (OpProcess None) w) in effects w w' = [OProcess; ORet false] /\ ls_on (settings w') = false.
Proof.
  pose (E := exEnv (exCfg oNg)). exists E. split; [exvalid|].
  exists (run [EOp (OpProcess None); EOp (OpProcess (Some (exMsg 509 3 9 [0]))); EOp (OpApi (ALogEnable true))] (powerUp (exPs (exCfg oNg) 5) regs0 [])).
  split; [exreach|]. vmc.
Qed.
Print Assumptions C28_setting_persists_refuted.

(* What holds: the settings are determined by the settings before and the effects of the operation,
   i.e. by the API calls and the received LOG events, except for process calls that receive nothing
   while the last received event was a LOG event. *)
Theorem C28_setting_persists_partial :
  forall A (E : Env A), c_logger cfg = true -> forall w o, reachable w ->
    (forall rd m, o = OpProcess rd -> taken (effects w (snd (step o w))) = [] -> lastRx (w_out w) = Some m -> m_class m <> 509) ->
    settings (snd (step o w)) = fold_left (logObs (stored w FLog 0)) (effects w (snd (step o w))) (settings w).
Proof.
  intros A E HL w o HR HO. apply step_settings; [exact HL|exact HR|]. intros rd -> Q m Hm. apply (HO rd m eq_refl); [|exact Hm].
  rewrite process_taken, Q. reflexivity.
Qed.
Print Assumptions C28_setting_persists_partial.

Example C28_example :
  let E := exEnv (exCfg oNg) in
  let w := run [EOp (OpProcess None); EOp (OpProcess (Some (exMsg 509 3 9 [0]))); EOp (OpProcess (Some (exMsg 10 6 9 [0]))); EOp (OpApi (ALogEnable true))]
     (powerUp (exPs (exCfg oNg) 5) regs0 []) in
  valid_env E /\ reachable w /\ lastRx (w_out w) = Some (exMsg 10 6 9 [0]) /\
  ls_on (settings (snd (step (OpProcess None) w))) = true.
Proof. cbv zeta. split; [exvalid|]. split; [exreach|]. vmc. Qed.
