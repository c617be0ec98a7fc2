(* World.v - all static variables of the modelled modules, the environment state and the
   state monad in which the model is written.  GENERATED by tools/gen_world.py. *)
From Verif Require Export Config Util Timer.

(* vscp_core.c:92-102 STATE *)
Inductive State := STARTUP | INIT | PREACTIVE | ACTIVE | IDLE | RESET | ERROR.
(* vscp_core.c:105-112 INIT_STATE *)
Inductive IState := PROBE_MASTER | PROBE_MASTER_WAIT | PROBE | PROBE_WAIT.

(* switch(state) comparisons *)
Definition state_eqb (a b : State) : bool :=
  match a, b with
  | STARTUP, STARTUP | INIT, INIT | PREACTIVE, PREACTIVE | ACTIVE, ACTIVE
  | IDLE, IDLE | RESET, RESET | ERROR, ERROR => true
  | _, _ => false
  end.

(* Each field cites the C object it stands for. *)
Record World {A : Type} : Type := mkWorld {
  w_rx : Msg;  (* vscp_core.c:189 vscp_core_rxMessage *)
  w_rxv : bool;  (* vscp_core.c:192 vscp_core_rxMessageValid *)
  w_st : State;  (* vscp_core.c:183 vscp_core_state *)
  w_ist : IState;  (* vscp_core.c:186 vscp_core_initState *)
  w_probe : N;  (* vscp_core.c:210 vscp_core_nickname_probe *)
  w_nick : N;  (* vscp_core.c:180 vscp_core_nickname *)
  w_page : N;  (* vscp_core.c:229 vscp_core_regPageSelect *)
  w_alarm : N;  (* vscp_core.c:226 vscp_core_regAlarmStatus *)
  w_epoch : N;  (* vscp_core.c:213 vscp_core_timeSinceEpoch *)
  w_hbEn : bool;  (* vscp_core.c:221 vscp_core_isHeartbeatEnabled *)
  w_sec : N;  (* vscp_core.c:207 vscp_core_secCnt *)
  w_rreq : bool;  (* vscp_core.c:232 vscp_core_resetRequested *)
  w_xpage : N;  (* vscp_core.c:238 vscp_core_extPageReadData.page *)
  w_xaddr : N;  (* vscp_core.c:238 vscp_core_extPageReadData.addr *)
  w_xcount : N;  (* vscp_core.c:238 vscp_core_extPageReadData.count *)
  w_xseq : N;  (* vscp_core.c:238 vscp_core_extPageReadData.seq *)
  w_guidSt : N;  (* vscp_core.c:2388 static status of handleProtocolGuidDropNickname *)
  w_tSt : N;  (* vscp_core.c:195 vscp_core_timerId *)
  w_tGuid : N;  (* vscp_core.c:198 vscp_core_timerIdGuidDropNickname *)
  w_t162 : N;  (* vscp_core.c:201 vscp_core_timerIdReg162 *)
  w_tEp : N;  (* vscp_core.c:204 vscp_core_timerIdTimeSinceEpoch *)
  w_tHb : N;  (* vscp_core.c:218 vscp_core_heartbeatTimerId *)
  w_tm : Timers;  (* vscp_timer.c:93 vscp_timer_context *)
  w_ps : N -> N;  (* persistent memory behind vscp_ps_access_* *)
  w_txe : N;  (* vscp_transport.c:74 vscp_txErrorCnt *)
  w_loop : CBuf Msg;  (* vscp_transport.c:79-82 loop back buffer and storage *)
  w_dmIdx : N;  (* vscp_dm.c:176 vscp_dm_index *)
  w_ngCnt : N;  (* vscp_dm_ng.c:172 vscp_dm_ng_ruleCnt *)
  w_ngIdx : N;  (* vscp_dm_ng.c:178 vscp_dm_ng_ruleSetIndex *)
  w_ngErr : bool;  (* vscp_dm_ng.c:158 vscp_dm_ng_error *)
  w_ngRule : N;  (* vscp_dm_ng.c:161 vscp_dm_ng_errorRule *)
  w_ngPos : N;  (* vscp_dm_ng.c:164 vscp_dm_ng_errorPos *)
  w_logEn : bool;  (* vscp_logger.c:76 vscp_logger_isEnabled *)
  w_logLvl : N;  (* vscp_logger.c:79 vscp_logger_logLevel *)
  w_app : A;  (* state of the application *)
  w_wr : list bool;  (* future results of vscp_tp_adapter_writeMessage (TRUE when exhausted) *)
  w_out : list Obs;  (* effects so far, newest first *)
  w_ub : bool;  (* an access outside an array happened (all modules but vscp_dm_ng.c) *)
  w_ngub : bool  (* vscp_dm_ng.c accessed its rule buffer out of bounds or read an uninitialised byte of it *)
}.
Arguments World : clear implicits.

Section Setters.
Context {A : Type}.
(* assignments to the variables above *)
Definition set_rx (v : Msg) (w : World A) : World A :=
  mkWorld A v (w_rxv w) (w_st w) (w_ist w) (w_probe w) (w_nick w) (w_page w) (w_alarm w) (w_epoch w) (w_hbEn w) (w_sec w) (w_rreq w) (w_xpage w) (w_xaddr w) (w_xcount w) (w_xseq w) (w_guidSt w) (w_tSt w) (w_tGuid w) (w_t162 w) (w_tEp w) (w_tHb w) (w_tm w) (w_ps w) (w_txe w) (w_loop w) (w_dmIdx w) (w_ngCnt w) (w_ngIdx w) (w_ngErr w) (w_ngRule w) (w_ngPos w) (w_logEn w) (w_logLvl w) (w_app w) (w_wr w) (w_out w) (w_ub w) (w_ngub w).
Definition set_rxv (v : bool) (w : World A) : World A :=
  mkWorld A (w_rx w) v (w_st w) (w_ist w) (w_probe w) (w_nick w) (w_page w) (w_alarm w) (w_epoch w) (w_hbEn w) (w_sec w) (w_rreq w) (w_xpage w) (w_xaddr w) (w_xcount w) (w_xseq w) (w_guidSt w) (w_tSt w) (w_tGuid w) (w_t162 w) (w_tEp w) (w_tHb w) (w_tm w) (w_ps w) (w_txe w) (w_loop w) (w_dmIdx w) (w_ngCnt w) (w_ngIdx w) (w_ngErr w) (w_ngRule w) (w_ngPos w) (w_logEn w) (w_logLvl w) (w_app w) (w_wr w) (w_out w) (w_ub w) (w_ngub w).
Definition set_st (v : State) (w : World A) : World A :=
  mkWorld A (w_rx w) (w_rxv w) v (w_ist w) (w_probe w) (w_nick w) (w_page w) (w_alarm w) (w_epoch w) (w_hbEn w) (w_sec w) (w_rreq w) (w_xpage w) (w_xaddr w) (w_xcount w) (w_xseq w) (w_guidSt w) (w_tSt w) (w_tGuid w) (w_t162 w) (w_tEp w) (w_tHb w) (w_tm w) (w_ps w) (w_txe w) (w_loop w) (w_dmIdx w) (w_ngCnt w) (w_ngIdx w) (w_ngErr w) (w_ngRule w) (w_ngPos w) (w_logEn w) (w_logLvl w) (w_app w) (w_wr w) (w_out w) (w_ub w) (w_ngub w).
Definition set_ist (v : IState) (w : World A) : World A :=
  mkWorld A (w_rx w) (w_rxv w) (w_st w) v (w_probe w) (w_nick w) (w_page w) (w_alarm w) (w_epoch w) (w_hbEn w) (w_sec w) (w_rreq w) (w_xpage w) (w_xaddr w) (w_xcount w) (w_xseq w) (w_guidSt w) (w_tSt w) (w_tGuid w) (w_t162 w) (w_tEp w) (w_tHb w) (w_tm w) (w_ps w) (w_txe w) (w_loop w) (w_dmIdx w) (w_ngCnt w) (w_ngIdx w) (w_ngErr w) (w_ngRule w) (w_ngPos w) (w_logEn w) (w_logLvl w) (w_app w) (w_wr w) (w_out w) (w_ub w) (w_ngub w).
Definition set_probe (v : N) (w : World A) : World A :=
  mkWorld A (w_rx w) (w_rxv w) (w_st w) (w_ist w) v (w_nick w) (w_page w) (w_alarm w) (w_epoch w) (w_hbEn w) (w_sec w) (w_rreq w) (w_xpage w) (w_xaddr w) (w_xcount w) (w_xseq w) (w_guidSt w) (w_tSt w) (w_tGuid w) (w_t162 w) (w_tEp w) (w_tHb w) (w_tm w) (w_ps w) (w_txe w) (w_loop w) (w_dmIdx w) (w_ngCnt w) (w_ngIdx w) (w_ngErr w) (w_ngRule w) (w_ngPos w) (w_logEn w) (w_logLvl w) (w_app w) (w_wr w) (w_out w) (w_ub w) (w_ngub w).
Definition set_nick (v : N) (w : World A) : World A :=
  mkWorld A (w_rx w) (w_rxv w) (w_st w) (w_ist w) (w_probe w) v (w_page w) (w_alarm w) (w_epoch w) (w_hbEn w) (w_sec w) (w_rreq w) (w_xpage w) (w_xaddr w) (w_xcount w) (w_xseq w) (w_guidSt w) (w_tSt w) (w_tGuid w) (w_t162 w) (w_tEp w) (w_tHb w) (w_tm w) (w_ps w) (w_txe w) (w_loop w) (w_dmIdx w) (w_ngCnt w) (w_ngIdx w) (w_ngErr w) (w_ngRule w) (w_ngPos w) (w_logEn w) (w_logLvl w) (w_app w) (w_wr w) (w_out w) (w_ub w) (w_ngub w).
Definition set_page (v : N) (w : World A) : World A :=
  mkWorld A (w_rx w) (w_rxv w) (w_st w) (w_ist w) (w_probe w) (w_nick w) v (w_alarm w) (w_epoch w) (w_hbEn w) (w_sec w) (w_rreq w) (w_xpage w) (w_xaddr w) (w_xcount w) (w_xseq w) (w_guidSt w) (w_tSt w) (w_tGuid w) (w_t162 w) (w_tEp w) (w_tHb w) (w_tm w) (w_ps w) (w_txe w) (w_loop w) (w_dmIdx w) (w_ngCnt w) (w_ngIdx w) (w_ngErr w) (w_ngRule w) (w_ngPos w) (w_logEn w) (w_logLvl w) (w_app w) (w_wr w) (w_out w) (w_ub w) (w_ngub w).
Definition set_alarm (v : N) (w : World A) : World A :=
  mkWorld A (w_rx w) (w_rxv w) (w_st w) (w_ist w) (w_probe w) (w_nick w) (w_page w) v (w_epoch w) (w_hbEn w) (w_sec w) (w_rreq w) (w_xpage w) (w_xaddr w) (w_xcount w) (w_xseq w) (w_guidSt w) (w_tSt w) (w_tGuid w) (w_t162 w) (w_tEp w) (w_tHb w) (w_tm w) (w_ps w) (w_txe w) (w_loop w) (w_dmIdx w) (w_ngCnt w) (w_ngIdx w) (w_ngErr w) (w_ngRule w) (w_ngPos w) (w_logEn w) (w_logLvl w) (w_app w) (w_wr w) (w_out w) (w_ub w) (w_ngub w).
Definition set_epoch (v : N) (w : World A) : World A :=
  mkWorld A (w_rx w) (w_rxv w) (w_st w) (w_ist w) (w_probe w) (w_nick w) (w_page w) (w_alarm w) v (w_hbEn w) (w_sec w) (w_rreq w) (w_xpage w) (w_xaddr w) (w_xcount w) (w_xseq w) (w_guidSt w) (w_tSt w) (w_tGuid w) (w_t162 w) (w_tEp w) (w_tHb w) (w_tm w) (w_ps w) (w_txe w) (w_loop w) (w_dmIdx w) (w_ngCnt w) (w_ngIdx w) (w_ngErr w) (w_ngRule w) (w_ngPos w) (w_logEn w) (w_logLvl w) (w_app w) (w_wr w) (w_out w) (w_ub w) (w_ngub w).
Definition set_hbEn (v : bool) (w : World A) : World A :=
  mkWorld A (w_rx w) (w_rxv w) (w_st w) (w_ist w) (w_probe w) (w_nick w) (w_page w) (w_alarm w) (w_epoch w) v (w_sec w) (w_rreq w) (w_xpage w) (w_xaddr w) (w_xcount w) (w_xseq w) (w_guidSt w) (w_tSt w) (w_tGuid w) (w_t162 w) (w_tEp w) (w_tHb w) (w_tm w) (w_ps w) (w_txe w) (w_loop w) (w_dmIdx w) (w_ngCnt w) (w_ngIdx w) (w_ngErr w) (w_ngRule w) (w_ngPos w) (w_logEn w) (w_logLvl w) (w_app w) (w_wr w) (w_out w) (w_ub w) (w_ngub w).
Definition set_sec (v : N) (w : World A) : World A :=
  mkWorld A (w_rx w) (w_rxv w) (w_st w) (w_ist w) (w_probe w) (w_nick w) (w_page w) (w_alarm w) (w_epoch w) (w_hbEn w) v (w_rreq w) (w_xpage w) (w_xaddr w) (w_xcount w) (w_xseq w) (w_guidSt w) (w_tSt w) (w_tGuid w) (w_t162 w) (w_tEp w) (w_tHb w) (w_tm w) (w_ps w) (w_txe w) (w_loop w) (w_dmIdx w) (w_ngCnt w) (w_ngIdx w) (w_ngErr w) (w_ngRule w) (w_ngPos w) (w_logEn w) (w_logLvl w) (w_app w) (w_wr w) (w_out w) (w_ub w) (w_ngub w).
Definition set_rreq (v : bool) (w : World A) : World A :=
  mkWorld A (w_rx w) (w_rxv w) (w_st w) (w_ist w) (w_probe w) (w_nick w) (w_page w) (w_alarm w) (w_epoch w) (w_hbEn w) (w_sec w) v (w_xpage w) (w_xaddr w) (w_xcount w) (w_xseq w) (w_guidSt w) (w_tSt w) (w_tGuid w) (w_t162 w) (w_tEp w) (w_tHb w) (w_tm w) (w_ps w) (w_txe w) (w_loop w) (w_dmIdx w) (w_ngCnt w) (w_ngIdx w) (w_ngErr w) (w_ngRule w) (w_ngPos w) (w_logEn w) (w_logLvl w) (w_app w) (w_wr w) (w_out w) (w_ub w) (w_ngub w).
Definition set_xpage (v : N) (w : World A) : World A :=
  mkWorld A (w_rx w) (w_rxv w) (w_st w) (w_ist w) (w_probe w) (w_nick w) (w_page w) (w_alarm w) (w_epoch w) (w_hbEn w) (w_sec w) (w_rreq w) v (w_xaddr w) (w_xcount w) (w_xseq w) (w_guidSt w) (w_tSt w) (w_tGuid w) (w_t162 w) (w_tEp w) (w_tHb w) (w_tm w) (w_ps w) (w_txe w) (w_loop w) (w_dmIdx w) (w_ngCnt w) (w_ngIdx w) (w_ngErr w) (w_ngRule w) (w_ngPos w) (w_logEn w) (w_logLvl w) (w_app w) (w_wr w) (w_out w) (w_ub w) (w_ngub w).
Definition set_xaddr (v : N) (w : World A) : World A :=
  mkWorld A (w_rx w) (w_rxv w) (w_st w) (w_ist w) (w_probe w) (w_nick w) (w_page w) (w_alarm w) (w_epoch w) (w_hbEn w) (w_sec w) (w_rreq w) (w_xpage w) v (w_xcount w) (w_xseq w) (w_guidSt w) (w_tSt w) (w_tGuid w) (w_t162 w) (w_tEp w) (w_tHb w) (w_tm w) (w_ps w) (w_txe w) (w_loop w) (w_dmIdx w) (w_ngCnt w) (w_ngIdx w) (w_ngErr w) (w_ngRule w) (w_ngPos w) (w_logEn w) (w_logLvl w) (w_app w) (w_wr w) (w_out w) (w_ub w) (w_ngub w).
Definition set_xcount (v : N) (w : World A) : World A :=
  mkWorld A (w_rx w) (w_rxv w) (w_st w) (w_ist w) (w_probe w) (w_nick w) (w_page w) (w_alarm w) (w_epoch w) (w_hbEn w) (w_sec w) (w_rreq w) (w_xpage w) (w_xaddr w) v (w_xseq w) (w_guidSt w) (w_tSt w) (w_tGuid w) (w_t162 w) (w_tEp w) (w_tHb w) (w_tm w) (w_ps w) (w_txe w) (w_loop w) (w_dmIdx w) (w_ngCnt w) (w_ngIdx w) (w_ngErr w) (w_ngRule w) (w_ngPos w) (w_logEn w) (w_logLvl w) (w_app w) (w_wr w) (w_out w) (w_ub w) (w_ngub w).
Definition set_xseq (v : N) (w : World A) : World A :=
  mkWorld A (w_rx w) (w_rxv w) (w_st w) (w_ist w) (w_probe w) (w_nick w) (w_page w) (w_alarm w) (w_epoch w) (w_hbEn w) (w_sec w) (w_rreq w) (w_xpage w) (w_xaddr w) (w_xcount w) v (w_guidSt w) (w_tSt w) (w_tGuid w) (w_t162 w) (w_tEp w) (w_tHb w) (w_tm w) (w_ps w) (w_txe w) (w_loop w) (w_dmIdx w) (w_ngCnt w) (w_ngIdx w) (w_ngErr w) (w_ngRule w) (w_ngPos w) (w_logEn w) (w_logLvl w) (w_app w) (w_wr w) (w_out w) (w_ub w) (w_ngub w).
Definition set_guidSt (v : N) (w : World A) : World A :=
  mkWorld A (w_rx w) (w_rxv w) (w_st w) (w_ist w) (w_probe w) (w_nick w) (w_page w) (w_alarm w) (w_epoch w) (w_hbEn w) (w_sec w) (w_rreq w) (w_xpage w) (w_xaddr w) (w_xcount w) (w_xseq w) v (w_tSt w) (w_tGuid w) (w_t162 w) (w_tEp w) (w_tHb w) (w_tm w) (w_ps w) (w_txe w) (w_loop w) (w_dmIdx w) (w_ngCnt w) (w_ngIdx w) (w_ngErr w) (w_ngRule w) (w_ngPos w) (w_logEn w) (w_logLvl w) (w_app w) (w_wr w) (w_out w) (w_ub w) (w_ngub w).
Definition set_tSt (v : N) (w : World A) : World A :=
  mkWorld A (w_rx w) (w_rxv w) (w_st w) (w_ist w) (w_probe w) (w_nick w) (w_page w) (w_alarm w) (w_epoch w) (w_hbEn w) (w_sec w) (w_rreq w) (w_xpage w) (w_xaddr w) (w_xcount w) (w_xseq w) (w_guidSt w) v (w_tGuid w) (w_t162 w) (w_tEp w) (w_tHb w) (w_tm w) (w_ps w) (w_txe w) (w_loop w) (w_dmIdx w) (w_ngCnt w) (w_ngIdx w) (w_ngErr w) (w_ngRule w) (w_ngPos w) (w_logEn w) (w_logLvl w) (w_app w) (w_wr w) (w_out w) (w_ub w) (w_ngub w).
Definition set_tGuid (v : N) (w : World A) : World A :=
  mkWorld A (w_rx w) (w_rxv w) (w_st w) (w_ist w) (w_probe w) (w_nick w) (w_page w) (w_alarm w) (w_epoch w) (w_hbEn w) (w_sec w) (w_rreq w) (w_xpage w) (w_xaddr w) (w_xcount w) (w_xseq w) (w_guidSt w) (w_tSt w) v (w_t162 w) (w_tEp w) (w_tHb w) (w_tm w) (w_ps w) (w_txe w) (w_loop w) (w_dmIdx w) (w_ngCnt w) (w_ngIdx w) (w_ngErr w) (w_ngRule w) (w_ngPos w) (w_logEn w) (w_logLvl w) (w_app w) (w_wr w) (w_out w) (w_ub w) (w_ngub w).
Definition set_t162 (v : N) (w : World A) : World A :=
  mkWorld A (w_rx w) (w_rxv w) (w_st w) (w_ist w) (w_probe w) (w_nick w) (w_page w) (w_alarm w) (w_epoch w) (w_hbEn w) (w_sec w) (w_rreq w) (w_xpage w) (w_xaddr w) (w_xcount w) (w_xseq w) (w_guidSt w) (w_tSt w) (w_tGuid w) v (w_tEp w) (w_tHb w) (w_tm w) (w_ps w) (w_txe w) (w_loop w) (w_dmIdx w) (w_ngCnt w) (w_ngIdx w) (w_ngErr w) (w_ngRule w) (w_ngPos w) (w_logEn w) (w_logLvl w) (w_app w) (w_wr w) (w_out w) (w_ub w) (w_ngub w).
Definition set_tEp (v : N) (w : World A) : World A :=
  mkWorld A (w_rx w) (w_rxv w) (w_st w) (w_ist w) (w_probe w) (w_nick w) (w_page w) (w_alarm w) (w_epoch w) (w_hbEn w) (w_sec w) (w_rreq w) (w_xpage w) (w_xaddr w) (w_xcount w) (w_xseq w) (w_guidSt w) (w_tSt w) (w_tGuid w) (w_t162 w) v (w_tHb w) (w_tm w) (w_ps w) (w_txe w) (w_loop w) (w_dmIdx w) (w_ngCnt w) (w_ngIdx w) (w_ngErr w) (w_ngRule w) (w_ngPos w) (w_logEn w) (w_logLvl w) (w_app w) (w_wr w) (w_out w) (w_ub w) (w_ngub w).
Definition set_tHb (v : N) (w : World A) : World A :=
  mkWorld A (w_rx w) (w_rxv w) (w_st w) (w_ist w) (w_probe w) (w_nick w) (w_page w) (w_alarm w) (w_epoch w) (w_hbEn w) (w_sec w) (w_rreq w) (w_xpage w) (w_xaddr w) (w_xcount w) (w_xseq w) (w_guidSt w) (w_tSt w) (w_tGuid w) (w_t162 w) (w_tEp w) v (w_tm w) (w_ps w) (w_txe w) (w_loop w) (w_dmIdx w) (w_ngCnt w) (w_ngIdx w) (w_ngErr w) (w_ngRule w) (w_ngPos w) (w_logEn w) (w_logLvl w) (w_app w) (w_wr w) (w_out w) (w_ub w) (w_ngub w).
Definition set_tm (v : Timers) (w : World A) : World A :=
  mkWorld A (w_rx w) (w_rxv w) (w_st w) (w_ist w) (w_probe w) (w_nick w) (w_page w) (w_alarm w) (w_epoch w) (w_hbEn w) (w_sec w) (w_rreq w) (w_xpage w) (w_xaddr w) (w_xcount w) (w_xseq w) (w_guidSt w) (w_tSt w) (w_tGuid w) (w_t162 w) (w_tEp w) (w_tHb w) v (w_ps w) (w_txe w) (w_loop w) (w_dmIdx w) (w_ngCnt w) (w_ngIdx w) (w_ngErr w) (w_ngRule w) (w_ngPos w) (w_logEn w) (w_logLvl w) (w_app w) (w_wr w) (w_out w) (w_ub w) (w_ngub w).
Definition set_ps (v : N -> N) (w : World A) : World A :=
  mkWorld A (w_rx w) (w_rxv w) (w_st w) (w_ist w) (w_probe w) (w_nick w) (w_page w) (w_alarm w) (w_epoch w) (w_hbEn w) (w_sec w) (w_rreq w) (w_xpage w) (w_xaddr w) (w_xcount w) (w_xseq w) (w_guidSt w) (w_tSt w) (w_tGuid w) (w_t162 w) (w_tEp w) (w_tHb w) (w_tm w) v (w_txe w) (w_loop w) (w_dmIdx w) (w_ngCnt w) (w_ngIdx w) (w_ngErr w) (w_ngRule w) (w_ngPos w) (w_logEn w) (w_logLvl w) (w_app w) (w_wr w) (w_out w) (w_ub w) (w_ngub w).
Definition set_txe (v : N) (w : World A) : World A :=
  mkWorld A (w_rx w) (w_rxv w) (w_st w) (w_ist w) (w_probe w) (w_nick w) (w_page w) (w_alarm w) (w_epoch w) (w_hbEn w) (w_sec w) (w_rreq w) (w_xpage w) (w_xaddr w) (w_xcount w) (w_xseq w) (w_guidSt w) (w_tSt w) (w_tGuid w) (w_t162 w) (w_tEp w) (w_tHb w) (w_tm w) (w_ps w) v (w_loop w) (w_dmIdx w) (w_ngCnt w) (w_ngIdx w) (w_ngErr w) (w_ngRule w) (w_ngPos w) (w_logEn w) (w_logLvl w) (w_app w) (w_wr w) (w_out w) (w_ub w) (w_ngub w).
Definition set_loop (v : CBuf Msg) (w : World A) : World A :=
  mkWorld A (w_rx w) (w_rxv w) (w_st w) (w_ist w) (w_probe w) (w_nick w) (w_page w) (w_alarm w) (w_epoch w) (w_hbEn w) (w_sec w) (w_rreq w) (w_xpage w) (w_xaddr w) (w_xcount w) (w_xseq w) (w_guidSt w) (w_tSt w) (w_tGuid w) (w_t162 w) (w_tEp w) (w_tHb w) (w_tm w) (w_ps w) (w_txe w) v (w_dmIdx w) (w_ngCnt w) (w_ngIdx w) (w_ngErr w) (w_ngRule w) (w_ngPos w) (w_logEn w) (w_logLvl w) (w_app w) (w_wr w) (w_out w) (w_ub w) (w_ngub w).
Definition set_dmIdx (v : N) (w : World A) : World A :=
  mkWorld A (w_rx w) (w_rxv w) (w_st w) (w_ist w) (w_probe w) (w_nick w) (w_page w) (w_alarm w) (w_epoch w) (w_hbEn w) (w_sec w) (w_rreq w) (w_xpage w) (w_xaddr w) (w_xcount w) (w_xseq w) (w_guidSt w) (w_tSt w) (w_tGuid w) (w_t162 w) (w_tEp w) (w_tHb w) (w_tm w) (w_ps w) (w_txe w) (w_loop w) v (w_ngCnt w) (w_ngIdx w) (w_ngErr w) (w_ngRule w) (w_ngPos w) (w_logEn w) (w_logLvl w) (w_app w) (w_wr w) (w_out w) (w_ub w) (w_ngub w).
Definition set_ngCnt (v : N) (w : World A) : World A :=
  mkWorld A (w_rx w) (w_rxv w) (w_st w) (w_ist w) (w_probe w) (w_nick w) (w_page w) (w_alarm w) (w_epoch w) (w_hbEn w) (w_sec w) (w_rreq w) (w_xpage w) (w_xaddr w) (w_xcount w) (w_xseq w) (w_guidSt w) (w_tSt w) (w_tGuid w) (w_t162 w) (w_tEp w) (w_tHb w) (w_tm w) (w_ps w) (w_txe w) (w_loop w) (w_dmIdx w) v (w_ngIdx w) (w_ngErr w) (w_ngRule w) (w_ngPos w) (w_logEn w) (w_logLvl w) (w_app w) (w_wr w) (w_out w) (w_ub w) (w_ngub w).
Definition set_ngIdx (v : N) (w : World A) : World A :=
  mkWorld A (w_rx w) (w_rxv w) (w_st w) (w_ist w) (w_probe w) (w_nick w) (w_page w) (w_alarm w) (w_epoch w) (w_hbEn w) (w_sec w) (w_rreq w) (w_xpage w) (w_xaddr w) (w_xcount w) (w_xseq w) (w_guidSt w) (w_tSt w) (w_tGuid w) (w_t162 w) (w_tEp w) (w_tHb w) (w_tm w) (w_ps w) (w_txe w) (w_loop w) (w_dmIdx w) (w_ngCnt w) v (w_ngErr w) (w_ngRule w) (w_ngPos w) (w_logEn w) (w_logLvl w) (w_app w) (w_wr w) (w_out w) (w_ub w) (w_ngub w).
Definition set_ngErr (v : bool) (w : World A) : World A :=
  mkWorld A (w_rx w) (w_rxv w) (w_st w) (w_ist w) (w_probe w) (w_nick w) (w_page w) (w_alarm w) (w_epoch w) (w_hbEn w) (w_sec w) (w_rreq w) (w_xpage w) (w_xaddr w) (w_xcount w) (w_xseq w) (w_guidSt w) (w_tSt w) (w_tGuid w) (w_t162 w) (w_tEp w) (w_tHb w) (w_tm w) (w_ps w) (w_txe w) (w_loop w) (w_dmIdx w) (w_ngCnt w) (w_ngIdx w) v (w_ngRule w) (w_ngPos w) (w_logEn w) (w_logLvl w) (w_app w) (w_wr w) (w_out w) (w_ub w) (w_ngub w).
Definition set_ngRule (v : N) (w : World A) : World A :=
  mkWorld A (w_rx w) (w_rxv w) (w_st w) (w_ist w) (w_probe w) (w_nick w) (w_page w) (w_alarm w) (w_epoch w) (w_hbEn w) (w_sec w) (w_rreq w) (w_xpage w) (w_xaddr w) (w_xcount w) (w_xseq w) (w_guidSt w) (w_tSt w) (w_tGuid w) (w_t162 w) (w_tEp w) (w_tHb w) (w_tm w) (w_ps w) (w_txe w) (w_loop w) (w_dmIdx w) (w_ngCnt w) (w_ngIdx w) (w_ngErr w) v (w_ngPos w) (w_logEn w) (w_logLvl w) (w_app w) (w_wr w) (w_out w) (w_ub w) (w_ngub w).
Definition set_ngPos (v : N) (w : World A) : World A :=
  mkWorld A (w_rx w) (w_rxv w) (w_st w) (w_ist w) (w_probe w) (w_nick w) (w_page w) (w_alarm w) (w_epoch w) (w_hbEn w) (w_sec w) (w_rreq w) (w_xpage w) (w_xaddr w) (w_xcount w) (w_xseq w) (w_guidSt w) (w_tSt w) (w_tGuid w) (w_t162 w) (w_tEp w) (w_tHb w) (w_tm w) (w_ps w) (w_txe w) (w_loop w) (w_dmIdx w) (w_ngCnt w) (w_ngIdx w) (w_ngErr w) (w_ngRule w) v (w_logEn w) (w_logLvl w) (w_app w) (w_wr w) (w_out w) (w_ub w) (w_ngub w).
Definition set_logEn (v : bool) (w : World A) : World A :=
  mkWorld A (w_rx w) (w_rxv w) (w_st w) (w_ist w) (w_probe w) (w_nick w) (w_page w) (w_alarm w) (w_epoch w) (w_hbEn w) (w_sec w) (w_rreq w) (w_xpage w) (w_xaddr w) (w_xcount w) (w_xseq w) (w_guidSt w) (w_tSt w) (w_tGuid w) (w_t162 w) (w_tEp w) (w_tHb w) (w_tm w) (w_ps w) (w_txe w) (w_loop w) (w_dmIdx w) (w_ngCnt w) (w_ngIdx w) (w_ngErr w) (w_ngRule w) (w_ngPos w) v (w_logLvl w) (w_app w) (w_wr w) (w_out w) (w_ub w) (w_ngub w).
Definition set_logLvl (v : N) (w : World A) : World A :=
  mkWorld A (w_rx w) (w_rxv w) (w_st w) (w_ist w) (w_probe w) (w_nick w) (w_page w) (w_alarm w) (w_epoch w) (w_hbEn w) (w_sec w) (w_rreq w) (w_xpage w) (w_xaddr w) (w_xcount w) (w_xseq w) (w_guidSt w) (w_tSt w) (w_tGuid w) (w_t162 w) (w_tEp w) (w_tHb w) (w_tm w) (w_ps w) (w_txe w) (w_loop w) (w_dmIdx w) (w_ngCnt w) (w_ngIdx w) (w_ngErr w) (w_ngRule w) (w_ngPos w) (w_logEn w) v (w_app w) (w_wr w) (w_out w) (w_ub w) (w_ngub w).
Definition set_app (v : A) (w : World A) : World A :=
  mkWorld A (w_rx w) (w_rxv w) (w_st w) (w_ist w) (w_probe w) (w_nick w) (w_page w) (w_alarm w) (w_epoch w) (w_hbEn w) (w_sec w) (w_rreq w) (w_xpage w) (w_xaddr w) (w_xcount w) (w_xseq w) (w_guidSt w) (w_tSt w) (w_tGuid w) (w_t162 w) (w_tEp w) (w_tHb w) (w_tm w) (w_ps w) (w_txe w) (w_loop w) (w_dmIdx w) (w_ngCnt w) (w_ngIdx w) (w_ngErr w) (w_ngRule w) (w_ngPos w) (w_logEn w) (w_logLvl w) v (w_wr w) (w_out w) (w_ub w) (w_ngub w).
Definition set_wr (v : list bool) (w : World A) : World A :=
  mkWorld A (w_rx w) (w_rxv w) (w_st w) (w_ist w) (w_probe w) (w_nick w) (w_page w) (w_alarm w) (w_epoch w) (w_hbEn w) (w_sec w) (w_rreq w) (w_xpage w) (w_xaddr w) (w_xcount w) (w_xseq w) (w_guidSt w) (w_tSt w) (w_tGuid w) (w_t162 w) (w_tEp w) (w_tHb w) (w_tm w) (w_ps w) (w_txe w) (w_loop w) (w_dmIdx w) (w_ngCnt w) (w_ngIdx w) (w_ngErr w) (w_ngRule w) (w_ngPos w) (w_logEn w) (w_logLvl w) (w_app w) v (w_out w) (w_ub w) (w_ngub w).
Definition set_out (v : list Obs) (w : World A) : World A :=
  mkWorld A (w_rx w) (w_rxv w) (w_st w) (w_ist w) (w_probe w) (w_nick w) (w_page w) (w_alarm w) (w_epoch w) (w_hbEn w) (w_sec w) (w_rreq w) (w_xpage w) (w_xaddr w) (w_xcount w) (w_xseq w) (w_guidSt w) (w_tSt w) (w_tGuid w) (w_t162 w) (w_tEp w) (w_tHb w) (w_tm w) (w_ps w) (w_txe w) (w_loop w) (w_dmIdx w) (w_ngCnt w) (w_ngIdx w) (w_ngErr w) (w_ngRule w) (w_ngPos w) (w_logEn w) (w_logLvl w) (w_app w) (w_wr w) v (w_ub w) (w_ngub w).
Definition set_ub (v : bool) (w : World A) : World A :=
  mkWorld A (w_rx w) (w_rxv w) (w_st w) (w_ist w) (w_probe w) (w_nick w) (w_page w) (w_alarm w) (w_epoch w) (w_hbEn w) (w_sec w) (w_rreq w) (w_xpage w) (w_xaddr w) (w_xcount w) (w_xseq w) (w_guidSt w) (w_tSt w) (w_tGuid w) (w_t162 w) (w_tEp w) (w_tHb w) (w_tm w) (w_ps w) (w_txe w) (w_loop w) (w_dmIdx w) (w_ngCnt w) (w_ngIdx w) (w_ngErr w) (w_ngRule w) (w_ngPos w) (w_logEn w) (w_logLvl w) (w_app w) (w_wr w) (w_out w) v (w_ngub w).
Definition set_ngub (v : bool) (w : World A) : World A :=
  mkWorld A (w_rx w) (w_rxv w) (w_st w) (w_ist w) (w_probe w) (w_nick w) (w_page w) (w_alarm w) (w_epoch w) (w_hbEn w) (w_sec w) (w_rreq w) (w_xpage w) (w_xaddr w) (w_xcount w) (w_xseq w) (w_guidSt w) (w_tSt w) (w_tGuid w) (w_t162 w) (w_tEp w) (w_tHb w) (w_tm w) (w_ps w) (w_txe w) (w_loop w) (w_dmIdx w) (w_ngCnt w) (w_ngIdx w) (w_ngErr w) (w_ngRule w) (w_ngPos w) (w_logEn w) (w_logLvl w) (w_app w) (w_wr w) (w_out w) (w_ub w) v.

(* state monad *)
Definition M (R : Type) : Type := World A -> R * World A.
Definition ret {R} (r : R) : M R := fun w => (r, w).
Definition bind {R S} (m : M R) (k : R -> M S) : M S :=
  fun w => let p := m w in k (fst p) (snd p).
Definition get {R} (f : World A -> R) : M R := fun w => (f w, w).
Definition upd (f : World A -> World A) : M unit := fun w => (tt, f w).
(* an observable effect *)
Definition emit (o : Obs) : M unit := upd (fun w => set_out (o :: w_out w) w).
(* undefined behaviour *)
Definition setUB : M unit := upd (set_ub true).
(* the same in vscp_dm_ng.c *)
Definition setNgUB : M unit := upd (set_ngub true).
(* for (x in l) f(x) *)
Fixpoint forM {X} (l : list X) (f : X -> M unit) : M unit :=
  match l with
  | [] => ret tt
  | x :: r => bind (f x) (fun _ => forM r f)
  end.
End Setters.
Arguments M : clear implicits.

Declare Scope monad_scope.
Delimit Scope monad_scope with monad.
Notation "x <- m ;; k" := (bind m (fun x => k))
  (at level 61, m at next level, right associativity) : monad_scope.
Notation "m ;; k" := (bind m (fun _ => k))
  (at level 61, right associativity) : monad_scope.
Notation "'when' b 'do' m" := (if b then m else ret tt)
  (at level 60, m at level 60) : monad_scope.
Open Scope monad_scope.

(* simplification of projections of updated worlds: w_x (set_y v w) *)
Ltac wunfold := unfold set_rx, set_rxv, set_st, set_ist, set_probe, set_nick, set_page, set_alarm, set_epoch, set_hbEn, set_sec, set_rreq, set_xpage, set_xaddr, set_xcount, set_xseq, set_guidSt, set_tSt, set_tGuid, set_t162, set_tEp, set_tHb, set_tm, set_ps, set_txe, set_loop, set_dmIdx, set_ngCnt, set_ngIdx, set_ngErr, set_ngRule, set_ngPos, set_logEn, set_logLvl, set_app, set_wr, set_out, set_ub, set_ngub in *.
Ltac wsimp := cbn [w_rx w_rxv w_st w_ist w_probe w_nick w_page w_alarm w_epoch w_hbEn w_sec w_rreq w_xpage w_xaddr w_xcount w_xseq w_guidSt w_tSt w_tGuid w_t162 w_tEp w_tHb w_tm w_ps w_txe w_loop w_dmIdx w_ngCnt w_ngIdx w_ngErr w_ngRule w_ngPos w_logEn w_logLvl w_app w_wr w_out w_ub w_ngub
  set_rx set_rxv set_st set_ist set_probe set_nick set_page set_alarm set_epoch set_hbEn set_sec set_rreq set_xpage set_xaddr set_xcount set_xseq set_guidSt set_tSt set_tGuid set_t162 set_tEp set_tHb set_tm set_ps set_txe set_loop set_dmIdx set_ngCnt set_ngIdx set_ngErr set_ngRule set_ngPos set_logEn set_logLvl set_app set_wr set_out set_ub set_ngub].
Ltac wsimp_in H := cbn [w_rx w_rxv w_st w_ist w_probe w_nick w_page w_alarm w_epoch w_hbEn w_sec w_rreq w_xpage w_xaddr w_xcount w_xseq w_guidSt w_tSt w_tGuid w_t162 w_tEp w_tHb w_tm w_ps w_txe w_loop w_dmIdx w_ngCnt w_ngIdx w_ngErr w_ngRule w_ngPos w_logEn w_logLvl w_app w_wr w_out w_ub w_ngub
  set_rx set_rxv set_st set_ist set_probe set_nick set_page set_alarm set_epoch set_hbEn set_sec set_rreq set_xpage set_xaddr set_xcount set_xseq set_guidSt set_tSt set_tGuid set_t162 set_tEp set_tHb set_tm set_ps set_txe set_loop set_dmIdx set_ngCnt set_ngIdx set_ngErr set_ngRule set_ngPos set_logEn set_logLvl set_app set_wr set_out set_ub set_ngub] in H.

