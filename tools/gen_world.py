#!/usr/bin/env python3
"""Generates rocq/theories/World.v (record of all static variables with setters)."""
F = [
 ("rx","Msg","vscp_core.c:189 vscp_core_rxMessage"),
 ("rxv","bool","vscp_core.c:192 vscp_core_rxMessageValid"),
 ("st","State","vscp_core.c:183 vscp_core_state"),
 ("ist","IState","vscp_core.c:186 vscp_core_initState"),
 ("probe","N","vscp_core.c:210 vscp_core_nickname_probe"),
 ("nick","N","vscp_core.c:180 vscp_core_nickname"),
 ("page","N","vscp_core.c:229 vscp_core_regPageSelect"),
 ("alarm","N","vscp_core.c:226 vscp_core_regAlarmStatus"),
 ("epoch","N","vscp_core.c:213 vscp_core_timeSinceEpoch"),
 ("hbEn","bool","vscp_core.c:221 vscp_core_isHeartbeatEnabled"),
 ("sec","N","vscp_core.c:207 vscp_core_secCnt"),
 ("rreq","bool","vscp_core.c:232 vscp_core_resetRequested"),
 ("xpage","N","vscp_core.c:238 vscp_core_extPageReadData.page"),
 ("xaddr","N","vscp_core.c:238 vscp_core_extPageReadData.addr"),
 ("xcount","N","vscp_core.c:238 vscp_core_extPageReadData.count"),
 ("xseq","N","vscp_core.c:238 vscp_core_extPageReadData.seq"),
 ("guidSt","N","vscp_core.c:2388 static status of handleProtocolGuidDropNickname"),
 ("tSt","N","vscp_core.c:195 vscp_core_timerId"),
 ("tGuid","N","vscp_core.c:198 vscp_core_timerIdGuidDropNickname"),
 ("t162","N","vscp_core.c:201 vscp_core_timerIdReg162"),
 ("tEp","N","vscp_core.c:204 vscp_core_timerIdTimeSinceEpoch"),
 ("tHb","N","vscp_core.c:218 vscp_core_heartbeatTimerId"),
 ("tm","Timers","vscp_timer.c:93 vscp_timer_context"),
 ("ps","N -> N","persistent memory behind vscp_ps_access_*"),
 ("txe","N","vscp_transport.c:74 vscp_txErrorCnt"),
 ("loop","CBuf Msg","vscp_transport.c:79-82 loop back buffer and storage"),
 ("dmIdx","N","vscp_dm.c:176 vscp_dm_index"),
 ("ngCnt","N","vscp_dm_ng.c:172 vscp_dm_ng_ruleCnt"),
 ("ngIdx","N","vscp_dm_ng.c:178 vscp_dm_ng_ruleSetIndex"),
 ("ngErr","bool","vscp_dm_ng.c:158 vscp_dm_ng_error"),
 ("ngRule","N","vscp_dm_ng.c:161 vscp_dm_ng_errorRule"),
 ("ngPos","N","vscp_dm_ng.c:164 vscp_dm_ng_errorPos"),
 ("logEn","bool","vscp_logger.c:76 vscp_logger_isEnabled"),
 ("logLvl","N","vscp_logger.c:79 vscp_logger_logLevel"),
 ("app","A","state of the application"),
 ("wr","list bool","future results of vscp_tp_adapter_writeMessage (TRUE when exhausted)"),
 ("out","list Obs","effects so far, newest first"),
 ("ub","bool","an access outside an array happened (all modules but vscp_dm_ng.c)"),
 ("ngub","bool","vscp_dm_ng.c accessed its rule buffer out of bounds or read an uninitialised byte of it"),
]
o = []
p = o.append
p("""(* World.v - all static variables of the modelled modules, the environment state and the
   state monad in which the model is written.  GENERATED by tools/gen_world.py. *)
From Verif Require Export Config Util Timer.

(* vscp_core.c:92-102 STATE *)
Inductive State := STARTUP | INIT | PREACTIVE | ACTIVE | IDLE | RESET | ERROR.
(* vscp_core.c:105-112 INIT_STATE *)
Inductive IState := PROBE_MASTER | PROBE_MASTER_WAIT | PROBE | PROBE_WAIT.

(* switch(state) comparisons *)
Definition state_eqb (a b : State) : bool :=
  match a, b with
  | STARTUP, STARTUP | INIT, INIT | PREACTIVE, PREACTIVE | ACTIVE, ACTIVE
  | IDLE, IDLE | RESET, RESET | ERROR, ERROR => true
  | _, _ => false
  end.
""")
p("(* Each field cites the C object it stands for. *)")
p("Record World {A : Type} : Type := mkWorld {")
for i,(n,t,c) in enumerate(F):
    p("  w_%s : %s%s  (* %s *)" % (n,t,";" if i<len(F)-1 else "",c))
p("}.")
p("Arguments World : clear implicits.")
p("")
p("Section Setters.")
p("Context {A : Type}.")
p("(* assignments to the variables above *)")
for (n,t,c) in F:
    args = " ".join("v" if m==n else "(w_%s w)"%m for (m,_,_) in F)
    p("Definition set_%s (v : %s) (w : World A) : World A :=\n  mkWorld A %s." % (n,t,args))
p("")
p("""(* state monad *)
Definition M (R : Type) : Type := World A -> R * World A.
Definition ret {R} (r : R) : M R := fun w => (r, w).
Definition bind {R S} (m : M R) (k : R -> M S) : M S :=
  fun w => let p := m w in k (fst p) (snd p).
Definition get {R} (f : World A -> R) : M R := fun w => (f w, w).
Definition upd (f : World A -> World A) : M unit := fun w => (tt, f w).
(* an observable effect *)
Definition emit (o : Obs) : M unit := upd (fun w => set_out (o :: w_out w) w).
(* undefined behaviour *)
Definition setUB : M unit := upd (set_ub true).
(* the same in vscp_dm_ng.c *)
Definition setNgUB : M unit := upd (set_ngub true).
(* for (x in l) f(x) *)
Fixpoint forM {X} (l : list X) (f : X -> M unit) : M unit :=
  match l with
  | [] => ret tt
  | x :: r => bind (f x) (fun _ => forM r f)
  end.
End Setters.
Arguments M : clear implicits.

Declare Scope monad_scope.
Delimit Scope monad_scope with monad.
Notation "x <- m ;; k" := (bind m (fun x => k))
  (at level 61, m at next level, right associativity) : monad_scope.
Notation "m ;; k" := (bind m (fun _ => k))
  (at level 61, right associativity) : monad_scope.
Notation "'when' b 'do' m" := (if b then m else ret tt)
  (at level 60, m at level 60) : monad_scope.
Open Scope monad_scope.

(* simplification of projections of updated worlds: w_x (set_y v w) *)
Ltac wunfold := unfold """ + ", ".join("set_%s"%n for (n,_,_) in F) + """ in *.
Ltac wsimp := cbn [""" + " ".join("w_%s"%n for (n,_,_) in F) + "\n  " + " ".join("set_%s"%n for (n,_,_) in F) + """].
Ltac wsimp_in H := cbn [""" + " ".join("w_%s"%n for (n,_,_) in F) + "\n  " + " ".join("set_%s"%n for (n,_,_) in F) + """] in H.
""")
print("\n".join(o))
