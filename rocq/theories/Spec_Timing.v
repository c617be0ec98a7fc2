(* Spec_Timing.v - node heartbeats and the time since epoch, as functions of what happened to the node *)
From Verif Require Export Spec_Reset Spec_Proto.

Section Timing.
Context {A : Type} {E : Env A}.

(* the period of the node heartbeats [ms]; the timer interface takes 16 bit values *)
Definition hbPeriod : N := c_t_hb cfg mod 65536.
(* CLASS1.INFORMATION node heartbeat *)
Definition isHeartbeat (m : Msg) : bool := (m_class m =? 20) && (m_type m =? 9).
(* What a history means for the heartbeats: enabled, milliseconds until the next one is due, heartbeats so far. A frame directly after a
   vscp_core_sendEvent call is the application's (byApp). The period starts with each heartbeat and when the node gets active (lamp on) with
   heartbeats enabled. vscp_core_enableHeartbeat switches between enabled and disabled (see C55_enable_refuted). *)
Record HbState := mkHb { hb_en : bool; hb_left : N; hb_byApp : bool; hb_count : N }.
Definition hbStep (s : HbState) (o : Obs) : HbState :=
  match o with
  | OPower => mkHb true 0 false (hb_count s)
  | OInit => mkHb (hb_en s) 0 false (hb_count s)
  | OLamp LampOn => mkHb (hb_en s) (if hb_en s then hbPeriod else hb_left s) false (hb_count s)
  | OTick p => mkHb (hb_en s) (hb_left s - p) false (hb_count s)
  | OApi (AHeartbeat _) => mkHb (negb (hb_en s)) (hb_left s) false (hb_count s)
  | OApi (ASend _) => mkHb (hb_en s) (hb_left s) true (hb_count s)
  | OTx m _ => if isHeartbeat m && negb (hb_byApp s) then mkHb (hb_en s) hbPeriod false (hb_count s + 1) else mkHb (hb_en s) (hb_left s) false (hb_count s)
  | OHeartbeatCustom => mkHb (hb_en s) hbPeriod false (hb_count s + 1)
  | _ => mkHb (hb_en s) (hb_left s) false (hb_count s)
  end.
Definition hbState (l : list Obs) : HbState := fold_left hbStep l (mkHb true 0 false 0).

(* what the arguments of vscp_core_enableHeartbeat ask for *)
Definition hbWanted (l : list Obs) : bool :=
  fold_left (fun b o => match o with OPower => true | OApi (AHeartbeat b') => b' | _ => b end) l true.
(* every call asks for a change *)
Fixpoint hbChanges (b : bool) (l : list Obs) : Prop :=
  match l with
  | [] => True
  | OPower :: r => hbChanges true r
  | OApi (AHeartbeat b') :: r => b' = negb b /\ hbChanges b' r
  | _ :: r => hbChanges b r
  end.

(* milliseconds until the current second is over; looked at in each process call *)
Definition secLeft (l : list Obs) : N :=
  fold_left (fun s o => match o with OInit => 1000 | OTick p => s - p | OProcess => if s =? 0 then 1000 else s | _ => s end) l 0.
(* the time set by API calls *)
Definition timeSet (l : list Obs) (t : N) : N := fold_left (fun t o => match o with OApi (ASetTime x) => x mod 2 ^ 32 | _ => t end) l t.
(* the application handles the protocol event m itself *)
Definition claimed (w : World A) (m : Msg) : bool := c_prot_ev cfg && fst (fst (app_prot (w_app w, w_ps w) m)).
(* the time that the received event tells an active node *)
Definition newTime (w : World A) (ms : list Msg) : option N :=
  match ms with
  | [m] => if isActive w && c_hb_seg cfg && (m_class m =? 0) && (m_type m =? 1) && negb (claimed w m) then heartbeatTime (payload m) else None
  | _ => None
  end.
End Timing.
