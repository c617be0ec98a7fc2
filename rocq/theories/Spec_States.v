(* Spec_States.v - the documented life cycle of a node (VSCP specification, "nickname discovery" and
   "nickname handling"; vscp_core.c:92-102), and what a node that is not active may do. *)
From Verif Require Export Spec_Request.

(* the state after one process call, by the state before it *)
Definition successors (s : State) : list State :=
  match s with
  | STARTUP => [STARTUP; INIT; ACTIVE]
  | INIT => [INIT; PREACTIVE; ACTIVE; IDLE]
  | PREACTIVE => [PREACTIVE; INIT; ACTIVE]
  | ACTIVE => [ACTIVE; INIT; IDLE; RESET]
  | IDLE => [IDLE]
  | RESET => [RESET]
  | ERROR => [ERROR]
  end.

Section States.
Context {A : Type} {E : Env A}.
Implicit Types w : World A.

(* what a process call of a node that is not active may do, by its state: no register access by a
   message, no action, no event to the application; the only frames are the probe / new node online
   (type 2) and the acknowledge of an assigned nickname (type 7); the nickname is the only persistent
   data written; only a resetting node requests a reset *)
Definition mayDo (s : State) (o : Obs) : Prop :=
  match o with
  | OTx m _ => m_class m = 0 /\ ((m_type m = 2 /\ In s [STARTUP; INIT; PREACTIVE]) \/ (m_type m = 7 /\ s = PREACTIVE))
  | OPs a _ => a = ps_nick cfg /\ In s [STARTUP; INIT; PREACTIVE]
  | OLamp _ => In s [STARTUP; INIT; PREACTIVE]
  | OIdle => s = INIT
  | OResetRequest => s = RESET
  | OProcess | ORx _ | ORet _ => True
  | _ => False
  end.
(* everything behind the registers *)
Definition registers w := (w_page w, w_alarm w, w_dmIdx w, w_app w).

(* -- nickname discovery -- *)
(* everything that happened so far, oldest first *)
Definition history w : list Obs := rev (w_out w).
(* a probe for nickname n: NEW_NODE_ONLINE with low priority *)
Definition isProbe (n : N) (f : Msg) : Prop := m_class f = 0 /\ m_type f = 2 /\ m_prio f = 7 /\ payload f = [n].
(* somebody who holds nickname n acknowledges a probe *)
Definition isAck (n : N) (m : Msg) : Prop := m_class m = 0 /\ m_type m = 3 /\ m_oaddr m = n.
(* the node enters discovery: the lamp starts to blink fast *)
Definition discovery : Obs := OLamp LampBlinkFast.
(* the first candidates up to (excluding) n were probed one after the other, in ascending order, and each one was
   acknowledged after it had been probed *)
Inductive tried : N -> list Obs -> Prop :=
| tried_first l : tried (c_start_nick cfg) l
| tried_next n l f l1 m l2 : tried n l -> isProbe n f -> isAck n m -> tried (n + 1) (l ++ OTx f true :: l1 ++ ORx m :: l2).
(* milliseconds that the timers have seen *)
Fixpoint elapsed (l : list Obs) : N := match l with [] => 0 | OTick p :: r => p + elapsed r | _ :: r => elapsed r end.
(* the node has probed n and waits for somebody to acknowledge it (n < 255) / is about to probe n *)
Definition waitsFor w (n : N) : Prop := w_st w = INIT /\ w_ist w = PROBE_WAIT /\ w_probe w = n.
Definition probesNext w (n : N) : Prop := w_st w = INIT /\ w_ist w = PROBE /\ w_probe w = n.
(* the segment controller assigns a nickname: SET_NICKNAME from nickname 0 to nickname 0xFF *)
Definition assignment (m : Msg) : Prop := m_class m = 0 /\ m_type m = 6 /\ m_oaddr m = 0 /\ nth 0 (m_data m) 0 = 255.
End States.
