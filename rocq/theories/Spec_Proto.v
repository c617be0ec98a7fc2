(* Spec_Proto.v - what the protocol events do to the node that are not about registers *)
From Verif Require Export Spec_Request.

Section P.
Context {A : Type} {E : Env A}.
Implicit Types w : World A.

(* the node starts its nickname discovery over: it probes for a segment controller and has no nickname *)
Definition discovering w : World A := set_nick 255 (set_probe 0 (set_ist PROBE_MASTER (set_st INIT w))).

(* the 49 bytes of a WHO_IS_THERE response: GUID, MDF URL, 0; frame i carries 7 of them behind its index *)
Definition identity w : list N := map (guidByte w) (Nseq 16) ++ map (mdfByte w) (Nseq 32) ++ [0].
Definition whoPayload w (i : nat) : list N := N.of_nat i :: firstn 7 (skipn (7 * i) (identity w)).

(* rows, register offset and page of the decision matrix; all zero without one *)
Definition matrixInfo (c : Config) : list N :=
  if c_dm c then [c_dm_rows c; if c_dm_paged c then 126 else c_dm_off c;
                  if c_dm_paged c then 0 else c_dm_page c / 256; if c_dm_paged c then 0 else c_dm_page c mod 256]
  else [0; 0; 0; 0].

(* an ENTER_BOOT_LOADER event fits the node: boot algorithm, four GUID bytes, selected page *)
Definition bootMatch w (alg g0 g3 g5 g7 pmsb plsb : N) : Prop :=
  c_boot cfg = true /\ alg = app_boot_alg (w_app w) mod 256 /\ alg <> 255 /\
  g0 = guidByte w 0 /\ g3 = guidByte w 3 /\ g5 = guidByte w 5 /\ g7 = guidByte w 7 /\ w_page w = 256 * pmsb + plsb.

(* a segment controller heartbeat with at least five data bytes carries the time behind the CRC, which the application
   can get notified about *)
Definition heartbeatTime (data : list N) : option N :=
  match data with _ :: a :: b :: c :: d :: _ => Some (256 * (256 * (256 * a + b) + c) + d) | _ => None end.
Definition timeNotice (data : list N) : list Obs :=
  match heartbeatTime data with Some t => if c_time_co cfg then [OTime t] else [] | None => [] end.

(* -- DROP_NICKNAME: nickname, optional flags (bit 5 keep the nickname, bit 6 restore factory defaults, bit 7 go idle),
   optional wait time in seconds -- *)
Definition dropArgs (data : list N) : option (N * N) :=
  match data with [_] => Some (0, 0) | [_; flags] => Some (flags, 0) | [_; flags; t] => Some (flags, t) | _ => None end.
Definition dropKeep (flags : N) : bool := N.testbit flags 5.
Definition dropRestore (flags : N) : bool := N.testbit flags 6.
Definition dropIdle (flags : N) : bool := negb (N.testbit flags 5) && N.testbit flags 7.
(* factory defaults (what they are: property C11) *)
Definition restored w : World A := snd (restoreFactory w).
(* the nickname becomes v, persistently; l: the effects of this *)
Definition renamed w (v : N) (l : list Obs) w1 : Prop := exists x, l = [OPs x v] /\ stores (set_nick v w) FNick 0 v w1.
(* waiting for the reset: t periods of a second *)
Definition resetting (t : N) w : World A :=
  set_st RESET (set_sec t (set_tm (if t =? 0 then timerStop (w_tm w) (w_tSt w) else timerStart (w_tm w) (w_tSt w) 1000) w)).
(* factory defaults are restored first if requested; then the nickname is removed, unless it is to be kept; then the node
   goes idle or waits for the reset *)
Definition dropped w (flags t : N) (l : list Obs) w1 : Prop :=
  exists wr wn ln, wr = (if dropRestore flags then restored w else w) /\
    (if negb (dropKeep flags) then renamed wr 255 ln wn
     else if dropRestore flags then renamed wr (w_nick w) ln wn
     else ln = [] /\ wn = wr) /\
    l = effects w wr ++ ln ++ [OLamp LampOff] ++ (if dropIdle flags && c_idle_co cfg then [OIdle] else []) /\
    w1 = (if dropIdle flags then set_st IDLE wn else resetting t wn).
End P.
