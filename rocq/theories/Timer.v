(* Timer.v - model of examples/avr/at90can/vscp_user/vscp_timer.c, the reference
   implementation of the timer interface templates/vscp_timer.h. *)
From Verif Require Export Types.

(* vscp_timer.c:77-82 vscp_timer_Timer; vscp_timer.c:93 vscp_timer_context *)
Record Timer := mkTimer { t_id : N; t_val : N }.
Definition Timers := list Timer.

(* vscp_timer.c:106-118 vscp_timer_init *)
Definition timerInit (num : N) : Timers := repeat (mkTimer TIMER_ID_INVALID 0) (N.to_nat num).

(* vscp_timer.c:134-145: first context whose id is invalid gets its index as id *)
Fixpoint timerCreateFrom (i : N) (ts : Timers) : N * Timers :=
  match ts with
  | [] => (TIMER_ID_INVALID, [])
  | t :: r =>
      if t_id t =? TIMER_ID_INVALID then (i, mkTimer i (t_val t) :: r)
      else let '(id, r') := timerCreateFrom (i + 1) r in (id, t :: r')
  end.
(* vscp_timer.c:128-148 vscp_timer_create *)
Definition timerCreate (ts : Timers) : N * Timers := timerCreateFrom 0 ts.

(* context[id].value = v if id is in range *)
Fixpoint timerSetAt (ts : Timers) (i : nat) (v : N) : Timers :=
  match ts, i with
  | [], _ => []
  | t :: r, O => mkTimer (t_id t) v :: r
  | t :: r, S j => t :: timerSetAt r j v
  end.

(* vscp_timer.c:157-165 vscp_timer_start (value is uint16_t) *)
Definition timerStart (ts : Timers) (id v : N) : Timers := timerSetAt ts (N.to_nat id) (u16 v).
(* vscp_timer.c:172-180 vscp_timer_stop *)
Definition timerStop (ts : Timers) (id : N) : Timers := timerSetAt ts (N.to_nat id) 0.
(* vscp_timer.c:190-203 vscp_timer_getStatus *)
Definition timerRunning (ts : Timers) (id : N) : bool :=
  match nth_error ts (N.to_nat id) with
  | Some t => 0 <? t_val t
  | None => false
  end.
(* vscp_timer.c:210-232 vscp_timer_process *)
Definition timerProcess (ts : Timers) (period : N) : Timers :=
  map (fun t => if t_id t =? TIMER_ID_INVALID then t
                else mkTimer (t_id t) (t_val t - period)) ts.
