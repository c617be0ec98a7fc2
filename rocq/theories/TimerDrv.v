(* TimerDrv.v - model of examples/avr/at90can/driver/timerDrv.c (CPU clock 16 MHz). The registers TCCR0A, TCNT0 and TIMSK0 of the
   hardware timer are not modelled: the overflow interrupt simply comes. *)
From Verif Require Export Types.

(* timerDrv.c:134-140 timerDrv_tickCounter and timerDrv_intrCounter, both uint8_t; timerDrv_cb: true = not NULL *)
Record Drv := mkDrv { td_tick : N; td_intr : N; td_cb : bool }.

(* timerDrv.c:81 TIMERDRV_THRESHOLD_VALUE *)
Definition THRESHOLD : N := 10.

(* timerDrv.c:154-170 timerDrv_init *)
Definition drvInit : Drv := mkDrv 0 0 false.
(* timerDrv.c:178-186 timerDrv_setCallback; given = the argument is not NULL *)
Definition drvSetCallback (given : bool) (d : Drv) : Drv := mkDrv (td_tick d) (td_intr d) given.
(* timerDrv.c:193-196 timerDrv_getTickCount *)
Definition drvGetTick (d : Drv) : N := td_tick d.

(* timerDrv.c:232-254 ISR(TIMER0_OVF_vect); the first component: the callback is called *)
Definition drvIsr (d : Drv) : bool * Drv :=
  let n := u8 (td_intr d + 1) in
  if THRESHOLD <=? n then (td_cb d, mkDrv (u8 (td_tick d + 1)) 0 (td_cb d))
  else (false, mkDrv (td_tick d) n (td_cb d)).

(* timerDrv.c:204-223 timerDrv_sleep. The counter changes behind its back, so that the function is a machine that makes one step with
   every read of timerDrv_tickCounter: line 208, line 210, line 213 (again and again), line 220 (again and again). *)
Inductive Slp := SlpBegin | SlpTest (e : N) | SlpOver (e : N) | SlpWait (e : N) | SlpDone.
Definition slpRead (n t : N) (s : Slp) : Slp :=
  match s with
  | SlpBegin => SlpTest (u8 (t + n))
  | SlpTest e => if e <? t then SlpOver e else SlpWait e
  | SlpOver e => if e <? t then SlpOver e else SlpWait e
  | SlpWait e => if t <? e then SlpWait e else SlpDone
  | SlpDone => SlpDone
  end.
