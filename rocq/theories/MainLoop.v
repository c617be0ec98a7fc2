(* MainLoop.v - model of the board independent part of the two example programs:
   examples/avr/at90can/main.c and examples/arm/frdm-k64f/vscp_frdm_k64f/source/vscp_frdm_k64f.c
   (button debouncing in the timer interrupt, start of the segment initialisation, status lamp).
   The interrupt handler is atomic. The main loop reads the flag it shares with the interrupt twice;
   the interrupt may come between the two reads. *)
From Verif Require Export Types.

(* main.c:75 MAIN_SEG_INIT_DEBOUNCE_TIME, vscp_frdm_k64f.c:113; TIMERDRV_MS(100) is 100 because a
   tick is 1 ms (timerDrv.h: TIMERDRV_TICK_IN_MS 1) *)
Definition DEBOUNCE : N := 100.

(* main.c:330 segmentInitButtonDebounceCnt (uint8_t), main.c:127 main_isInitButtonPressed,
   main.c:144 lastSegInitButtonState; the number of calls of vscp_core_startNodeSegmentInit *)
Record Btn := mkBtn { b_cnt : N; b_pressed : bool; b_last : bool; b_starts : N }.
Definition btnInit : Btn := mkBtn 0 false false 0.

(* main.c:328-348 main_timerCb: held = hw_getSegInitButtonState() *)
Definition avrTick (held : bool) (b : Btn) : Btn :=
  if negb held then mkBtn 0 false (b_last b) (b_starts b)
  else if DEBOUNCE <=? b_cnt b then mkBtn (b_cnt b) true (b_last b) (b_starts b)
  else mkBtn (u8 (b_cnt b + 1)) (b_pressed b) (b_last b) (b_starts b).

(* vscp_frdm_k64f.c:258-285 PIT0_IRQHandler: held = main_getInitButtonState(); the first comparison is
   FALSE != main_getInitButtonState() *)
Definition armTick (held : bool) (b : Btn) : Btn :=
  if held then mkBtn 0 false (b_last b) (b_starts b)
  else if DEBOUNCE <=? b_cnt b then mkBtn (b_cnt b) true (b_last b) (b_starts b)
  else mkBtn (u8 (b_cnt b + 1)) (b_pressed b) (b_last b) (b_starts b).

(* main.c:189-193, vscp_frdm_k64f.c:211-217: the test *)
Definition loopTest (b : Btn) : Btn :=
  if b_pressed b && negb (b_last b)
  then mkBtn (b_cnt b) (b_pressed b) (b_last b) (b_starts b + 1) else b.
(* main.c:195, vscp_frdm_k64f.c:219: lastSegInitButtonState = main_isInitButtonPressed *)
Definition loopLatch (b : Btn) : Btn := mkBtn (b_cnt b) (b_pressed b) (b_pressed b) (b_starts b).

(* main.c:359-400 main_processStatusLamp, vscp_frdm_k64f.c:405-446: status LED, static slowCnt (uint8_t).
   Called once per 250 ms. *)
Record LedSt := mkLed { l_on : bool; l_slow : N }.
Definition lampStep (st : Lamp) (l : LedSt) : LedSt :=
  let on := match st with
            | LampOff => false
            | LampOn => true
            | LampBlinkSlow => if l_slow l mod 4 =? 0 then negb (l_on l) else l_on l
            | LampBlinkFast => negb (l_on l)
            end in
  mkLed on (match st with LampBlinkSlow => u8 (l_slow l + 1) | _ => 0 end).
