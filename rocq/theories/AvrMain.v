(* AvrMain.v - model of the whole program of the AVR example: examples/avr/at90can/main.c with the framework, the application
   (ExampleAvr.v), the timer driver (TimerDrv.v), the software timers (SwTimer.v), the button and the lamp (MainLoop.v) and the clock
   (SysTime.v).
   Simplifications: the serial port is left out (it only prints the version and its opening does not fail). The timer interrupt may come
   at any time. It shares data with the main loop through main_isInitButtonPressed and the software timers only, so that it makes no
   difference at which instruction it comes between two accesses to these; hence it is allowed at three places of the loop. The CAN
   interrupts are part of the adapter (CanAvr.v), here its answers are inputs. The main loop before its first vscp_core_process has no
   effect on the model. *)
From Verif Require Export ExampleAvr SwTimer SysTime TimerDrv.
#[local] Existing Instance avrEnv.

Record Sys := mkSys { y_node : World bool; y_drv : Drv; y_sw : SwTs; y_btn : Btn; y_led : LedSt; y_clk : Clock }.

(* vscp_portable.c:72,104-122 vscp_portable_lampState: the last one that was set; log newest first *)
Fixpoint lampState (l : list Obs) : Lamp :=
  match l with [] => LampOff | OLamp x :: _ => x | _ :: r => lampState r end.
(* the LED after the actions of an operation (vscp_action.c:107-130, see ExampleAvr.v); the effects of the operation newest first *)
Fixpoint ledPin (l : list Obs) (led : bool) : bool :=
  match l with
  | [] => led
  | OAction a _ _ :: r => if a =? 1 then true else if a =? 2 then false else ledPin r led
  | _ :: r => ledPin r led
  end.
(* a call of the framework from the main loop. The LED is y_led; the application state of the node is not used for anything else. *)
Definition nodeCall (o : Op) (y : Sys) : Sys :=
  let w := y_node y in
  let w' := snd (step o w) in
  mkSys w' (y_drv y) (y_sw y) (y_btn y)
    (mkLed (ledPin (firstn (length (w_out w') - length (w_out w)) (w_out w')) (l_on (y_led y))) (l_slow (y_led y))) (y_clk y).

(* main.c:66-80: MAIN_SWTIMER_10MS_ID 0, MAIN_SWTIMER_250MS_ID 1 and their periods; swTimer.h: SWTIMER_NUM 2 *)
(* main.c:142-165 and main.c:232-282 main_initRunLevel1: None = HALT() because vscp_core_init failed *)
Definition avrStart (ps : N -> N) (wr : list bool) : option Sys :=
  let r := core_init (boot ps false wr [] false false) in
  if fst r then
    Some (mkSys (snd r) (drvSetCallback true drvInit) (swStart (swStart (swInit 2) 0 10 false) 1 250 false) btnInit (mkLed false 0) timeInit)
  else None.

(* the overflow interrupt (timerDrv.c:232-254) with main.c:328-354 main_timerCb as callback; held = hw_getSegInitButtonState() *)
Definition avrIsr (y : Sys) (held : bool) : Sys :=
  let r := drvIsr (y_drv y) in
  if fst r then mkSys (y_node y) (snd r) (swProcess (y_sw y)) (avrTick held (y_btn y)) (y_led y) (y_clk y)
  else mkSys (y_node y) (snd r) (y_sw y) (y_btn y) (y_led y) (y_clk y).
Definition avrIsrs (l : list bool) (y : Sys) : Sys := fold_left avrIsr l y.

(* main.c:189-193 *)
Definition avrButton (y : Sys) : Sys :=
  let b := y_btn y in
  let y1 := if b_pressed b && negb (b_last b) then nodeCall (OpApi AStartInit) y else y in
  mkSys (y_node y1) (y_drv y1) (y_sw y1) (loopTest b) (y_led y1) (y_clk y1).
(* main.c:195 *)
Definition avrLatch (y : Sys) : Sys := mkSys (y_node y) (y_drv y) (y_sw y) (loopLatch (y_btn y)) (y_led y) (y_clk y).
(* main.c:198-208, main_processStatusLamp: main.c:359-400 *)
Definition avrPeriod (y : Sys) : Sys :=
  let r := swGetStatus (y_sw y) 1 in
  let y1 := mkSys (y_node y) (y_drv y) (snd r) (y_btn y) (y_led y) (y_clk y) in
  if fst r then
    let y2 := nodeCall (OpTick 250) y1 in
    mkSys (y_node y2) (y_drv y2) (y_sw y2) (y_btn y2) (lampStep (lampState (w_out (y_node y2))) (y_led y2)) (timeProcess 250 (y_clk y2))
  else y1.

(* what happens during one turn of the main loop: the message the adapter holds ready, the overflow interrupts (with the position of the
   button) before line 189, between the lines 189 and 195 and between the lines 195 and 198 *)
Record Turn := mkTurn { u_rd : option Msg; u_i1 : list bool; u_i2 : list bool; u_i3 : list bool }.
(* main.c:178-219: one turn; the code for the active state is empty *)
Definition avrTurn (y : Sys) (t : Turn) : Sys :=
  avrPeriod (avrIsrs (u_i3 t) (avrLatch (avrIsrs (u_i2 t) (avrButton (avrIsrs (u_i1 t) (nodeCall (OpProcess (u_rd t)) y)))))).
Definition avrMain (ts : list Turn) (y : Sys) : Sys := fold_left avrTurn ts y.
