(* ArmMain.v - model of the whole program of the ARM example: examples/arm/frdm-k64f/vscp_frdm_k64f/source/vscp_frdm_k64f.c with the framework,
   the application (vscp_user), the software timers (SwTimer.v), the button and the lamp (MainLoop.v).
   Simplifications: the debug console is left out. The timer interrupt may come at any time. It shares data with the main loop through
   main_isInitButtonPressed and the software timers only, so that it is allowed at three places of the loop, as in AvrMain.v. The answers of the
   CAN adapter (CanArm.v) are inputs, the persistent memory (EepromArm.v) is a memory of bytes. *)
From Verif Require Export AvrMain.

(* all settings of vscp_config_overwrite.h:69-135 and vscp_dev_data_config_overwrite.h:70-126 are commented out: the default values of
   src/vscp_config.h:78-343 and src/vscp_dev_data_config.h:75-264. VSCP_TIMER_NUM: vscp_timer.c:59. *)
Definition armCfg : Config := {|
  c_logger := false; c_silent := false; c_hard := false; c_hb_seg := false; c_hb_node := true;
  c_idle_co := false; c_err_co := false; c_boot := false; c_dm := true; c_dm_paged := false;
  c_dm_ext := false; c_dm_ng := false; c_loop := false; c_time_co := false; c_prot_ev := false;
  c_custom_hb := false; c_t_init := 1000; c_t_probe := 2000; c_t_multi := 1000; c_t_hb := 30000; c_start_nick := 1;
  c_dm_page := 1; c_dm_off := 0; c_dm_rows := 10; c_ng_page := 2; c_ng_size := 80;
  c_loop_num := 4; c_msg_size := 20; c_timers := 5; c_le := true;
  d_family := true; d_guid_ps := false; d_guid_ext := false; d_zone_ps := false; d_sub_ps := false;
  d_mdev_ps := false; d_msub_ps := false; d_mdf_ps := false; d_fam_ps := false; d_type_ps := false;
  d_guid := [0;0;0;0;0;0;0;0;0;0;0;0;0;0;0;0]; d_zone := 255; d_sub := 255; d_mdev := 0; d_msub := 0; d_mdf := [];
  d_vmaj := 0; d_vmin := 1; d_vsub := 0; d_fam := 0; d_type := 0; d_fwcode := 0
|}.
(* vscp_app_reg.c:98-190, vscp_action.c:84-106, vscp_portable.c:87-222: the callouts do nothing, all registers of the application read 0, one
   page is used; the remaining callouts are not enabled *)
Definition armEnv : Env unit := {|
  cfg := armCfg;
  app_read := fun a _ _ => (0, fst a);
  app_write := fun a _ _ _ => (0, [], fst a);
  app_restore := fun a => a;
  app_pages := fun _ => 1;
  app_boot_alg := fun _ => 255;
  app_guid := fun _ _ => 0;
  app_prot := fun a _ => (false, [], fst a);
  app_event := fun a _ => ([], fst a);
  app_action := fun a _ _ _ => ([], fst a);
  app_hb := fun a => ([], fst a)
|}.
#[local] Existing Instance armEnv.

(* the red LED is used by nothing else *)
Record ArmSys := mkArm { a_node : World unit; a_sw : SwTs; a_btn : Btn; a_led : LedSt }.
Definition armCall (o : Op) (y : ArmSys) : ArmSys := mkArm (snd (step o (a_node y))) (a_sw y) (a_btn y) (a_led y).

(* vscp_frdm_k64f.c:166-190 and 300-333 main_initRunLevel1: None = HALT() because vscp_core_init failed. SWTIMER_NUM 2: swTimer.h:68 *)
Definition armStart (ps : N -> N) (wr : list bool) : option ArmSys :=
  let r := core_init (boot ps tt wr [] false false) in
  if fst r then Some (mkArm (snd r) (swStart (swStart (swInit 2) 0 10 false) 1 250 false) btnInit (mkLed false 0)) else None.

(* vscp_frdm_k64f.c:258-288 PIT0_IRQHandler, once per millisecond (line 366); held = main_getInitButtonState() *)
Definition armIsr (y : ArmSys) (held : bool) : ArmSys := mkArm (a_node y) (swProcess (a_sw y)) (armTick held (a_btn y)) (a_led y).
Definition armIsrs (l : list bool) (y : ArmSys) : ArmSys := fold_left armIsr l y.

(* vscp_frdm_k64f.c:211-217 *)
Definition armButton (y : ArmSys) : ArmSys :=
  let b := a_btn y in
  let y1 := if b_pressed b && negb (b_last b) then armCall (OpApi AStartInit) y else y in
  mkArm (a_node y1) (a_sw y1) (loopTest b) (a_led y1).
(* vscp_frdm_k64f.c:219 *)
Definition armLatch (y : ArmSys) : ArmSys := mkArm (a_node y) (a_sw y) (loopLatch (a_btn y)) (a_led y).
(* vscp_frdm_k64f.c:222-229 *)
Definition armPeriod (y : ArmSys) : ArmSys :=
  let r := swGetStatus (a_sw y) 1 in
  let y1 := mkArm (a_node y) (snd r) (a_btn y) (a_led y) in
  if fst r then
    let y2 := armCall (OpTick 250) y1 in
    mkArm (a_node y2) (a_sw y2) (a_btn y2) (lampStep (lampState (w_out (a_node y2))) (a_led y2))
  else y1.
(* vscp_frdm_k64f.c:200-250: one turn, with the timer interrupts before line 211, between the lines 211 and 219 and between the lines 219 and
   222. The code for the active state only logs. *)
Definition armTurn (y : ArmSys) (t : Turn) : ArmSys :=
  armPeriod (armIsrs (u_i3 t) (armLatch (armIsrs (u_i2 t) (armButton (armIsrs (u_i1 t) (armCall (OpProcess (u_rd t)) y)))))).
Definition armMain (ts : list Turn) (y : ArmSys) : ArmSys := fold_left armTurn ts y.
