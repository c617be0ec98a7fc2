(* ExampleAvr.v - model of the application of the AVR example (examples/avr/at90can/vscp_user): its configuration, its two registers and its two
   actions. The application state is the status LED (true = lit), which hw.h:80-86 maps to an output pin.
   Simplification: the pin is written in no other way than by HW_ENABLE_STATUS_LED and HW_DISABLE_STATUS_LED in vscp_action.c; the status
   lamp of main.c, which drives the same pin, is considered in property C80 separately. *)
From Verif Require Export Events EventTable MainLoop.

(* vscp_config_overwrite.h:68-117, vscp_dev_data_config_overwrite.h:70-126, otherwise the default values of src/vscp_config.h and
   src/vscp_dev_data_config.h; VSCP_TIMER_NUM: vscp_timer.c:59. sizeof(vscp_Message) plays no role without loopback. *)
Definition avrCfg : Config := {|
  c_logger := false; c_silent := false; c_hard := false; c_hb_seg := false; c_hb_node := true;
  c_idle_co := false; c_err_co := false; c_boot := false; c_dm := true; c_dm_paged := false;
  c_dm_ext := false; c_dm_ng := false; c_loop := false; c_time_co := false; c_prot_ev := false;
  c_custom_hb := false; c_t_init := 1000; c_t_probe := 2000; c_t_multi := 1000; c_t_hb := 30000; c_start_nick := 1;
  c_dm_page := 1; c_dm_off := 0; c_dm_rows := 2; c_ng_page := 2; c_ng_size := 80;
  c_loop_num := 4; c_msg_size := 16; c_timers := 5; c_le := true;
  d_family := true; d_guid_ps := false; d_guid_ext := false; d_zone_ps := true; d_sub_ps := true;
  d_mdev_ps := false; d_msub_ps := false; d_mdf_ps := false; d_fam_ps := false; d_type_ps := false;
  d_guid := [0;0;0;0;0;0;0;0;0;0;0;0;0;0;0;1]; d_zone := 255; d_sub := 255; d_mdev := 0; d_msub := 0;
  d_mdf := [119;119;119;46;98;108;117;101;45;97;110;100;105;46;100;101;47;118;115;99;112;47;101;120;112;48;49;46;120;109;108];
  d_vmaj := 0; d_vmin := 2; d_vsub := 2; d_fam := 0; d_type := 0; d_fwcode := 0
|}.

(* the events that vscp_evt_information_sendOn(0, 0xff, 0xff) and vscp_evt_information_sendOff(0, 0xff, 0xff) send (property C80_sender relates
   this to the model of these functions); the nickname vscp_core_nickname is the one in the persistent memory *)
Definition infoFrame (type nick : N) : Msg := mkMsg 3 20 type nick false 3 [0; 255; 255; 0; 0; 0; 0; 0].

(* vscp_action.c:107-130 vscp_action_execute *)
Definition avrAction (s : bool * (N -> N)) (a par : N) (m : Msg) : list ApiCall * bool :=
  if a =? 1 then ([ASend (infoFrame 3 (u8 (snd s (ps_nick avrCfg))))], true)
  else if a =? 2 then ([ASend (infoFrame 4 (u8 (snd s (ps_nick avrCfg))))], false)
  else ([], fst s).

(* vscp_app_reg.c:132-163 vscp_app_reg_readRegister; VSCP_APP_REG_NODE_ZONE 0, VSCP_APP_REG_NODE_SUB_ZONE 1, the application's
   registers of page 0 are 0x00 to 0x7F *)
Definition avrRead (s : bool * (N -> N)) (page addr : N) : N * bool :=
  (if page =? 0 then
     if addr =? 0 then snd s (ps_zone avrCfg) else if addr =? 1 then snd s (ps_sub avrCfg) else 0
   else 0, fst s).
(* vscp_app_reg.c:173-206 vscp_app_reg_writeRegister: writes and reads back *)
Definition avrWrite (s : bool * (N -> N)) (page addr v : N) : N * list ApiCall * bool :=
  if page =? 0 then
    if addr =? 0 then (u8 v, [AWriteZone v], fst s) else if addr =? 1 then (u8 v, [AWriteSubZone v], fst s) else (0, [], fst s)
  else (0, [], fst s).

(* vscp_app_reg.c:98-123: the factory settings are restored by the device data, two pages are used;
   vscp_portable.c: vscp_portable_provideEvent does nothing; the remaining callouts are not enabled *)
Definition avrEnv : Env bool := {|
  cfg := avrCfg;
  app_read := avrRead;
  app_write := avrWrite;
  app_restore := fun a => a;
  app_pages := fun _ => 2;
  app_boot_alg := fun _ => 255;
  app_guid := fun _ _ => 0;
  app_prot := fun a _ => (false, [], fst a);
  app_event := fun a _ => ([], fst a);
  app_action := avrAction;
  app_hb := fun a => ([], fst a)
|}.
