(* Config.v - compile time configuration and application environment. *)
From Verif Require Export Types.

(* ------------------------------------------------------------------ *)
(* src/vscp_config.h, src/vscp_dev_data_config.h                        *)
(* Every compile switch and every configuration value the modelled code  *)
(* depends on. The theorems quantify over this record.                   *)
(* ------------------------------------------------------------------ *)
Record Config := mkConfig {
  (* vscp_config.h switches *)
  c_logger : bool;        (* VSCP_CONFIG_ENABLE_LOGGER *)
  c_silent : bool;        (* VSCP_CONFIG_SILENT_NODE *)
  c_hard : bool;          (* VSCP_CONFIG_HARD_CODED_NODE *)
  c_hb_seg : bool;        (* VSCP_CONFIG_HEARTBEAT_SUPPORT_SEGMENT *)
  c_hb_node : bool;       (* VSCP_CONFIG_HEARTBEAT_NODE *)
  c_idle_co : bool;       (* VSCP_CONFIG_IDLE_CALLOUT *)
  c_err_co : bool;        (* VSCP_CONFIG_ERROR_CALLOUT *)
  c_boot : bool;          (* VSCP_CONFIG_BOOT_LOADER_SUPPORTED *)
  c_dm : bool;            (* VSCP_CONFIG_ENABLE_DM *)
  c_dm_paged : bool;      (* VSCP_CONFIG_DM_PAGED_FEATURE *)
  c_dm_ext : bool;        (* VSCP_CONFIG_ENABLE_DM_EXTENSION *)
  c_dm_ng : bool;         (* VSCP_CONFIG_ENABLE_DM_NEXT_GENERATION *)
  c_loop : bool;          (* VSCP_CONFIG_ENABLE_LOOPBACK *)
  c_time_co : bool;       (* VSCP_CONFIG_ENABLE_SEGMENT_TIME_CALLOUT *)
  c_prot_ev : bool;       (* VSCP_CONFIG_PROTOCOL_EVENT_NOTIFICATION *)
  c_custom_hb : bool;     (* VSCP_CONFIG_ENABLE_CUSTOM_HEARTBEAT *)
  (* vscp_config.h values *)
  c_t_init : N;           (* VSCP_CONFIG_NODE_SEGMENT_INIT_TIMEOUT [ms] *)
  c_t_probe : N;          (* VSCP_CONFIG_PROBE_ACK_TIMEOUT [ms] *)
  c_t_multi : N;          (* VSCP_CONFIG_MULTI_MSG_TIMEOUT [ms] *)
  c_t_hb : N;             (* VSCP_CONFIG_HEARTBEAT_NODE_PERIOD [ms] *)
  c_start_nick : N;       (* VSCP_CONFIG_START_NODE_PROBE_NICKNAME *)
  c_dm_page : N;          (* VSCP_CONFIG_DM_PAGE *)
  c_dm_off : N;           (* VSCP_CONFIG_DM_OFFSET *)
  c_dm_rows : N;          (* VSCP_CONFIG_DM_ROWS *)
  c_ng_page : N;          (* VSCP_CONFIG_DM_NG_PAGE *)
  c_ng_size : N;          (* VSCP_CONFIG_DM_NG_RULE_SET_SIZE *)
  c_loop_num : N;         (* VSCP_CONFIG_LOOPBACK_STORAGE_NUM *)
  (* platform *)
  c_msg_size : N;         (* sizeof(vscp_Message) *)
  c_timers : N;           (* VSCP_TIMER_NUM of the timer module *)
  c_le : bool;            (* little endian host *)
  (* vscp_dev_data_config.h *)
  d_family : bool;        (* ENABLE_FAMILY_CODE *)
  d_guid_ps : bool;       (* ENABLE_GUID_STORAGE_PS *)
  d_guid_ext : bool;      (* ENABLE_GUID_STORAGE_EXT *)
  d_zone_ps : bool;       (* ENABLE_NODE_ZONE_STORAGE_PS *)
  d_sub_ps : bool;        (* ENABLE_NODE_SUB_ZONE_STORAGE_PS *)
  d_mdev_ps : bool;       (* ENABLE_MANUFACTURER_DEV_ID_STORAGE_PS *)
  d_msub_ps : bool;       (* ENABLE_MANUFACTURER_SUB_DEV_ID_STORAGE_PS *)
  d_mdf_ps : bool;        (* ENABLE_MDF_URL_STORAGE_PS *)
  d_fam_ps : bool;        (* ENABLE_STD_DEV_FAMILY_CODE_STORAGE_PS *)
  d_type_ps : bool;       (* ENABLE_STD_DEV_TYPE_STORAGE_PS *)
  d_guid : list N;        (* NODE_GUID, MSB first *)
  d_zone : N;             (* NODE_ZONE *)
  d_sub : N;              (* NODE_SUB_ZONE *)
  d_mdev : N;             (* MANUFACTURER_DEVICE_ID *)
  d_msub : N;             (* MANUFACTURER_SUB_DEVICE_ID *)
  d_mdf : list N;         (* MDF_URL without the terminating zero *)
  d_vmaj : N;             (* VERSION_MAJOR *)
  d_vmin : N;             (* VERSION_MINOR *)
  d_vsub : N;             (* VERSION_SUB_MINOR *)
  d_fam : N;              (* STANDARD_DEVICE_FAMILY_CODE *)
  d_type : N;             (* STANDARD_DEVICE_TYPE *)
  d_fwcode : N            (* FIRMWARE_DEVICE_CODE *)
}.

(* The application and the platform: everything the framework calls out to.
   The application state type A is arbitrary; the callouts are arbitrary functions.
   - register callouts: templates/vscp_app_reg.c
   - boot loader algorithm, external GUID, events: templates/vscp_portable.c
   - actions: templates/vscp_action.c
   Register, event, action and heartbeat callouts see the application state and the persistent
   memory (which the application can read with vscp_ps_read...).
   Event, action, heartbeat and register-write callouts may issue API calls, which are
   returned as a list and executed in order directly after the callout.
   Simplification: these calls do not see each other's results, and the remaining callouts
   (lamp, idle, error, reset, boot, time) issue none. *)
Class Env (A : Type) := {
  cfg : Config;
  app_read : A * (N -> N) -> N -> N -> N * A;
  app_write : A * (N -> N) -> N -> N -> N -> N * list ApiCall * A;
  app_restore : A -> A;
  app_pages : A -> N;
  app_boot_alg : A -> N;
  app_guid : A -> N -> N;
  app_prot : A * (N -> N) -> Msg -> bool * list ApiCall * A;
  app_event : A * (N -> N) -> Msg -> list ApiCall * A;
  app_action : A * (N -> N) -> N -> N -> Msg -> list ApiCall * A;
  app_hb : A * (N -> N) -> list ApiCall * A
}.

(* ------------------------------------------------------------------ *)
(* Which configurations are considered: the value ranges documented in   *)
(* vscp_config.h / vscp_dev_data_config.h, the combinations those headers *)
(* reject with #error, and three limits the code relies on silently:      *)
(*  - the standard decision matrix has at most 255 rows (the row counter   *)
(*    in vscp_dm.c:334 is an uint8_t),                                     *)
(*  - the loopback storage has fewer than 256 bytes (vscp_util.c:216, the  *)
(*    size parameter is an uint8_t),                                       *)
(*  - the timer module has at most 255 timers (identifier type uint8_t).   *)
(* ------------------------------------------------------------------ *)
Record valid_cfg (c : Config) : Prop := {
  v_start_nick : c_start_nick c < 256;
  v_dm_page : c_dm_page c < 65536;
  v_dm_off : c_dm_off c < 256;
  v_dm_rows : c_dm_rows c <= 255;
  v_ng_page : c_ng_page c < 65536;
  v_ng_size : c_ng_size c < 65536;
  v_loop : c_loop c = true -> 1 <= c_loop_num c /\ 1 <= c_msg_size c /\ c_loop_num c * c_msg_size c < 256;
  v_timers : c_timers c <= 255;
  v_guid : length (d_guid c) = 16%nat /\ bytes (d_guid c);
  v_zone : d_zone c < 256;
  v_sub : d_sub c < 256;
  v_mdev : d_mdev c < 4294967296;
  v_msub : d_msub c < 4294967296;
  v_mdf : Forall (fun x => 0 < x < 256) (d_mdf c);
  v_vmaj : d_vmaj c < 256;
  v_vmin : d_vmin c < 256;
  v_vsub : d_vsub c < 256;
  v_fam : d_fam c < 4294967296;
  v_type : d_type c < 4294967296;
  v_fwcode : d_fwcode c < 65536;
  (* #error rules of vscp_config.h / vscp_dev_data_config.h / vscp_dm.c *)
  v_e1 : c_dm_paged c = true -> c_dm c = true;
  v_e2 : c_dm_ext c = true -> c_dm c = true;
  v_e3 : c_time_co c = true -> c_hb_seg c = true;
  v_e4 : ~ (d_guid_ps c = true /\ d_guid_ext c = true);
  v_e5 : c_dm c = true -> c_dm_paged c = false -> c_dm_page c <> 0;
  v_e6 : ~ (c_dm_paged c = true /\ c_dm_ext c = true)
}.

(* API calls with well formed messages; applications that issue only such calls *)
Definition api_wf (c : ApiCall) : Prop := match c with ASend m => msg_wf m | _ => True end.
Record valid_env {A} (E : Env A) : Prop := {
  ve_cfg : valid_cfg cfg;
  ve_write : forall a p r v, Forall api_wf (snd (fst (app_write a p r v)));
  ve_prot : forall a m, Forall api_wf (snd (fst (app_prot a m)));
  ve_event : forall a m, Forall api_wf (fst (app_event a m));
  ve_action : forall a x p m, Forall api_wf (fst (app_action a x p m));
  ve_hb : forall a, Forall api_wf (fst (app_hb a))
}.
