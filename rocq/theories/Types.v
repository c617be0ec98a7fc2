(* Types.v - messages, constants, observable effects. *)
From Verif Require Export Base.

(* ------------------------------------------------------------------ *)
(* Constants of src/vscp_types.h                                       *)
(* ------------------------------------------------------------------ *)
Definition L1_DATA_SIZE : N := 8.                 (* vscp_types.h: VSCP_L1_DATA_SIZE *)
Definition NICK_SEGMENT_MASTER : N := 0.          (* vscp_types.h: VSCP_NICKNAME_SEGMENT_MASTER *)
Definition NICK_NOT_INIT : N := 255.              (* vscp_types.h: VSCP_NICKNAME_NOT_INIT *)
Definition SEGMENT_CRC_NOT_INIT : N := 255.       (* vscp_types.h: VSCP_SEGMENT_CRC_NOT_INIT *)
Definition NODE_CONTROL_FLAGS_DEFAULT : N := 160. (* vscp_types.h: 0xA0 *)
Definition BOOT_FLAG_BOOTLOADER : N := 187.       (* vscp_types.h: 0xBB *)
Definition GUID_SIZE : N := 16.                   (* vscp_types.h: VSCP_GUID_SIZE *)
Definition TIMER_ID_INVALID : N := 255.           (* vscp_timer.h: VSCP_TIMER_ID_INVALID *)
Definition ZONE_BROADCAST : N := 255.             (* vscp_types.h: VSCP_ZONE_BROADCAST *)
Definition SUBZONE_BROADCAST : N := 255.          (* vscp_types.h: VSCP_SUBZONE_BROADCAST *)

(* priorities, vscp_types.h: VSCP_PRIORITY *)
Definition PRIO_0_HIGH : N := 0.
Definition PRIO_3_NORMAL : N := 3.
Definition PRIO_7_LOW : N := 7.

(* classes, src/vscp_class_l1.h *)
Definition CLASS_PROTOCOL : N := 0.
Definition CLASS_ALARM : N := 1.
Definition CLASS_SECURITY : N := 2.
Definition CLASS_MEASUREMENT : N := 10.
Definition CLASS_DATA : N := 15.
Definition CLASS_INFORMATION : N := 20.
Definition CLASS_CONTROL : N := 30.
Definition CLASS_MULTIMEDIA : N := 40.
Definition CLASS_AOL : N := 50.
Definition CLASS_MEASUREMENT64 : N := 60.
Definition CLASS_MEASUREZONE : N := 65.
Definition CLASS_MEASUREMENT32 : N := 70.
Definition CLASS_SETVALUEZONE : N := 85.
Definition CLASS_WEATHER : N := 90.
Definition CLASS_WEATHER_FORECAST : N := 95.
Definition CLASS_PHONE : N := 100.
Definition CLASS_DISPLAY : N := 102.
Definition CLASS_IR : N := 110.
Definition CLASS_GNSS : N := 206.
Definition CLASS_WIRELESS : N := 212.
Definition CLASS_DIAGNOSTIC : N := 506.
Definition CLASS_ERROR : N := 508.
Definition CLASS_LOG : N := 509.
Definition CLASS_LABORATORY : N := 510.
Definition CLASS_LOCAL : N := 511.

(* protocol types, src/vscp_type_protocol.h *)
Definition PT_SEGCTRL_HEARTBEAT : N := 1.
Definition PT_NEW_NODE_ONLINE : N := 2.
Definition PT_PROBE_ACK : N := 3.
Definition PT_SET_NICKNAME : N := 6.
Definition PT_NICKNAME_ACCEPTED : N := 7.
Definition PT_DROP_NICKNAME : N := 8.
Definition PT_READ_REGISTER : N := 9.
Definition PT_RW_RESPONSE : N := 10.
Definition PT_WRITE_REGISTER : N := 11.
Definition PT_ENTER_BOOT_LOADER : N := 12.
Definition PT_NACK_BOOT_LOADER : N := 14.
Definition PT_RESET_DEVICE : N := 23.
Definition PT_PAGE_READ : N := 24.
Definition PT_PAGE_WRITE : N := 25.
Definition PT_RW_PAGE_RESPONSE : N := 26.
Definition PT_INCREMENT_REGISTER : N := 29.
Definition PT_DECREMENT_REGISTER : N := 30.
Definition PT_WHO_IS_THERE : N := 31.
Definition PT_WHO_IS_THERE_RESPONSE : N := 32.
Definition PT_GET_MATRIX_INFO : N := 33.
Definition PT_GET_MATRIX_INFO_RESPONSE : N := 34.
Definition PT_EXTENDED_PAGE_READ : N := 37.
Definition PT_EXTENDED_PAGE_WRITE : N := 38.
Definition PT_EXTENDED_PAGE_RESPONSE : N := 39.

(* src/vscp_type_information.h, src/vscp_type_log.h *)
Definition IT_NODE_HEARTBEAT : N := 9.
Definition IT_STREAM_DATA : N := 36.
Definition IT_STREAM_DATA_WITH_ZONE : N := 38.
Definition IT_CONFIRM : N := 39.
Definition LT_MESSAGE : N := 1.
Definition LT_START : N := 2.
Definition LT_STOP : N := 3.
Definition LT_LEVEL : N := 4.
(* src/vscp_type_control.h, _phone.h, _display.h, _remote.h *)
Definition CT_DEACTIVATE : N := 16.
Definition CT_DIM_LAMPS : N := 20.
Definition CT_STREAM_DATA : N := 25.
Definition PH_ANSWER : N := 4.
Definition DT_SET_DISPLAY_BUFFER_PARAM : N := 6.
Definition RT_VSCP_ABSTRACT : N := 48.
Definition RT_MAPITO : N := 49.

(* ------------------------------------------------------------------ *)
(* src/vscp_types.h:304-315  vscp_Message (rx and tx).                  *)
(* m_data has 8 entries; entries at positions >= m_size are the stale   *)
(* bytes the C struct would contain there.                              *)
(* ------------------------------------------------------------------ *)
Record Msg := mkMsg {
  m_prio : N;
  m_class : N;
  m_type : N;
  m_oaddr : N;
  m_hard : bool;
  m_size : N;
  m_data : list N
}.

(* the bytes that are actually on the wire *)
Definition payload (m : Msg) : list N := firstn (N.to_nat (m_size m)) (m_data m).

(* a message as an adapter conforming to templates/vscp_tp_adapter.h delivers it *)
Definition msg_wf (m : Msg) : Prop :=
  m_prio m < 8 /\ m_class m < 65536 /\ m_type m < 256 /\ m_oaddr m < 256 /\
  m_size m <= 8 /\ length (m_data m) = 8%nat /\ bytes (m_data m).

(* pad a payload with unobservable filler to the 8 bytes of the C struct *)
Definition pad8 (l : list N) : list N := l ++ repeat 0 (8 - length l).

(* Lamp states, vscp_types.h: VSCP_LAMP_STATE *)
Inductive Lamp := LampOff | LampOn | LampBlinkSlow | LampBlinkFast.

(* API calls an application may issue between process calls or from inside its
   event / action callouts (src/vscp_core.h, src/vscp_logger.h, src/vscp_ps.h). *)
Inductive ApiCall :=
| ASend (m : Msg)          (* vscp_core_sendEvent *)
| AAlarm (v : N)           (* vscp_core_setAlarm *)
| ASetTime (t : N)         (* vscp_core_setTimeSinceEpoch *)
| AHeartbeat (b : bool)    (* vscp_core_enableHeartbeat *)
| AStartInit               (* vscp_core_startNodeSegmentInit *)
| ARestore                 (* vscp_core_restoreFactoryDefaultSettings *)
| ALogEnable (b : bool)    (* vscp_logger_enable *)
| ALogLevel (l : N)        (* vscp_logger_setLogLevel *)
| ALog (id lvl : N) (data : list N)  (* vscp_logger_log *)
| AWriteLogId (v : N)      (* vscp_ps_writeLogId *)
| AWriteZone (v : N)       (* vscp_ps_writeNodeZone *)
| AWriteSubZone (v : N)    (* vscp_ps_writeNodeSubZone *)
| AGetTxErrors.            (* vscp_transport_getTransmitErrors *)

(* Observable effects, in the order in which the code produces them. *)
Inductive Obs :=
| OProcess                     (* vscp_core_process is entered *)
| ORx (m : Msg)                (* a message is taken from the transport layer *)
| OTick (p : N)                (* vscp_timer_process(p) *)
| OApi (c : ApiCall)           (* an API call begins *)
| OTx (m : Msg) (ok : bool)    (* vscp_tp_adapter_writeMessage(m) returned ok *)
| OTxDrop (m : Msg)            (* vscp_transport_writeMessage refused m: more than 8 data bytes *)
| OPs (a v : N)                (* vscp_ps_access_write8(a, v) *)
| OLamp (l : Lamp)             (* vscp_portable_setLampState *)
| OIdle                        (* vscp_portable_idleStateEntered *)
| OError                       (* vscp_portable_errorStateEntered *)
| OResetRequest                (* vscp_portable_resetRequest *)
| OBootRequest                 (* vscp_portable_bootLoaderRequest *)
| OEvent (m : Msg)             (* vscp_portable_provideEvent *)
| OProtEvent (m : Msg)         (* vscp_portable_provideProtocolEvent *)
| OAction (a p : N) (m : Msg)  (* vscp_action_execute *)
| OTime (t : N)                (* vscp_portable_updateTimeSinceEpoch *)
| OAppRead (p a : N)           (* vscp_app_reg_readRegister *)
| OAppWrite (p a v : N)        (* vscp_app_reg_writeRegister *)
| OAppRestore                  (* vscp_app_reg_ / vscp_portable_restoreFactoryDefaultSettings *)
| OHeartbeatCustom             (* vscp_portable_sendNodeHeartbeatEvent *)
| OTxErrors (n : N)            (* value returned by vscp_transport_getTransmitErrors *)
| OPower                       (* power loss: all RAM contents are gone *)
| OInit                        (* vscp_core_init is entered *)
| ORet (b : bool).             (* value returned by vscp_core_process *)
