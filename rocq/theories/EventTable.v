(* EventTable.v - generated by tools/events.py from src/events/*.c: every function of these files, statement by
   statement. The values of the class, type and priority constants are those of src/vscp_class_l1.h,
   src/vscp_type_*.h and src/vscp_types.h. Whether a buffer is optional is taken from the function's documentation. *)
From Coq Require Import String.
From Verif Require Export Events.
Local Open Scope string_scope.
Local Open Scope N_scope.

(* src/events/vscp_evt_alarm.c:79-88 vscp_evt_alarm_sendGeneralEvent *)
Definition evt_alarm_sendGeneralEvent : Sender := mkSender "vscp_evt_alarm_sendGeneralEvent" 1 0 3 []
  [Do (SizeIs 0)].
(* src/events/vscp_evt_alarm.c:99-118 vscp_evt_alarm_sendWarning *)
Definition evt_alarm_sendWarning : Sender := mkSender "vscp_evt_alarm_sendWarning" 1 1 3 [("onOff", PInt 1); ("zone", PInt 1); ("subZone", PInt 1)]
  [Do (Set_ 0 (Par 0)); Do (Add 1); Do (Set_ 1 (Par 1)); Do (Add 1); Do (Set_ 2 (Par 2)); Do (Add 1); Do (SizeVar)].
(* src/events/vscp_evt_alarm.c:130-149 vscp_evt_alarm_sendAlarmOccurred *)
Definition evt_alarm_sendAlarmOccurred : Sender := mkSender "vscp_evt_alarm_sendAlarmOccurred" 1 2 3 [("alarmRegister", PInt 1); ("zone", PInt 1); ("subZone", PInt 1)]
  [Do (Set_ 0 (Par 0)); Do (Add 1); Do (Set_ 1 (Par 1)); Do (Add 1); Do (Set_ 2 (Par 2)); Do (Add 1); Do (SizeVar)].
(* src/events/vscp_evt_alarm.c:160-179 vscp_evt_alarm_sendAlarmSoundOnOff *)
Definition evt_alarm_sendAlarmSoundOnOff : Sender := mkSender "vscp_evt_alarm_sendAlarmSoundOnOff" 1 3 3 [("onOff", PInt 1); ("zone", PInt 1); ("subZone", PInt 1)]
  [Do (Set_ 0 (Par 0)); Do (Add 1); Do (Set_ 1 (Par 1)); Do (Add 1); Do (Set_ 2 (Par 2)); Do (Add 1); Do (SizeVar)].
(* src/events/vscp_evt_alarm.c:190-209 vscp_evt_alarm_sendAlarmLightOnOff *)
Definition evt_alarm_sendAlarmLightOnOff : Sender := mkSender "vscp_evt_alarm_sendAlarmLightOnOff" 1 4 3 [("onOff", PInt 1); ("zone", PInt 1); ("subZone", PInt 1)]
  [Do (Set_ 0 (Par 0)); Do (Add 1); Do (Set_ 1 (Par 1)); Do (Add 1); Do (Set_ 2 (Par 2)); Do (Add 1); Do (SizeVar)].
(* src/events/vscp_evt_alarm.c:220-239 vscp_evt_alarm_sendPowerOnOff *)
Definition evt_alarm_sendPowerOnOff : Sender := mkSender "vscp_evt_alarm_sendPowerOnOff" 1 5 3 [("onOff", PInt 1); ("zone", PInt 1); ("subZone", PInt 1)]
  [Do (Set_ 0 (Par 0)); Do (Add 1); Do (Set_ 1 (Par 1)); Do (Add 1); Do (Set_ 2 (Par 2)); Do (Add 1); Do (SizeVar)].
(* src/events/vscp_evt_alarm.c:250-269 vscp_evt_alarm_sendEmergencyStop *)
Definition evt_alarm_sendEmergencyStop : Sender := mkSender "vscp_evt_alarm_sendEmergencyStop" 1 6 3 [("onOff", PInt 1); ("zone", PInt 1); ("subZone", PInt 1)]
  [Do (Set_ 0 (Par 0)); Do (Add 1); Do (Set_ 1 (Par 1)); Do (Add 1); Do (Set_ 2 (Par 2)); Do (Add 1); Do (SizeVar)].
(* src/events/vscp_evt_alarm.c:280-299 vscp_evt_alarm_sendEmergencyPause *)
Definition evt_alarm_sendEmergencyPause : Sender := mkSender "vscp_evt_alarm_sendEmergencyPause" 1 7 3 [("onOff", PInt 1); ("zone", PInt 1); ("subZone", PInt 1)]
  [Do (Set_ 0 (Par 0)); Do (Add 1); Do (Set_ 1 (Par 1)); Do (Add 1); Do (Set_ 2 (Par 2)); Do (Add 1); Do (SizeVar)].
(* src/events/vscp_evt_alarm.c:310-329 vscp_evt_alarm_sendEmergencyReset *)
Definition evt_alarm_sendEmergencyReset : Sender := mkSender "vscp_evt_alarm_sendEmergencyReset" 1 8 3 [("onOff", PInt 1); ("zone", PInt 1); ("subZone", PInt 1)]
  [Do (Set_ 0 (Par 0)); Do (Add 1); Do (Set_ 1 (Par 1)); Do (Add 1); Do (Set_ 2 (Par 2)); Do (Add 1); Do (SizeVar)].
(* src/events/vscp_evt_alarm.c:340-359 vscp_evt_alarm_sendEmergencyResume *)
Definition evt_alarm_sendEmergencyResume : Sender := mkSender "vscp_evt_alarm_sendEmergencyResume" 1 9 3 [("onOff", PInt 1); ("zone", PInt 1); ("subZone", PInt 1)]
  [Do (Set_ 0 (Par 0)); Do (Add 1); Do (Set_ 1 (Par 1)); Do (Add 1); Do (Set_ 2 (Par 2)); Do (Add 1); Do (SizeVar)].
(* src/events/vscp_evt_alarm.c:370-389 vscp_evt_alarm_sendArm *)
Definition evt_alarm_sendArm : Sender := mkSender "vscp_evt_alarm_sendArm" 1 10 3 [("onOff", PInt 1); ("zone", PInt 1); ("subZone", PInt 1)]
  [Do (Set_ 0 (Par 0)); Do (Add 1); Do (Set_ 1 (Par 1)); Do (Add 1); Do (Set_ 2 (Par 2)); Do (Add 1); Do (SizeVar)].
(* src/events/vscp_evt_alarm.c:400-419 vscp_evt_alarm_sendDisarm *)
Definition evt_alarm_sendDisarm : Sender := mkSender "vscp_evt_alarm_sendDisarm" 1 11 3 [("onOff", PInt 1); ("zone", PInt 1); ("subZone", PInt 1)]
  [Do (Set_ 0 (Par 0)); Do (Add 1); Do (Set_ 1 (Par 1)); Do (Add 1); Do (Set_ 2 (Par 2)); Do (Add 1); Do (SizeVar)].
(* src/events/vscp_evt_alarm.c:430-449 vscp_evt_alarm_sendWatchdog *)
Definition evt_alarm_sendWatchdog : Sender := mkSender "vscp_evt_alarm_sendWatchdog" 1 12 3 [("index", PInt 1); ("zone", PInt 1); ("subZone", PInt 1)]
  [Do (Set_ 0 (Par 0)); Do (Add 1); Do (Set_ 1 (Par 1)); Do (Add 1); Do (Set_ 2 (Par 2)); Do (Add 1); Do (SizeVar)].
(* src/events/vscp_evt_alarm.c:461-480 vscp_evt_alarm_sendAlarmReset *)
Definition evt_alarm_sendAlarmReset : Sender := mkSender "vscp_evt_alarm_sendAlarmReset" 1 13 3 [("alarmRegister", PInt 1); ("zone", PInt 1); ("subZone", PInt 1)]
  [Do (Set_ 0 (Par 0)); Do (Add 1); Do (Set_ 1 (Par 1)); Do (Add 1); Do (Set_ 2 (Par 2)); Do (Add 1); Do (SizeVar)].
(* src/events/vscp_evt_aol.c:79-88 vscp_evt_aol_sendGeneralEvent *)
Definition evt_aol_sendGeneralEvent : Sender := mkSender "vscp_evt_aol_sendGeneralEvent" 50 0 3 []
  [Do (SizeIs 0)].
(* src/events/vscp_evt_aol.c:99-118 vscp_evt_aol_sendSystemUnpluggedFromPowerSource *)
Definition evt_aol_sendSystemUnpluggedFromPowerSource : Sender := mkSender "vscp_evt_aol_sendSystemUnpluggedFromPowerSource" 50 1 3 [("index", PInt 1); ("zone", PInt 1); ("subZone", PInt 1)]
  [Do (Set_ 0 (Par 0)); Do (Add 1); Do (Set_ 1 (Par 1)); Do (Add 1); Do (Set_ 2 (Par 2)); Do (Add 1); Do (SizeVar)].
(* src/events/vscp_evt_aol.c:129-148 vscp_evt_aol_sendSystemUnpluggedFromNetwork *)
Definition evt_aol_sendSystemUnpluggedFromNetwork : Sender := mkSender "vscp_evt_aol_sendSystemUnpluggedFromNetwork" 50 2 3 [("index", PInt 1); ("zone", PInt 1); ("subZone", PInt 1)]
  [Do (Set_ 0 (Par 0)); Do (Add 1); Do (Set_ 1 (Par 1)); Do (Add 1); Do (Set_ 2 (Par 2)); Do (Add 1); Do (SizeVar)].
(* src/events/vscp_evt_aol.c:159-178 vscp_evt_aol_sendChassisIntrusion *)
Definition evt_aol_sendChassisIntrusion : Sender := mkSender "vscp_evt_aol_sendChassisIntrusion" 50 3 3 [("index", PInt 1); ("zone", PInt 1); ("subZone", PInt 1)]
  [Do (Set_ 0 (Par 0)); Do (Add 1); Do (Set_ 1 (Par 1)); Do (Add 1); Do (Set_ 2 (Par 2)); Do (Add 1); Do (SizeVar)].
(* src/events/vscp_evt_aol.c:189-208 vscp_evt_aol_sendProcessorRemoval *)
Definition evt_aol_sendProcessorRemoval : Sender := mkSender "vscp_evt_aol_sendProcessorRemoval" 50 4 3 [("index", PInt 1); ("zone", PInt 1); ("subZone", PInt 1)]
  [Do (Set_ 0 (Par 0)); Do (Add 1); Do (Set_ 1 (Par 1)); Do (Add 1); Do (Set_ 2 (Par 2)); Do (Add 1); Do (SizeVar)].
(* src/events/vscp_evt_aol.c:219-238 vscp_evt_aol_sendSystemEnvironmentalErrors *)
Definition evt_aol_sendSystemEnvironmentalErrors : Sender := mkSender "vscp_evt_aol_sendSystemEnvironmentalErrors" 50 5 3 [("index", PInt 1); ("zone", PInt 1); ("subZone", PInt 1)]
  [Do (Set_ 0 (Par 0)); Do (Add 1); Do (Set_ 1 (Par 1)); Do (Add 1); Do (Set_ 2 (Par 2)); Do (Add 1); Do (SizeVar)].
(* src/events/vscp_evt_aol.c:249-268 vscp_evt_aol_sendHighTemperature *)
Definition evt_aol_sendHighTemperature : Sender := mkSender "vscp_evt_aol_sendHighTemperature" 50 6 3 [("index", PInt 1); ("zone", PInt 1); ("subZone", PInt 1)]
  [Do (Set_ 0 (Par 0)); Do (Add 1); Do (Set_ 1 (Par 1)); Do (Add 1); Do (Set_ 2 (Par 2)); Do (Add 1); Do (SizeVar)].
(* src/events/vscp_evt_aol.c:279-298 vscp_evt_aol_sendFanSpeedProblem *)
Definition evt_aol_sendFanSpeedProblem : Sender := mkSender "vscp_evt_aol_sendFanSpeedProblem" 50 7 3 [("index", PInt 1); ("zone", PInt 1); ("subZone", PInt 1)]
  [Do (Set_ 0 (Par 0)); Do (Add 1); Do (Set_ 1 (Par 1)); Do (Add 1); Do (Set_ 2 (Par 2)); Do (Add 1); Do (SizeVar)].
(* src/events/vscp_evt_aol.c:309-328 vscp_evt_aol_sendVoltageFluctuations *)
Definition evt_aol_sendVoltageFluctuations : Sender := mkSender "vscp_evt_aol_sendVoltageFluctuations" 50 8 3 [("index", PInt 1); ("zone", PInt 1); ("subZone", PInt 1)]
  [Do (Set_ 0 (Par 0)); Do (Add 1); Do (Set_ 1 (Par 1)); Do (Add 1); Do (Set_ 2 (Par 2)); Do (Add 1); Do (SizeVar)].
(* src/events/vscp_evt_aol.c:339-358 vscp_evt_aol_sendOperatingSystemErrors *)
Definition evt_aol_sendOperatingSystemErrors : Sender := mkSender "vscp_evt_aol_sendOperatingSystemErrors" 50 9 3 [("index", PInt 1); ("zone", PInt 1); ("subZone", PInt 1)]
  [Do (Set_ 0 (Par 0)); Do (Add 1); Do (Set_ 1 (Par 1)); Do (Add 1); Do (Set_ 2 (Par 2)); Do (Add 1); Do (SizeVar)].
(* src/events/vscp_evt_aol.c:369-388 vscp_evt_aol_sendSystemPowerOnError *)
Definition evt_aol_sendSystemPowerOnError : Sender := mkSender "vscp_evt_aol_sendSystemPowerOnError" 50 10 3 [("index", PInt 1); ("zone", PInt 1); ("subZone", PInt 1)]
  [Do (Set_ 0 (Par 0)); Do (Add 1); Do (Set_ 1 (Par 1)); Do (Add 1); Do (Set_ 2 (Par 2)); Do (Add 1); Do (SizeVar)].
(* src/events/vscp_evt_aol.c:399-418 vscp_evt_aol_sendSystemIsHung *)
Definition evt_aol_sendSystemIsHung : Sender := mkSender "vscp_evt_aol_sendSystemIsHung" 50 11 3 [("index", PInt 1); ("zone", PInt 1); ("subZone", PInt 1)]
  [Do (Set_ 0 (Par 0)); Do (Add 1); Do (Set_ 1 (Par 1)); Do (Add 1); Do (Set_ 2 (Par 2)); Do (Add 1); Do (SizeVar)].
(* src/events/vscp_evt_aol.c:429-448 vscp_evt_aol_sendComponentFailure *)
Definition evt_aol_sendComponentFailure : Sender := mkSender "vscp_evt_aol_sendComponentFailure" 50 12 3 [("index", PInt 1); ("zone", PInt 1); ("subZone", PInt 1)]
  [Do (Set_ 0 (Par 0)); Do (Add 1); Do (Set_ 1 (Par 1)); Do (Add 1); Do (Set_ 2 (Par 2)); Do (Add 1); Do (SizeVar)].
(* src/events/vscp_evt_aol.c:459-478 vscp_evt_aol_sendRemoteSystemRebootUponReportOfACriticalFailure *)
Definition evt_aol_sendRemoteSystemRebootUponReportOfACriticalFailure : Sender := mkSender "vscp_evt_aol_sendRemoteSystemRebootUponReportOfACriticalFailure" 50 13 3 [("index", PInt 1); ("zone", PInt 1); ("subZone", PInt 1)]
  [Do (Set_ 0 (Par 0)); Do (Add 1); Do (Set_ 1 (Par 1)); Do (Add 1); Do (Set_ 2 (Par 2)); Do (Add 1); Do (SizeVar)].
(* src/events/vscp_evt_aol.c:489-508 vscp_evt_aol_sendRepairOperatingSystem *)
Definition evt_aol_sendRepairOperatingSystem : Sender := mkSender "vscp_evt_aol_sendRepairOperatingSystem" 50 14 3 [("index", PInt 1); ("zone", PInt 1); ("subZone", PInt 1)]
  [Do (Set_ 0 (Par 0)); Do (Add 1); Do (Set_ 1 (Par 1)); Do (Add 1); Do (Set_ 2 (Par 2)); Do (Add 1); Do (SizeVar)].
(* src/events/vscp_evt_aol.c:519-538 vscp_evt_aol_sendUpdateBiosImage *)
Definition evt_aol_sendUpdateBiosImage : Sender := mkSender "vscp_evt_aol_sendUpdateBiosImage" 50 15 3 [("index", PInt 1); ("zone", PInt 1); ("subZone", PInt 1)]
  [Do (Set_ 0 (Par 0)); Do (Add 1); Do (Set_ 1 (Par 1)); Do (Add 1); Do (Set_ 2 (Par 2)); Do (Add 1); Do (SizeVar)].
(* src/events/vscp_evt_aol.c:549-568 vscp_evt_aol_sendUpdatePerformOtherDiagnosticProcedures *)
Definition evt_aol_sendUpdatePerformOtherDiagnosticProcedures : Sender := mkSender "vscp_evt_aol_sendUpdatePerformOtherDiagnosticProcedures" 50 16 3 [("index", PInt 1); ("zone", PInt 1); ("subZone", PInt 1)]
  [Do (Set_ 0 (Par 0)); Do (Add 1); Do (Set_ 1 (Par 1)); Do (Add 1); Do (Set_ 2 (Par 2)); Do (Add 1); Do (SizeVar)].
(* src/events/vscp_evt_configuration.c:79-88 vscp_evt_configuration_sendGeneralEvent *)
Definition evt_configuration_sendGeneralEvent : Sender := mkSender "vscp_evt_configuration_sendGeneralEvent" 120 0 3 []
  [Do (SizeIs 0)].
(* src/events/vscp_evt_configuration.c:101-130 vscp_evt_configuration_sendLoadConfiguration *)
Definition evt_configuration_sendLoadConfiguration : Sender := mkSender "vscp_evt_configuration_sendLoadConfiguration" 120 1 3 [("index", PInt 1); ("zone", PInt 1); ("subzone", PInt 1); ("configurationid", PInt 2); ("control", PRef 1)]
  [Do (Set_ 0 (Par 0)); Do (Add 1); Do (Set_ 1 (Par 1)); Do (Add 1); Do (Set_ 2 (Par 2)); Do (Add 1); Do (Set_ 3 (Shift 3 8)); Do (Set_ 4 (Shift 3 0)); Do (Add 2); IfPtr 4 [Set_ 5 (Par 4); Add 1]; Do (SizeVar)].
(* src/events/vscp_evt_configuration.c:139-153 vscp_evt_configuration_sendLoadConfigurationAcknowledge *)
Definition evt_configuration_sendLoadConfigurationAcknowledge : Sender := mkSender "vscp_evt_configuration_sendLoadConfigurationAcknowledge" 120 2 3 [("configurationid", PInt 2)]
  [Do (Set_ 0 (Shift 0 8)); Do (Set_ 1 (Shift 0 0)); Do (Add 2); Do (SizeVar)].
(* src/events/vscp_evt_configuration.c:162-176 vscp_evt_configuration_sendLoadConfigurationNegativeAcknowledge *)
Definition evt_configuration_sendLoadConfigurationNegativeAcknowledge : Sender := mkSender "vscp_evt_configuration_sendLoadConfigurationNegativeAcknowledge" 120 3 3 [("configurationid", PInt 2)]
  [Do (Set_ 0 (Shift 0 8)); Do (Set_ 1 (Shift 0 0)); Do (Add 2); Do (SizeVar)].
(* src/events/vscp_evt_configuration.c:189-218 vscp_evt_configuration_sendSaveConfiguration *)
Definition evt_configuration_sendSaveConfiguration : Sender := mkSender "vscp_evt_configuration_sendSaveConfiguration" 120 4 3 [("index", PInt 1); ("zone", PInt 1); ("subzone", PInt 1); ("configurationid", PInt 2); ("control", PRef 1)]
  [Do (Set_ 0 (Par 0)); Do (Add 1); Do (Set_ 1 (Par 1)); Do (Add 1); Do (Set_ 2 (Par 2)); Do (Add 1); Do (Set_ 3 (Shift 3 8)); Do (Set_ 4 (Shift 3 0)); Do (Add 2); IfPtr 4 [Set_ 5 (Par 4); Add 1]; Do (SizeVar)].
(* src/events/vscp_evt_configuration.c:227-241 vscp_evt_configuration_sendSaveConfigurationAcknowledge *)
Definition evt_configuration_sendSaveConfigurationAcknowledge : Sender := mkSender "vscp_evt_configuration_sendSaveConfigurationAcknowledge" 120 5 3 [("configurationid", PInt 2)]
  [Do (Set_ 0 (Shift 0 8)); Do (Set_ 1 (Shift 0 0)); Do (Add 2); Do (SizeVar)].
(* src/events/vscp_evt_configuration.c:250-264 vscp_evt_configuration_sendSaveConfigurationNegativeAcknowledge *)
Definition evt_configuration_sendSaveConfigurationNegativeAcknowledge : Sender := mkSender "vscp_evt_configuration_sendSaveConfigurationNegativeAcknowledge" 120 6 3 [("configurationid", PInt 2)]
  [Do (Set_ 0 (Shift 0 8)); Do (Set_ 1 (Shift 0 0)); Do (Add 2); Do (SizeVar)].
(* src/events/vscp_evt_configuration.c:277-306 vscp_evt_configuration_sendCommitConfiguration *)
Definition evt_configuration_sendCommitConfiguration : Sender := mkSender "vscp_evt_configuration_sendCommitConfiguration" 120 7 3 [("index", PInt 1); ("zone", PInt 1); ("subzone", PInt 1); ("configurationid", PInt 2); ("control", PRef 1)]
  [Do (Set_ 0 (Par 0)); Do (Add 1); Do (Set_ 1 (Par 1)); Do (Add 1); Do (Set_ 2 (Par 2)); Do (Add 1); Do (Set_ 3 (Shift 3 8)); Do (Set_ 4 (Shift 3 0)); Do (Add 2); IfPtr 4 [Set_ 5 (Par 4); Add 1]; Do (SizeVar)].
(* src/events/vscp_evt_configuration.c:315-329 vscp_evt_configuration_sendCommitConfigurationAcknowledge *)
Definition evt_configuration_sendCommitConfigurationAcknowledge : Sender := mkSender "vscp_evt_configuration_sendCommitConfigurationAcknowledge" 120 8 3 [("configurationid", PInt 2)]
  [Do (Set_ 0 (Shift 0 8)); Do (Set_ 1 (Shift 0 0)); Do (Add 2); Do (SizeVar)].
(* src/events/vscp_evt_configuration.c:338-352 vscp_evt_configuration_sendCommitConfigurationNegativeAcknowledge *)
Definition evt_configuration_sendCommitConfigurationNegativeAcknowledge : Sender := mkSender "vscp_evt_configuration_sendCommitConfigurationNegativeAcknowledge" 120 9 3 [("configurationid", PInt 2)]
  [Do (Set_ 0 (Shift 0 8)); Do (Set_ 1 (Shift 0 0)); Do (Add 2); Do (SizeVar)].
(* src/events/vscp_evt_configuration.c:365-394 vscp_evt_configuration_sendReloadConfiguration *)
Definition evt_configuration_sendReloadConfiguration : Sender := mkSender "vscp_evt_configuration_sendReloadConfiguration" 120 10 3 [("index", PInt 1); ("zone", PInt 1); ("subzone", PInt 1); ("configurationid", PInt 2); ("control", PRef 1)]
  [Do (Set_ 0 (Par 0)); Do (Add 1); Do (Set_ 1 (Par 1)); Do (Add 1); Do (Set_ 2 (Par 2)); Do (Add 1); Do (Set_ 3 (Shift 3 8)); Do (Set_ 4 (Shift 3 0)); Do (Add 2); IfPtr 4 [Set_ 5 (Par 4); Add 1]; Do (SizeVar)].
(* src/events/vscp_evt_configuration.c:403-417 vscp_evt_configuration_sendReloadConfigurationAcknowledge *)
Definition evt_configuration_sendReloadConfigurationAcknowledge : Sender := mkSender "vscp_evt_configuration_sendReloadConfigurationAcknowledge" 120 11 3 [("configurationid", PInt 2)]
  [Do (Set_ 0 (Shift 0 8)); Do (Set_ 1 (Shift 0 0)); Do (Add 2); Do (SizeVar)].
(* src/events/vscp_evt_configuration.c:426-440 vscp_evt_configuration_sendReloadConfigurationNegativeAcknowledge *)
Definition evt_configuration_sendReloadConfigurationNegativeAcknowledge : Sender := mkSender "vscp_evt_configuration_sendReloadConfigurationNegativeAcknowledge" 120 12 3 [("configurationid", PInt 2)]
  [Do (Set_ 0 (Shift 0 8)); Do (Set_ 1 (Shift 0 0)); Do (Add 2); Do (SizeVar)].
(* src/events/vscp_evt_configuration.c:453-482 vscp_evt_configuration_sendRestoreConfiguration *)
Definition evt_configuration_sendRestoreConfiguration : Sender := mkSender "vscp_evt_configuration_sendRestoreConfiguration" 120 13 3 [("index", PInt 1); ("zone", PInt 1); ("subzone", PInt 1); ("configurationid", PInt 2); ("control", PRef 1)]
  [Do (Set_ 0 (Par 0)); Do (Add 1); Do (Set_ 1 (Par 1)); Do (Add 1); Do (Set_ 2 (Par 2)); Do (Add 1); Do (Set_ 3 (Shift 3 8)); Do (Set_ 4 (Shift 3 0)); Do (Add 2); IfPtr 4 [Set_ 5 (Par 4); Add 1]; Do (SizeVar)].
(* src/events/vscp_evt_configuration.c:491-505 vscp_evt_configuration_sendRestoreConfigurationAcknowledge *)
Definition evt_configuration_sendRestoreConfigurationAcknowledge : Sender := mkSender "vscp_evt_configuration_sendRestoreConfigurationAcknowledge" 120 14 3 [("configurationid", PInt 2)]
  [Do (Set_ 0 (Shift 0 8)); Do (Set_ 1 (Shift 0 0)); Do (Add 2); Do (SizeVar)].
(* src/events/vscp_evt_configuration.c:514-528 vscp_evt_configuration_sendRestoreConfigurationNegativeAcknowledge *)
Definition evt_configuration_sendRestoreConfigurationNegativeAcknowledge : Sender := mkSender "vscp_evt_configuration_sendRestoreConfigurationNegativeAcknowledge" 120 15 3 [("configurationid", PInt 2)]
  [Do (Set_ 0 (Shift 0 8)); Do (Set_ 1 (Shift 0 0)); Do (Add 2); Do (SizeVar)].
(* src/events/vscp_evt_configuration.c:541-568 vscp_evt_configuration_sendSetParameter *)
Definition evt_configuration_sendSetParameter : Sender := mkSender "vscp_evt_configuration_sendSetParameter" 120 30 3 [("index", PInt 1); ("zone", PInt 1); ("subzone", PInt 1); ("parameterid", PInt 2); ("parametervalue", PInt 2)]
  [Do (Set_ 0 (Par 0)); Do (Add 1); Do (Set_ 1 (Par 1)); Do (Add 1); Do (Set_ 2 (Par 2)); Do (Add 1); Do (Set_ 3 (Shift 3 8)); Do (Set_ 4 (Shift 3 0)); Do (Add 2); Do (Set_ 5 (Shift 4 8)); Do (Set_ 6 (Shift 4 0)); Do (Add 2); Do (SizeVar)].
(* src/events/vscp_evt_configuration.c:580-603 vscp_evt_configuration_sendSetParameterToDefault *)
Definition evt_configuration_sendSetParameterToDefault : Sender := mkSender "vscp_evt_configuration_sendSetParameterToDefault" 120 31 3 [("index", PInt 1); ("zone", PInt 1); ("subzone", PInt 1); ("parameterid", PInt 2)]
  [Do (Set_ 0 (Par 0)); Do (Add 1); Do (Set_ 1 (Par 1)); Do (Add 1); Do (Set_ 2 (Par 2)); Do (Add 1); Do (Set_ 3 (Shift 3 8)); Do (Set_ 4 (Shift 3 0)); Do (Add 2); Do (SizeVar)].
(* src/events/vscp_evt_configuration.c:613-631 vscp_evt_configuration_sendSetParameterAcknowledge *)
Definition evt_configuration_sendSetParameterAcknowledge : Sender := mkSender "vscp_evt_configuration_sendSetParameterAcknowledge" 120 32 3 [("parameterid", PInt 2); ("parametervalue", PInt 2)]
  [Do (Set_ 0 (Shift 0 8)); Do (Set_ 1 (Shift 0 0)); Do (Add 2); Do (Set_ 2 (Shift 1 8)); Do (Set_ 3 (Shift 1 0)); Do (Add 2); Do (SizeVar)].
(* src/events/vscp_evt_configuration.c:641-659 vscp_evt_configuration_sendSetParamterNegativeAcknowledge *)
Definition evt_configuration_sendSetParamterNegativeAcknowledge : Sender := mkSender "vscp_evt_configuration_sendSetParamterNegativeAcknowledge" 120 33 3 [("parameterid", PInt 2); ("parametervalue", PInt 2)]
  [Do (Set_ 0 (Shift 0 8)); Do (Set_ 1 (Shift 0 0)); Do (Add 2); Do (Set_ 2 (Shift 1 8)); Do (Set_ 3 (Shift 1 0)); Do (Add 2); Do (SizeVar)].
(* src/events/vscp_evt_control.c:79-88 vscp_evt_control_sendGeneralEvent *)
Definition evt_control_sendGeneralEvent : Sender := mkSender "vscp_evt_control_sendGeneralEvent" 30 0 3 []
  [Do (SizeIs 0)].
(* src/events/vscp_evt_control.c:99-118 vscp_evt_control_sendMuteOnOff *)
Definition evt_control_sendMuteOnOff : Sender := mkSender "vscp_evt_control_sendMuteOnOff" 30 1 3 [("command", PInt 1); ("zone", PInt 1); ("subZone", PInt 1)]
  [Do (Set_ 0 (Par 0)); Do (Add 1); Do (Set_ 1 (Par 1)); Do (Add 1); Do (Set_ 2 (Par 2)); Do (Add 1); Do (SizeVar)].
(* src/events/vscp_evt_control.c:129-148 vscp_evt_control_sendAllLampSOnOff *)
Definition evt_control_sendAllLampSOnOff : Sender := mkSender "vscp_evt_control_sendAllLampSOnOff" 30 2 3 [("state", PInt 1); ("zone", PInt 1); ("subZone", PInt 1)]
  [Do (Set_ 0 (Par 0)); Do (Add 1); Do (Set_ 1 (Par 1)); Do (Add 1); Do (Set_ 2 (Par 2)); Do (Add 1); Do (SizeVar)].
(* src/events/vscp_evt_control.c:159-178 vscp_evt_control_sendOpen *)
Definition evt_control_sendOpen : Sender := mkSender "vscp_evt_control_sendOpen" 30 3 3 [("userSpecific", PInt 1); ("zone", PInt 1); ("subZone", PInt 1)]
  [Do (Set_ 0 (Par 0)); Do (Add 1); Do (Set_ 1 (Par 1)); Do (Add 1); Do (Set_ 2 (Par 2)); Do (Add 1); Do (SizeVar)].
(* src/events/vscp_evt_control.c:189-208 vscp_evt_control_sendClose *)
Definition evt_control_sendClose : Sender := mkSender "vscp_evt_control_sendClose" 30 4 3 [("userSpecific", PInt 1); ("zone", PInt 1); ("subZone", PInt 1)]
  [Do (Set_ 0 (Par 0)); Do (Add 1); Do (Set_ 1 (Par 1)); Do (Add 1); Do (Set_ 2 (Par 2)); Do (Add 1); Do (SizeVar)].
(* src/events/vscp_evt_control.c:219-238 vscp_evt_control_sendTurnon *)
Definition evt_control_sendTurnon : Sender := mkSender "vscp_evt_control_sendTurnon" 30 5 3 [("userSpecific", PInt 1); ("zone", PInt 1); ("subZone", PInt 1)]
  [Do (Set_ 0 (Par 0)); Do (Add 1); Do (Set_ 1 (Par 1)); Do (Add 1); Do (Set_ 2 (Par 2)); Do (Add 1); Do (SizeVar)].
(* src/events/vscp_evt_control.c:249-268 vscp_evt_control_sendTurnoff *)
Definition evt_control_sendTurnoff : Sender := mkSender "vscp_evt_control_sendTurnoff" 30 6 3 [("userSpecific", PInt 1); ("zone", PInt 1); ("subZone", PInt 1)]
  [Do (Set_ 0 (Par 0)); Do (Add 1); Do (Set_ 1 (Par 1)); Do (Add 1); Do (Set_ 2 (Par 2)); Do (Add 1); Do (SizeVar)].
(* src/events/vscp_evt_control.c:279-298 vscp_evt_control_sendStart *)
Definition evt_control_sendStart : Sender := mkSender "vscp_evt_control_sendStart" 30 7 3 [("userSpecific", PInt 1); ("zone", PInt 1); ("subZone", PInt 1)]
  [Do (Set_ 0 (Par 0)); Do (Add 1); Do (Set_ 1 (Par 1)); Do (Add 1); Do (Set_ 2 (Par 2)); Do (Add 1); Do (SizeVar)].
(* src/events/vscp_evt_control.c:309-328 vscp_evt_control_sendStop *)
Definition evt_control_sendStop : Sender := mkSender "vscp_evt_control_sendStop" 30 8 3 [("userSpecific", PInt 1); ("zone", PInt 1); ("subZone", PInt 1)]
  [Do (Set_ 0 (Par 0)); Do (Add 1); Do (Set_ 1 (Par 1)); Do (Add 1); Do (Set_ 2 (Par 2)); Do (Add 1); Do (SizeVar)].
(* src/events/vscp_evt_control.c:339-358 vscp_evt_control_sendReset *)
Definition evt_control_sendReset : Sender := mkSender "vscp_evt_control_sendReset" 30 9 3 [("userSpecific", PInt 1); ("zone", PInt 1); ("subZone", PInt 1)]
  [Do (Set_ 0 (Par 0)); Do (Add 1); Do (Set_ 1 (Par 1)); Do (Add 1); Do (Set_ 2 (Par 2)); Do (Add 1); Do (SizeVar)].
(* src/events/vscp_evt_control.c:369-388 vscp_evt_control_sendInterrupt *)
Definition evt_control_sendInterrupt : Sender := mkSender "vscp_evt_control_sendInterrupt" 30 10 3 [("interruptLevel", PInt 1); ("zone", PInt 1); ("subZone", PInt 1)]
  [Do (Set_ 0 (Par 0)); Do (Add 1); Do (Set_ 1 (Par 1)); Do (Add 1); Do (Set_ 2 (Par 2)); Do (Add 1); Do (SizeVar)].
(* src/events/vscp_evt_control.c:399-418 vscp_evt_control_sendSleep *)
Definition evt_control_sendSleep : Sender := mkSender "vscp_evt_control_sendSleep" 30 11 3 [("userSpecific", PInt 1); ("zone", PInt 1); ("subZone", PInt 1)]
  [Do (Set_ 0 (Par 0)); Do (Add 1); Do (Set_ 1 (Par 1)); Do (Add 1); Do (Set_ 2 (Par 2)); Do (Add 1); Do (SizeVar)].
(* src/events/vscp_evt_control.c:429-448 vscp_evt_control_sendWakeup *)
Definition evt_control_sendWakeup : Sender := mkSender "vscp_evt_control_sendWakeup" 30 12 3 [("userSpecific", PInt 1); ("zone", PInt 1); ("subZone", PInt 1)]
  [Do (Set_ 0 (Par 0)); Do (Add 1); Do (Set_ 1 (Par 1)); Do (Add 1); Do (Set_ 2 (Par 2)); Do (Add 1); Do (SizeVar)].
(* src/events/vscp_evt_control.c:459-478 vscp_evt_control_sendResume *)
Definition evt_control_sendResume : Sender := mkSender "vscp_evt_control_sendResume" 30 13 3 [("userSpecific", PInt 1); ("zone", PInt 1); ("subZone", PInt 1)]
  [Do (Set_ 0 (Par 0)); Do (Add 1); Do (Set_ 1 (Par 1)); Do (Add 1); Do (Set_ 2 (Par 2)); Do (Add 1); Do (SizeVar)].
(* src/events/vscp_evt_control.c:489-508 vscp_evt_control_sendPause *)
Definition evt_control_sendPause : Sender := mkSender "vscp_evt_control_sendPause" 30 14 3 [("userSpecific", PInt 1); ("zone", PInt 1); ("subZone", PInt 1)]
  [Do (Set_ 0 (Par 0)); Do (Add 1); Do (Set_ 1 (Par 1)); Do (Add 1); Do (Set_ 2 (Par 2)); Do (Add 1); Do (SizeVar)].
(* src/events/vscp_evt_control.c:519-538 vscp_evt_control_sendActivate *)
Definition evt_control_sendActivate : Sender := mkSender "vscp_evt_control_sendActivate" 30 15 3 [("userSpecific", PInt 1); ("zone", PInt 1); ("subZone", PInt 1)]
  [Do (Set_ 0 (Par 0)); Do (Add 1); Do (Set_ 1 (Par 1)); Do (Add 1); Do (Set_ 2 (Par 2)); Do (Add 1); Do (SizeVar)].
(* src/events/vscp_evt_control.c:549-568 vscp_evt_control_sendDeactivate *)
Definition evt_control_sendDeactivate : Sender := mkSender "vscp_evt_control_sendDeactivate" 30 16 3 [("userSpecific", PInt 1); ("zone", PInt 1); ("subZone", PInt 1)]
  [Do (Set_ 0 (Par 0)); Do (Add 1); Do (Set_ 1 (Par 1)); Do (Add 1); Do (Set_ 2 (Par 2)); Do (Add 1); Do (SizeVar)].
(* src/events/vscp_evt_control.c:586-605 vscp_evt_control_sendDimLampS *)
Definition evt_control_sendDimLampS : Sender := mkSender "vscp_evt_control_sendDimLampS" 30 20 3 [("value", PInt 1); ("zone", PInt 1); ("subZone", PInt 1)]
  [Do (Set_ 0 (Par 0)); Do (Add 1); Do (Set_ 1 (Par 1)); Do (Add 1); Do (Set_ 2 (Par 2)); Do (Add 1); Do (SizeVar)].
(* src/events/vscp_evt_control.c:619-638 vscp_evt_control_sendChangeChannel *)
Definition evt_control_sendChangeChannel : Sender := mkSender "vscp_evt_control_sendChangeChannel" 30 21 3 [("channel", PInt 1); ("zone", PInt 1); ("subZone", PInt 1)]
  [Do (Set_ 0 (Par 0)); Do (Add 1); Do (Set_ 1 (Par 1)); Do (Add 1); Do (Set_ 2 (Par 2)); Do (Add 1); Do (SizeVar)].
(* src/events/vscp_evt_control.c:649-668 vscp_evt_control_sendChangeLevel *)
Definition evt_control_sendChangeLevel : Sender := mkSender "vscp_evt_control_sendChangeLevel" 30 22 3 [("level", PInt 1); ("zone", PInt 1); ("subZone", PInt 1)]
  [Do (Set_ 0 (Par 0)); Do (Add 1); Do (Set_ 1 (Par 1)); Do (Add 1); Do (Set_ 2 (Par 2)); Do (Add 1); Do (SizeVar)].
(* src/events/vscp_evt_control.c:679-698 vscp_evt_control_sendRelativeChangeLevel *)
Definition evt_control_sendRelativeChangeLevel : Sender := mkSender "vscp_evt_control_sendRelativeChangeLevel" 30 23 3 [("level", PInt 1); ("zone", PInt 1); ("subZone", PInt 1)]
  [Do (Set_ 0 (Par 0)); Do (Add 1); Do (Set_ 1 (Par 1)); Do (Add 1); Do (Set_ 2 (Par 2)); Do (Add 1); Do (SizeVar)].
(* src/events/vscp_evt_control.c:710-729 vscp_evt_control_sendMeasurementRequest *)
Definition evt_control_sendMeasurementRequest : Sender := mkSender "vscp_evt_control_sendMeasurementRequest" 30 24 3 [("index", PInt 1); ("zone", PInt 1); ("subZone", PInt 1)]
  [Do (Set_ 0 (Par 0)); Do (Add 1); Do (Set_ 1 (Par 1)); Do (Add 1); Do (Set_ 2 (Par 2)); Do (Add 1); Do (SizeVar)].
(* src/events/vscp_evt_control.c:740-768 vscp_evt_control_sendStreamData *)
Definition evt_control_sendStreamData : Sender := mkSender "vscp_evt_control_sendStreamData" 30 25 3 [("index", PInt 1); ("data", PBuf false); ("dataSize", PSize)]
  [Do (Set_ 0 (Par 0)); Do (Add 1); IfPtr 1 [Loop 1 1 2]; Do (SizeVar)].
(* src/events/vscp_evt_control.c:779-798 vscp_evt_control_sendSync *)
Definition evt_control_sendSync : Sender := mkSender "vscp_evt_control_sendSync" 30 26 3 [("index", PInt 1); ("zone", PInt 1); ("subZone", PInt 1)]
  [Do (Set_ 0 (Par 0)); Do (Add 1); Do (Set_ 1 (Par 1)); Do (Add 1); Do (Set_ 2 (Par 2)); Do (Add 1); Do (SizeVar)].
(* src/events/vscp_evt_control.c:811-845 vscp_evt_control_sendZonedStreamData *)
Definition evt_control_sendZonedStreamData : Sender := mkSender "vscp_evt_control_sendZonedStreamData" 30 27 3 [("index", PInt 1); ("zone", PInt 1); ("subZone", PInt 1); ("data", PBuf false); ("dataSize", PSize)]
  [Do (Set_ 0 (Par 0)); Do (Add 1); Do (Set_ 1 (Par 1)); Do (Add 1); Do (Set_ 2 (Par 2)); Do (Add 1); IfPtr 3 [Loop 3 3 4]; Do (SizeVar)].
(* src/events/vscp_evt_control.c:856-875 vscp_evt_control_sendSetPreSet *)
Definition evt_control_sendSetPreSet : Sender := mkSender "vscp_evt_control_sendSetPreSet" 30 28 3 [("presetCode", PInt 1); ("zone", PInt 1); ("subZone", PInt 1)]
  [Do (Set_ 0 (Par 0)); Do (Add 1); Do (Set_ 1 (Par 1)); Do (Add 1); Do (Set_ 2 (Par 2)); Do (Add 1); Do (SizeVar)].
(* src/events/vscp_evt_control.c:886-905 vscp_evt_control_sendToggleState *)
Definition evt_control_sendToggleState : Sender := mkSender "vscp_evt_control_sendToggleState" 30 29 3 [("userSpecific", PInt 1); ("zone", PInt 1); ("subZone", PInt 1)]
  [Do (Set_ 0 (Par 0)); Do (Add 1); Do (Set_ 1 (Par 1)); Do (Add 1); Do (Set_ 2 (Par 2)); Do (Add 1); Do (SizeVar)].
(* src/events/vscp_evt_control.c:918-946 vscp_evt_control_sendTimedPulseOn *)
Definition evt_control_sendTimedPulseOn : Sender := mkSender "vscp_evt_control_sendTimedPulseOn" 30 30 3 [("userSpecific", PInt 1); ("zone", PInt 1); ("subZone", PInt 1); ("control", PInt 1); ("time", PInt 4)]
  [Do (Set_ 0 (Par 0)); Do (Add 1); Do (Set_ 1 (Par 1)); Do (Add 1); Do (Set_ 2 (Par 2)); Do (Add 1); Do (Set_ 3 (Par 3)); Do (Add 1); Do (Set_ 4 (Shift 4 24)); Do (Set_ 5 (Shift 4 16)); Do (Set_ 6 (Shift 4 8)); Do (Set_ 7 (Shift 4 0)); Do (Add 4); Do (SizeVar)].
(* src/events/vscp_evt_control.c:959-987 vscp_evt_control_sendTimedPulseOff *)
Definition evt_control_sendTimedPulseOff : Sender := mkSender "vscp_evt_control_sendTimedPulseOff" 30 31 3 [("userSpecific", PInt 1); ("zone", PInt 1); ("subZone", PInt 1); ("control", PInt 1); ("time", PInt 4)]
  [Do (Set_ 0 (Par 0)); Do (Add 1); Do (Set_ 1 (Par 1)); Do (Add 1); Do (Set_ 2 (Par 2)); Do (Add 1); Do (Set_ 3 (Par 3)); Do (Add 1); Do (Set_ 4 (Shift 4 24)); Do (Set_ 5 (Shift 4 16)); Do (Set_ 6 (Shift 4 8)); Do (Set_ 7 (Shift 4 0)); Do (Add 4); Do (SizeVar)].
(* src/events/vscp_evt_control.c:1000-1036 vscp_evt_control_sendSetCountryLanguage *)
Definition evt_control_sendSetCountryLanguage : Sender := mkSender "vscp_evt_control_sendSetCountryLanguage" 30 32 3 [("code", PInt 1); ("zone", PInt 1); ("subZone", PInt 1); ("codeSpecific", PBuf true); ("codeSpecificSize", PSize)]
  [Guard 3 4; Do (Set_ 0 (Par 0)); Do (Add 1); Do (Set_ 1 (Par 1)); Do (Add 1); Do (Set_ 2 (Par 2)); Do (Add 1); Do (Loop 3 3 4); Do (SizeVar)].
(* src/events/vscp_evt_control.c:1049-1070 vscp_evt_control_sendBigChangeLevel *)
Definition evt_control_sendBigChangeLevel : Sender := mkSender "vscp_evt_control_sendBigChangeLevel" 30 33 3 [("index", PInt 1); ("zone", PInt 1); ("subZone", PInt 1); ("level", PInt 4)]
  [Do (Set_ 0 (Par 0)); Do (Add 1); Do (Set_ 1 (Par 1)); Do (Add 1); Do (Set_ 2 (Par 2)); Do (Add 1); Do (SizeVar)].
(* src/events/vscp_evt_control.c:1081-1100 vscp_evt_control_sendMoveShutterUp *)
Definition evt_control_sendMoveShutterUp : Sender := mkSender "vscp_evt_control_sendMoveShutterUp" 30 34 3 [("index", PInt 1); ("zone", PInt 1); ("subZone", PInt 1)]
  [Do (Set_ 0 (Par 0)); Do (Add 1); Do (Set_ 1 (Par 1)); Do (Add 1); Do (Set_ 2 (Par 2)); Do (Add 1); Do (SizeVar)].
(* src/events/vscp_evt_control.c:1111-1130 vscp_evt_control_sendMoveShutterDown *)
Definition evt_control_sendMoveShutterDown : Sender := mkSender "vscp_evt_control_sendMoveShutterDown" 30 35 3 [("index", PInt 1); ("zone", PInt 1); ("subZone", PInt 1)]
  [Do (Set_ 0 (Par 0)); Do (Add 1); Do (Set_ 1 (Par 1)); Do (Add 1); Do (Set_ 2 (Par 2)); Do (Add 1); Do (SizeVar)].
(* src/events/vscp_evt_control.c:1141-1160 vscp_evt_control_sendMoveShutterLeft *)
Definition evt_control_sendMoveShutterLeft : Sender := mkSender "vscp_evt_control_sendMoveShutterLeft" 30 36 3 [("index", PInt 1); ("zone", PInt 1); ("subZone", PInt 1)]
  [Do (Set_ 0 (Par 0)); Do (Add 1); Do (Set_ 1 (Par 1)); Do (Add 1); Do (Set_ 2 (Par 2)); Do (Add 1); Do (SizeVar)].
(* src/events/vscp_evt_control.c:1171-1190 vscp_evt_control_sendMoveShutterRight *)
Definition evt_control_sendMoveShutterRight : Sender := mkSender "vscp_evt_control_sendMoveShutterRight" 30 37 3 [("index", PInt 1); ("zone", PInt 1); ("subZone", PInt 1)]
  [Do (Set_ 0 (Par 0)); Do (Add 1); Do (Set_ 1 (Par 1)); Do (Add 1); Do (Set_ 2 (Par 2)); Do (Add 1); Do (SizeVar)].
(* src/events/vscp_evt_control.c:1201-1220 vscp_evt_control_sendMoveShutterToMiddlePosition *)
Definition evt_control_sendMoveShutterToMiddlePosition : Sender := mkSender "vscp_evt_control_sendMoveShutterToMiddlePosition" 30 38 3 [("index", PInt 1); ("zone", PInt 1); ("subZone", PInt 1)]
  [Do (Set_ 0 (Par 0)); Do (Add 1); Do (Set_ 1 (Par 1)); Do (Add 1); Do (Set_ 2 (Par 2)); Do (Add 1); Do (SizeVar)].
(* src/events/vscp_evt_control.c:1231-1250 vscp_evt_control_sendMoveShutterToPresetPosition *)
Definition evt_control_sendMoveShutterToPresetPosition : Sender := mkSender "vscp_evt_control_sendMoveShutterToPresetPosition" 30 39 3 [("index", PInt 1); ("zone", PInt 1); ("subZone", PInt 1)]
  [Do (Set_ 0 (Par 0)); Do (Add 1); Do (Set_ 1 (Par 1)); Do (Add 1); Do (Set_ 2 (Par 2)); Do (Add 1); Do (SizeVar)].
(* src/events/vscp_evt_control.c:1261-1280 vscp_evt_control_sendAllLampSOn *)
Definition evt_control_sendAllLampSOn : Sender := mkSender "vscp_evt_control_sendAllLampSOn" 30 40 3 [("userSpecific", PInt 1); ("zone", PInt 1); ("subZone", PInt 1)]
  [Do (Set_ 0 (Par 0)); Do (Add 1); Do (Set_ 1 (Par 1)); Do (Add 1); Do (Set_ 2 (Par 2)); Do (Add 1); Do (SizeVar)].
(* src/events/vscp_evt_control.c:1291-1310 vscp_evt_control_sendAllLampSOff *)
Definition evt_control_sendAllLampSOff : Sender := mkSender "vscp_evt_control_sendAllLampSOff" 30 41 3 [("userSpecific", PInt 1); ("zone", PInt 1); ("subZone", PInt 1)]
  [Do (Set_ 0 (Par 0)); Do (Add 1); Do (Set_ 1 (Par 1)); Do (Add 1); Do (Set_ 2 (Par 2)); Do (Add 1); Do (SizeVar)].
(* src/events/vscp_evt_control.c:1321-1340 vscp_evt_control_sendLock *)
Definition evt_control_sendLock : Sender := mkSender "vscp_evt_control_sendLock" 30 42 3 [("userSpecific", PInt 1); ("zone", PInt 1); ("subZone", PInt 1)]
  [Do (Set_ 0 (Par 0)); Do (Add 1); Do (Set_ 1 (Par 1)); Do (Add 1); Do (Set_ 2 (Par 2)); Do (Add 1); Do (SizeVar)].
(* src/events/vscp_evt_control.c:1351-1370 vscp_evt_control_sendUnlock *)
Definition evt_control_sendUnlock : Sender := mkSender "vscp_evt_control_sendUnlock" 30 43 3 [("userSpecific", PInt 1); ("zone", PInt 1); ("subZone", PInt 1)]
  [Do (Set_ 0 (Par 0)); Do (Add 1); Do (Set_ 1 (Par 1)); Do (Add 1); Do (Set_ 2 (Par 2)); Do (Add 1); Do (SizeVar)].
(* src/events/vscp_evt_control.c:1384-1414 vscp_evt_control_sendPwmSet *)
Definition evt_control_sendPwmSet : Sender := mkSender "vscp_evt_control_sendPwmSet" 30 44 3 [("repeats", PInt 1); ("zone", PInt 1); ("subZone", PInt 1); ("control", PInt 1); ("timeOn", PInt 2); ("timeOff", PInt 2)]
  [Do (Set_ 0 (Par 0)); Do (Add 1); Do (Set_ 1 (Par 1)); Do (Add 1); Do (Set_ 2 (Par 2)); Do (Add 1); Do (Set_ 3 (Par 3)); Do (Add 1); Do (Set_ 4 (Shift 4 8)); Do (Set_ 5 (Shift 4 0)); Do (Add 2); Do (Set_ 6 (Shift 5 8)); Do (Set_ 7 (Shift 5 0)); Do (Add 2); Do (SizeVar)].
(* src/events/vscp_evt_control.c:1429-1465 vscp_evt_control_sendLockWithToken *)
Definition evt_control_sendLockWithToken : Sender := mkSender "vscp_evt_control_sendLockWithToken" 30 45 3 [("reserved", PInt 1); ("zone", PInt 1); ("subZone", PInt 1); ("token", PBuf true); ("tokenSize", PSize)]
  [Guard 3 4; Do (Set_ 0 (Par 0)); Do (Add 1); Do (Set_ 1 (Par 1)); Do (Add 1); Do (Set_ 2 (Par 2)); Do (Add 1); Do (Loop 3 3 4); Do (SizeVar)].
(* src/events/vscp_evt_control.c:1480-1516 vscp_evt_control_sendUnlockWithToken *)
Definition evt_control_sendUnlockWithToken : Sender := mkSender "vscp_evt_control_sendUnlockWithToken" 30 46 3 [("reserved", PInt 1); ("zone", PInt 1); ("subZone", PInt 1); ("token", PBuf true); ("tokenSize", PSize)]
  [Guard 3 4; Do (Set_ 0 (Par 0)); Do (Add 1); Do (Set_ 1 (Par 1)); Do (Add 1); Do (Set_ 2 (Par 2)); Do (Add 1); Do (Loop 3 3 4); Do (SizeVar)].
(* src/events/vscp_evt_control.c:1527-1546 vscp_evt_control_sendSetSecurityLevel *)
Definition evt_control_sendSetSecurityLevel : Sender := mkSender "vscp_evt_control_sendSetSecurityLevel" 30 47 3 [("securityLevel", PInt 1); ("zone", PInt 1); ("subZone", PInt 1)]
  [Do (Set_ 0 (Par 0)); Do (Add 1); Do (Set_ 1 (Par 1)); Do (Add 1); Do (Set_ 2 (Par 2)); Do (Add 1); Do (SizeVar)].
(* src/events/vscp_evt_control.c:1561-1597 vscp_evt_control_sendSetSecurityPin *)
Definition evt_control_sendSetSecurityPin : Sender := mkSender "vscp_evt_control_sendSetSecurityPin" 30 48 3 [("reserved", PInt 1); ("zone", PInt 1); ("subZone", PInt 1); ("securityPin", PBuf true); ("securityPinSize", PSize)]
  [Guard 3 4; Do (Set_ 0 (Par 0)); Do (Add 1); Do (Set_ 1 (Par 1)); Do (Add 1); Do (Set_ 2 (Par 2)); Do (Add 1); Do (Loop 3 3 4); Do (SizeVar)].
(* src/events/vscp_evt_control.c:1612-1648 vscp_evt_control_sendSetSecurityPassword *)
Definition evt_control_sendSetSecurityPassword : Sender := mkSender "vscp_evt_control_sendSetSecurityPassword" 30 49 3 [("reserved", PInt 1); ("zone", PInt 1); ("subZone", PInt 1); ("securityPassword", PBuf true); ("securityPasswordSize", PSize)]
  [Guard 3 4; Do (Set_ 0 (Par 0)); Do (Add 1); Do (Set_ 1 (Par 1)); Do (Add 1); Do (Set_ 2 (Par 2)); Do (Add 1); Do (Loop 3 3 4); Do (SizeVar)].
(* src/events/vscp_evt_control.c:1663-1699 vscp_evt_control_sendSetSecurityToken *)
Definition evt_control_sendSetSecurityToken : Sender := mkSender "vscp_evt_control_sendSetSecurityToken" 30 50 3 [("reserved", PInt 1); ("zone", PInt 1); ("subZone", PInt 1); ("token", PBuf true); ("tokenSize", PSize)]
  [Guard 3 4; Do (Set_ 0 (Par 0)); Do (Add 1); Do (Set_ 1 (Par 1)); Do (Add 1); Do (Set_ 2 (Par 2)); Do (Add 1); Do (Loop 3 3 4); Do (SizeVar)].
(* src/events/vscp_evt_control.c:1710-1729 vscp_evt_control_sendRequestNewSecurityToken *)
Definition evt_control_sendRequestNewSecurityToken : Sender := mkSender "vscp_evt_control_sendRequestNewSecurityToken" 30 51 3 [("reserved", PInt 1); ("zone", PInt 1); ("subZone", PInt 1)]
  [Do (Set_ 0 (Par 0)); Do (Add 1); Do (Set_ 1 (Par 1)); Do (Add 1); Do (Set_ 2 (Par 2)); Do (Add 1); Do (SizeVar)].
(* src/events/vscp_evt_control.c:1744-1778 vscp_evt_control_sendIncrement *)
Definition evt_control_sendIncrement : Sender := mkSender "vscp_evt_control_sendIncrement" 30 52 3 [("userSpecific", PInt 1); ("zone", PInt 1); ("subzone", PInt 1); ("incrementValue", PBuf false); ("incrementValueSize", PSize)]
  [Do (Set_ 0 (Par 0)); Do (Add 1); Do (Set_ 1 (Par 1)); Do (Add 1); Do (Set_ 2 (Par 2)); Do (Add 1); IfPtr 3 [Loop 3 3 4]; Do (SizeVar)].
(* src/events/vscp_evt_control.c:1793-1827 vscp_evt_control_sendDecrement *)
Definition evt_control_sendDecrement : Sender := mkSender "vscp_evt_control_sendDecrement" 30 53 3 [("userSpecific", PInt 1); ("zone", PInt 1); ("subzone", PInt 1); ("decrementValue", PBuf false); ("decrementValueSize", PSize)]
  [Do (Set_ 0 (Par 0)); Do (Add 1); Do (Set_ 1 (Par 1)); Do (Add 1); Do (Set_ 2 (Par 2)); Do (Add 1); IfPtr 3 [Loop 3 3 4]; Do (SizeVar)].
(* src/events/vscp_evt_data.c:80-89 vscp_evt_data_sendGeneralEvent *)
Definition evt_data_sendGeneralEvent : Sender := mkSender "vscp_evt_data_sendGeneralEvent" 15 0 3 []
  [Do (SizeIs 0)].
(* src/events/vscp_evt_data.c:101-113 vscp_evt_data_sendIOValue *)
Definition evt_data_sendIOValue : Sender := mkSender "vscp_evt_data_sendIOValue" 15 1 3 [("index", PInt 1); ("unit", PUnit); ("data", PData); ("exp", PExp)]
  [Do (SizeIs 1); Do (Set_ 0 (Fmt 4 1 0)); Do (Norm 1 2 3)].
(* src/events/vscp_evt_data.c:125-137 vscp_evt_data_sendADValue *)
Definition evt_data_sendADValue : Sender := mkSender "vscp_evt_data_sendADValue" 15 2 3 [("index", PInt 1); ("unit", PUnit); ("data", PData); ("exp", PExp)]
  [Do (SizeIs 1); Do (Set_ 0 (Fmt 4 1 0)); Do (Norm 1 2 3)].
(* src/events/vscp_evt_data.c:149-161 vscp_evt_data_sendDAValue *)
Definition evt_data_sendDAValue : Sender := mkSender "vscp_evt_data_sendDAValue" 15 3 3 [("index", PInt 1); ("unit", PUnit); ("data", PData); ("exp", PExp)]
  [Do (SizeIs 1); Do (Set_ 0 (Fmt 4 1 0)); Do (Norm 1 2 3)].
(* src/events/vscp_evt_data.c:173-185 vscp_evt_data_sendRelativeStrength *)
Definition evt_data_sendRelativeStrength : Sender := mkSender "vscp_evt_data_sendRelativeStrength" 15 4 3 [("index", PInt 1); ("unit", PUnit); ("data", PData); ("exp", PExp)]
  [Do (SizeIs 1); Do (Set_ 0 (Fmt 4 1 0)); Do (Norm 1 2 3)].
(* src/events/vscp_evt_data.c:197-209 vscp_evt_data_sendSignalLevel *)
Definition evt_data_sendSignalLevel : Sender := mkSender "vscp_evt_data_sendSignalLevel" 15 5 3 [("index", PInt 1); ("unit", PUnit); ("data", PData); ("exp", PExp)]
  [Do (SizeIs 1); Do (Set_ 0 (Fmt 4 1 0)); Do (Norm 1 2 3)].
(* src/events/vscp_evt_data.c:221-233 vscp_evt_data_sendSignalQuality *)
Definition evt_data_sendSignalQuality : Sender := mkSender "vscp_evt_data_sendSignalQuality" 15 6 3 [("index", PInt 1); ("unit", PUnit); ("data", PData); ("exp", PExp)]
  [Do (SizeIs 1); Do (Set_ 0 (Fmt 4 1 0)); Do (Norm 1 2 3)].
(* src/events/vscp_evt_diagnostic.c:79-88 vscp_evt_diagnostic_sendGeneralEvent *)
Definition evt_diagnostic_sendGeneralEvent : Sender := mkSender "vscp_evt_diagnostic_sendGeneralEvent" 506 0 3 []
  [Do (SizeIs 0)].
(* src/events/vscp_evt_diagnostic.c:102-136 vscp_evt_diagnostic_sendOvervoltage *)
Definition evt_diagnostic_sendOvervoltage : Sender := mkSender "vscp_evt_diagnostic_sendOvervoltage" 506 1 3 [("index", PInt 1); ("zone", PInt 1); ("subZone", PInt 1); ("user", PBuf false); ("userSize", PSize)]
  [Do (Set_ 0 (Par 0)); Do (Add 1); Do (Set_ 1 (Par 1)); Do (Add 1); Do (Set_ 2 (Par 2)); Do (Add 1); IfPtr 3 [Loop 3 3 4]; Do (SizeVar)].
(* src/events/vscp_evt_diagnostic.c:150-184 vscp_evt_diagnostic_sendUndervoltage *)
Definition evt_diagnostic_sendUndervoltage : Sender := mkSender "vscp_evt_diagnostic_sendUndervoltage" 506 2 3 [("index", PInt 1); ("zone", PInt 1); ("subZone", PInt 1); ("user", PBuf false); ("userSize", PSize)]
  [Do (Set_ 0 (Par 0)); Do (Add 1); Do (Set_ 1 (Par 1)); Do (Add 1); Do (Set_ 2 (Par 2)); Do (Add 1); IfPtr 3 [Loop 3 3 4]; Do (SizeVar)].
(* src/events/vscp_evt_diagnostic.c:198-232 vscp_evt_diagnostic_sendUsbVbusLow *)
Definition evt_diagnostic_sendUsbVbusLow : Sender := mkSender "vscp_evt_diagnostic_sendUsbVbusLow" 506 3 3 [("index", PInt 1); ("zone", PInt 1); ("subZone", PInt 1); ("user", PBuf false); ("userSize", PSize)]
  [Do (Set_ 0 (Par 0)); Do (Add 1); Do (Set_ 1 (Par 1)); Do (Add 1); Do (Set_ 2 (Par 2)); Do (Add 1); IfPtr 3 [Loop 3 3 4]; Do (SizeVar)].
(* src/events/vscp_evt_diagnostic.c:246-280 vscp_evt_diagnostic_sendBatteryVoltageLow *)
Definition evt_diagnostic_sendBatteryVoltageLow : Sender := mkSender "vscp_evt_diagnostic_sendBatteryVoltageLow" 506 4 3 [("index", PInt 1); ("zone", PInt 1); ("subZone", PInt 1); ("user", PBuf false); ("userSize", PSize)]
  [Do (Set_ 0 (Par 0)); Do (Add 1); Do (Set_ 1 (Par 1)); Do (Add 1); Do (Set_ 2 (Par 2)); Do (Add 1); IfPtr 3 [Loop 3 3 4]; Do (SizeVar)].
(* src/events/vscp_evt_diagnostic.c:294-328 vscp_evt_diagnostic_sendBatteryFullVoltage *)
Definition evt_diagnostic_sendBatteryFullVoltage : Sender := mkSender "vscp_evt_diagnostic_sendBatteryFullVoltage" 506 5 3 [("index", PInt 1); ("zone", PInt 1); ("subZone", PInt 1); ("user", PBuf false); ("userSize", PSize)]
  [Do (Set_ 0 (Par 0)); Do (Add 1); Do (Set_ 1 (Par 1)); Do (Add 1); Do (Set_ 2 (Par 2)); Do (Add 1); IfPtr 3 [Loop 3 3 4]; Do (SizeVar)].
(* src/events/vscp_evt_diagnostic.c:342-376 vscp_evt_diagnostic_sendBatteryError *)
Definition evt_diagnostic_sendBatteryError : Sender := mkSender "vscp_evt_diagnostic_sendBatteryError" 506 6 3 [("index", PInt 1); ("zone", PInt 1); ("subZone", PInt 1); ("user", PBuf false); ("userSize", PSize)]
  [Do (Set_ 0 (Par 0)); Do (Add 1); Do (Set_ 1 (Par 1)); Do (Add 1); Do (Set_ 2 (Par 2)); Do (Add 1); IfPtr 3 [Loop 3 3 4]; Do (SizeVar)].
(* src/events/vscp_evt_diagnostic.c:390-424 vscp_evt_diagnostic_sendBatteryOk *)
Definition evt_diagnostic_sendBatteryOk : Sender := mkSender "vscp_evt_diagnostic_sendBatteryOk" 506 7 3 [("index", PInt 1); ("zone", PInt 1); ("subZone", PInt 1); ("user", PBuf false); ("userSize", PSize)]
  [Do (Set_ 0 (Par 0)); Do (Add 1); Do (Set_ 1 (Par 1)); Do (Add 1); Do (Set_ 2 (Par 2)); Do (Add 1); IfPtr 3 [Loop 3 3 4]; Do (SizeVar)].
(* src/events/vscp_evt_diagnostic.c:438-472 vscp_evt_diagnostic_sendOverCurrent *)
Definition evt_diagnostic_sendOverCurrent : Sender := mkSender "vscp_evt_diagnostic_sendOverCurrent" 506 8 3 [("index", PInt 1); ("zone", PInt 1); ("subZone", PInt 1); ("user", PBuf false); ("userSize", PSize)]
  [Do (Set_ 0 (Par 0)); Do (Add 1); Do (Set_ 1 (Par 1)); Do (Add 1); Do (Set_ 2 (Par 2)); Do (Add 1); IfPtr 3 [Loop 3 3 4]; Do (SizeVar)].
(* src/events/vscp_evt_diagnostic.c:486-520 vscp_evt_diagnostic_sendCircuitError *)
Definition evt_diagnostic_sendCircuitError : Sender := mkSender "vscp_evt_diagnostic_sendCircuitError" 506 9 3 [("index", PInt 1); ("zone", PInt 1); ("subZone", PInt 1); ("user", PBuf false); ("userSize", PSize)]
  [Do (Set_ 0 (Par 0)); Do (Add 1); Do (Set_ 1 (Par 1)); Do (Add 1); Do (Set_ 2 (Par 2)); Do (Add 1); IfPtr 3 [Loop 3 3 4]; Do (SizeVar)].
(* src/events/vscp_evt_diagnostic.c:534-568 vscp_evt_diagnostic_sendShortCircuit *)
Definition evt_diagnostic_sendShortCircuit : Sender := mkSender "vscp_evt_diagnostic_sendShortCircuit" 506 10 3 [("index", PInt 1); ("zone", PInt 1); ("subZone", PInt 1); ("user", PBuf false); ("userSize", PSize)]
  [Do (Set_ 0 (Par 0)); Do (Add 1); Do (Set_ 1 (Par 1)); Do (Add 1); Do (Set_ 2 (Par 2)); Do (Add 1); IfPtr 3 [Loop 3 3 4]; Do (SizeVar)].
(* src/events/vscp_evt_diagnostic.c:582-616 vscp_evt_diagnostic_sendOpenCircuit *)
Definition evt_diagnostic_sendOpenCircuit : Sender := mkSender "vscp_evt_diagnostic_sendOpenCircuit" 506 11 3 [("index", PInt 1); ("zone", PInt 1); ("subZone", PInt 1); ("user", PBuf false); ("userSize", PSize)]
  [Do (Set_ 0 (Par 0)); Do (Add 1); Do (Set_ 1 (Par 1)); Do (Add 1); Do (Set_ 2 (Par 2)); Do (Add 1); IfPtr 3 [Loop 3 3 4]; Do (SizeVar)].
(* src/events/vscp_evt_diagnostic.c:630-664 vscp_evt_diagnostic_sendMoist *)
Definition evt_diagnostic_sendMoist : Sender := mkSender "vscp_evt_diagnostic_sendMoist" 506 12 3 [("index", PInt 1); ("zone", PInt 1); ("subZone", PInt 1); ("user", PBuf false); ("userSize", PSize)]
  [Do (Set_ 0 (Par 0)); Do (Add 1); Do (Set_ 1 (Par 1)); Do (Add 1); Do (Set_ 2 (Par 2)); Do (Add 1); IfPtr 3 [Loop 3 3 4]; Do (SizeVar)].
(* src/events/vscp_evt_diagnostic.c:678-712 vscp_evt_diagnostic_sendWireFailure *)
Definition evt_diagnostic_sendWireFailure : Sender := mkSender "vscp_evt_diagnostic_sendWireFailure" 506 13 3 [("index", PInt 1); ("zone", PInt 1); ("subZone", PInt 1); ("user", PBuf false); ("userSize", PSize)]
  [Do (Set_ 0 (Par 0)); Do (Add 1); Do (Set_ 1 (Par 1)); Do (Add 1); Do (Set_ 2 (Par 2)); Do (Add 1); IfPtr 3 [Loop 3 3 4]; Do (SizeVar)].
(* src/events/vscp_evt_diagnostic.c:726-760 vscp_evt_diagnostic_sendWirelessFaliure *)
Definition evt_diagnostic_sendWirelessFaliure : Sender := mkSender "vscp_evt_diagnostic_sendWirelessFaliure" 506 14 3 [("index", PInt 1); ("zone", PInt 1); ("subZone", PInt 1); ("user", PBuf false); ("userSize", PSize)]
  [Do (Set_ 0 (Par 0)); Do (Add 1); Do (Set_ 1 (Par 1)); Do (Add 1); Do (Set_ 2 (Par 2)); Do (Add 1); IfPtr 3 [Loop 3 3 4]; Do (SizeVar)].
(* src/events/vscp_evt_diagnostic.c:774-808 vscp_evt_diagnostic_sendIrFailure *)
Definition evt_diagnostic_sendIrFailure : Sender := mkSender "vscp_evt_diagnostic_sendIrFailure" 506 15 3 [("index", PInt 1); ("zone", PInt 1); ("subZone", PInt 1); ("user", PBuf false); ("userSize", PSize)]
  [Do (Set_ 0 (Par 0)); Do (Add 1); Do (Set_ 1 (Par 1)); Do (Add 1); Do (Set_ 2 (Par 2)); Do (Add 1); IfPtr 3 [Loop 3 3 4]; Do (SizeVar)].
(* src/events/vscp_evt_diagnostic.c:822-856 vscp_evt_diagnostic_send1WireFailure *)
Definition evt_diagnostic_send1WireFailure : Sender := mkSender "vscp_evt_diagnostic_send1WireFailure" 506 16 3 [("index", PInt 1); ("zone", PInt 1); ("subZone", PInt 1); ("user", PBuf false); ("userSize", PSize)]
  [Do (Set_ 0 (Par 0)); Do (Add 1); Do (Set_ 1 (Par 1)); Do (Add 1); Do (Set_ 2 (Par 2)); Do (Add 1); IfPtr 3 [Loop 3 3 4]; Do (SizeVar)].
(* src/events/vscp_evt_diagnostic.c:870-904 vscp_evt_diagnostic_sendRs222Failure *)
Definition evt_diagnostic_sendRs222Failure : Sender := mkSender "vscp_evt_diagnostic_sendRs222Failure" 506 17 3 [("index", PInt 1); ("zone", PInt 1); ("subZone", PInt 1); ("user", PBuf false); ("userSize", PSize)]
  [Do (Set_ 0 (Par 0)); Do (Add 1); Do (Set_ 1 (Par 1)); Do (Add 1); Do (Set_ 2 (Par 2)); Do (Add 1); IfPtr 3 [Loop 3 3 4]; Do (SizeVar)].
(* src/events/vscp_evt_diagnostic.c:918-952 vscp_evt_diagnostic_sendRs232Failure *)
Definition evt_diagnostic_sendRs232Failure : Sender := mkSender "vscp_evt_diagnostic_sendRs232Failure" 506 18 3 [("index", PInt 1); ("zone", PInt 1); ("subZone", PInt 1); ("user", PBuf false); ("userSize", PSize)]
  [Do (Set_ 0 (Par 0)); Do (Add 1); Do (Set_ 1 (Par 1)); Do (Add 1); Do (Set_ 2 (Par 2)); Do (Add 1); IfPtr 3 [Loop 3 3 4]; Do (SizeVar)].
(* src/events/vscp_evt_diagnostic.c:966-1000 vscp_evt_diagnostic_sendRs423Failure *)
Definition evt_diagnostic_sendRs423Failure : Sender := mkSender "vscp_evt_diagnostic_sendRs423Failure" 506 19 3 [("index", PInt 1); ("zone", PInt 1); ("subZone", PInt 1); ("user", PBuf false); ("userSize", PSize)]
  [Do (Set_ 0 (Par 0)); Do (Add 1); Do (Set_ 1 (Par 1)); Do (Add 1); Do (Set_ 2 (Par 2)); Do (Add 1); IfPtr 3 [Loop 3 3 4]; Do (SizeVar)].
(* src/events/vscp_evt_diagnostic.c:1014-1048 vscp_evt_diagnostic_sendRs485Failure *)
Definition evt_diagnostic_sendRs485Failure : Sender := mkSender "vscp_evt_diagnostic_sendRs485Failure" 506 20 3 [("index", PInt 1); ("zone", PInt 1); ("subZone", PInt 1); ("user", PBuf false); ("userSize", PSize)]
  [Do (Set_ 0 (Par 0)); Do (Add 1); Do (Set_ 1 (Par 1)); Do (Add 1); Do (Set_ 2 (Par 2)); Do (Add 1); IfPtr 3 [Loop 3 3 4]; Do (SizeVar)].
(* src/events/vscp_evt_diagnostic.c:1062-1096 vscp_evt_diagnostic_sendCanFailure *)
Definition evt_diagnostic_sendCanFailure : Sender := mkSender "vscp_evt_diagnostic_sendCanFailure" 506 21 3 [("index", PInt 1); ("zone", PInt 1); ("subZone", PInt 1); ("user", PBuf false); ("userSize", PSize)]
  [Do (Set_ 0 (Par 0)); Do (Add 1); Do (Set_ 1 (Par 1)); Do (Add 1); Do (Set_ 2 (Par 2)); Do (Add 1); IfPtr 3 [Loop 3 3 4]; Do (SizeVar)].
(* src/events/vscp_evt_diagnostic.c:1110-1144 vscp_evt_diagnostic_sendLanFailure *)
Definition evt_diagnostic_sendLanFailure : Sender := mkSender "vscp_evt_diagnostic_sendLanFailure" 506 22 3 [("index", PInt 1); ("zone", PInt 1); ("subZone", PInt 1); ("user", PBuf false); ("userSize", PSize)]
  [Do (Set_ 0 (Par 0)); Do (Add 1); Do (Set_ 1 (Par 1)); Do (Add 1); Do (Set_ 2 (Par 2)); Do (Add 1); IfPtr 3 [Loop 3 3 4]; Do (SizeVar)].
(* src/events/vscp_evt_diagnostic.c:1158-1192 vscp_evt_diagnostic_sendUsbFailure *)
Definition evt_diagnostic_sendUsbFailure : Sender := mkSender "vscp_evt_diagnostic_sendUsbFailure" 506 23 3 [("index", PInt 1); ("zone", PInt 1); ("subZone", PInt 1); ("user", PBuf false); ("userSize", PSize)]
  [Do (Set_ 0 (Par 0)); Do (Add 1); Do (Set_ 1 (Par 1)); Do (Add 1); Do (Set_ 2 (Par 2)); Do (Add 1); IfPtr 3 [Loop 3 3 4]; Do (SizeVar)].
(* src/events/vscp_evt_diagnostic.c:1206-1240 vscp_evt_diagnostic_sendWifiFailure *)
Definition evt_diagnostic_sendWifiFailure : Sender := mkSender "vscp_evt_diagnostic_sendWifiFailure" 506 24 3 [("index", PInt 1); ("zone", PInt 1); ("subZone", PInt 1); ("user", PBuf false); ("userSize", PSize)]
  [Do (Set_ 0 (Par 0)); Do (Add 1); Do (Set_ 1 (Par 1)); Do (Add 1); Do (Set_ 2 (Par 2)); Do (Add 1); IfPtr 3 [Loop 3 3 4]; Do (SizeVar)].
(* src/events/vscp_evt_diagnostic.c:1254-1288 vscp_evt_diagnostic_sendNfcRfidFailure *)
Definition evt_diagnostic_sendNfcRfidFailure : Sender := mkSender "vscp_evt_diagnostic_sendNfcRfidFailure" 506 25 3 [("index", PInt 1); ("zone", PInt 1); ("subZone", PInt 1); ("user", PBuf false); ("userSize", PSize)]
  [Do (Set_ 0 (Par 0)); Do (Add 1); Do (Set_ 1 (Par 1)); Do (Add 1); Do (Set_ 2 (Par 2)); Do (Add 1); IfPtr 3 [Loop 3 3 4]; Do (SizeVar)].
(* src/events/vscp_evt_diagnostic.c:1302-1336 vscp_evt_diagnostic_sendLowSignal *)
Definition evt_diagnostic_sendLowSignal : Sender := mkSender "vscp_evt_diagnostic_sendLowSignal" 506 26 3 [("index", PInt 1); ("zone", PInt 1); ("subZone", PInt 1); ("user", PBuf false); ("userSize", PSize)]
  [Do (Set_ 0 (Par 0)); Do (Add 1); Do (Set_ 1 (Par 1)); Do (Add 1); Do (Set_ 2 (Par 2)); Do (Add 1); IfPtr 3 [Loop 3 3 4]; Do (SizeVar)].
(* src/events/vscp_evt_diagnostic.c:1350-1384 vscp_evt_diagnostic_sendHighSignal *)
Definition evt_diagnostic_sendHighSignal : Sender := mkSender "vscp_evt_diagnostic_sendHighSignal" 506 27 3 [("index", PInt 1); ("zone", PInt 1); ("subZone", PInt 1); ("user", PBuf false); ("userSize", PSize)]
  [Do (Set_ 0 (Par 0)); Do (Add 1); Do (Set_ 1 (Par 1)); Do (Add 1); Do (Set_ 2 (Par 2)); Do (Add 1); IfPtr 3 [Loop 3 3 4]; Do (SizeVar)].
(* src/events/vscp_evt_diagnostic.c:1398-1432 vscp_evt_diagnostic_sendAdcFailure *)
Definition evt_diagnostic_sendAdcFailure : Sender := mkSender "vscp_evt_diagnostic_sendAdcFailure" 506 28 3 [("index", PInt 1); ("zone", PInt 1); ("subZone", PInt 1); ("user", PBuf false); ("userSize", PSize)]
  [Do (Set_ 0 (Par 0)); Do (Add 1); Do (Set_ 1 (Par 1)); Do (Add 1); Do (Set_ 2 (Par 2)); Do (Add 1); IfPtr 3 [Loop 3 3 4]; Do (SizeVar)].
(* src/events/vscp_evt_diagnostic.c:1446-1480 vscp_evt_diagnostic_sendAluFailure *)
Definition evt_diagnostic_sendAluFailure : Sender := mkSender "vscp_evt_diagnostic_sendAluFailure" 506 29 3 [("index", PInt 1); ("zone", PInt 1); ("subZone", PInt 1); ("user", PBuf false); ("userSize", PSize)]
  [Do (Set_ 0 (Par 0)); Do (Add 1); Do (Set_ 1 (Par 1)); Do (Add 1); Do (Set_ 2 (Par 2)); Do (Add 1); IfPtr 3 [Loop 3 3 4]; Do (SizeVar)].
(* src/events/vscp_evt_diagnostic.c:1494-1528 vscp_evt_diagnostic_sendAssert *)
Definition evt_diagnostic_sendAssert : Sender := mkSender "vscp_evt_diagnostic_sendAssert" 506 30 3 [("index", PInt 1); ("zone", PInt 1); ("subZone", PInt 1); ("user", PBuf false); ("userSize", PSize)]
  [Do (Set_ 0 (Par 0)); Do (Add 1); Do (Set_ 1 (Par 1)); Do (Add 1); Do (Set_ 2 (Par 2)); Do (Add 1); IfPtr 3 [Loop 3 3 4]; Do (SizeVar)].
(* src/events/vscp_evt_diagnostic.c:1542-1576 vscp_evt_diagnostic_sendDacFailure *)
Definition evt_diagnostic_sendDacFailure : Sender := mkSender "vscp_evt_diagnostic_sendDacFailure" 506 31 3 [("index", PInt 1); ("zone", PInt 1); ("subZone", PInt 1); ("user", PBuf false); ("userSize", PSize)]
  [Do (Set_ 0 (Par 0)); Do (Add 1); Do (Set_ 1 (Par 1)); Do (Add 1); Do (Set_ 2 (Par 2)); Do (Add 1); IfPtr 3 [Loop 3 3 4]; Do (SizeVar)].
(* src/events/vscp_evt_diagnostic.c:1590-1624 vscp_evt_diagnostic_sendDmaFailure *)
Definition evt_diagnostic_sendDmaFailure : Sender := mkSender "vscp_evt_diagnostic_sendDmaFailure" 506 32 3 [("index", PInt 1); ("zone", PInt 1); ("subZone", PInt 1); ("user", PBuf false); ("userSize", PSize)]
  [Do (Set_ 0 (Par 0)); Do (Add 1); Do (Set_ 1 (Par 1)); Do (Add 1); Do (Set_ 2 (Par 2)); Do (Add 1); IfPtr 3 [Loop 3 3 4]; Do (SizeVar)].
(* src/events/vscp_evt_diagnostic.c:1638-1672 vscp_evt_diagnostic_sendEthernetFailure *)
Definition evt_diagnostic_sendEthernetFailure : Sender := mkSender "vscp_evt_diagnostic_sendEthernetFailure" 506 33 3 [("index", PInt 1); ("zone", PInt 1); ("subZone", PInt 1); ("user", PBuf false); ("userSize", PSize)]
  [Do (Set_ 0 (Par 0)); Do (Add 1); Do (Set_ 1 (Par 1)); Do (Add 1); Do (Set_ 2 (Par 2)); Do (Add 1); IfPtr 3 [Loop 3 3 4]; Do (SizeVar)].
(* src/events/vscp_evt_diagnostic.c:1686-1720 vscp_evt_diagnostic_sendException *)
Definition evt_diagnostic_sendException : Sender := mkSender "vscp_evt_diagnostic_sendException" 506 34 3 [("index", PInt 1); ("zone", PInt 1); ("subZone", PInt 1); ("user", PBuf false); ("userSize", PSize)]
  [Do (Set_ 0 (Par 0)); Do (Add 1); Do (Set_ 1 (Par 1)); Do (Add 1); Do (Set_ 2 (Par 2)); Do (Add 1); IfPtr 3 [Loop 3 3 4]; Do (SizeVar)].
(* src/events/vscp_evt_diagnostic.c:1734-1768 vscp_evt_diagnostic_sendFpuFailure *)
Definition evt_diagnostic_sendFpuFailure : Sender := mkSender "vscp_evt_diagnostic_sendFpuFailure" 506 35 3 [("index", PInt 1); ("zone", PInt 1); ("subZone", PInt 1); ("user", PBuf false); ("userSize", PSize)]
  [Do (Set_ 0 (Par 0)); Do (Add 1); Do (Set_ 1 (Par 1)); Do (Add 1); Do (Set_ 2 (Par 2)); Do (Add 1); IfPtr 3 [Loop 3 3 4]; Do (SizeVar)].
(* src/events/vscp_evt_diagnostic.c:1782-1816 vscp_evt_diagnostic_sendGpioFailure *)
Definition evt_diagnostic_sendGpioFailure : Sender := mkSender "vscp_evt_diagnostic_sendGpioFailure" 506 36 3 [("index", PInt 1); ("zone", PInt 1); ("subZone", PInt 1); ("user", PBuf false); ("userSize", PSize)]
  [Do (Set_ 0 (Par 0)); Do (Add 1); Do (Set_ 1 (Par 1)); Do (Add 1); Do (Set_ 2 (Par 2)); Do (Add 1); IfPtr 3 [Loop 3 3 4]; Do (SizeVar)].
(* src/events/vscp_evt_diagnostic.c:1830-1864 vscp_evt_diagnostic_sendI2cFailure *)
Definition evt_diagnostic_sendI2cFailure : Sender := mkSender "vscp_evt_diagnostic_sendI2cFailure" 506 37 3 [("index", PInt 1); ("zone", PInt 1); ("subZone", PInt 1); ("user", PBuf false); ("userSize", PSize)]
  [Do (Set_ 0 (Par 0)); Do (Add 1); Do (Set_ 1 (Par 1)); Do (Add 1); Do (Set_ 2 (Par 2)); Do (Add 1); IfPtr 3 [Loop 3 3 4]; Do (SizeVar)].
(* src/events/vscp_evt_diagnostic.c:1878-1912 vscp_evt_diagnostic_sendI2sFailure *)
Definition evt_diagnostic_sendI2sFailure : Sender := mkSender "vscp_evt_diagnostic_sendI2sFailure" 506 38 3 [("index", PInt 1); ("zone", PInt 1); ("subZone", PInt 1); ("user", PBuf false); ("userSize", PSize)]
  [Do (Set_ 0 (Par 0)); Do (Add 1); Do (Set_ 1 (Par 1)); Do (Add 1); Do (Set_ 2 (Par 2)); Do (Add 1); IfPtr 3 [Loop 3 3 4]; Do (SizeVar)].
(* src/events/vscp_evt_diagnostic.c:1926-1960 vscp_evt_diagnostic_sendInvalidConfiguration *)
Definition evt_diagnostic_sendInvalidConfiguration : Sender := mkSender "vscp_evt_diagnostic_sendInvalidConfiguration" 506 39 3 [("index", PInt 1); ("zone", PInt 1); ("subZone", PInt 1); ("user", PBuf false); ("userSize", PSize)]
  [Do (Set_ 0 (Par 0)); Do (Add 1); Do (Set_ 1 (Par 1)); Do (Add 1); Do (Set_ 2 (Par 2)); Do (Add 1); IfPtr 3 [Loop 3 3 4]; Do (SizeVar)].
(* src/events/vscp_evt_diagnostic.c:1974-2008 vscp_evt_diagnostic_sendMmuFailure *)
Definition evt_diagnostic_sendMmuFailure : Sender := mkSender "vscp_evt_diagnostic_sendMmuFailure" 506 40 3 [("index", PInt 1); ("zone", PInt 1); ("subZone", PInt 1); ("user", PBuf false); ("userSize", PSize)]
  [Do (Set_ 0 (Par 0)); Do (Add 1); Do (Set_ 1 (Par 1)); Do (Add 1); Do (Set_ 2 (Par 2)); Do (Add 1); IfPtr 3 [Loop 3 3 4]; Do (SizeVar)].
(* src/events/vscp_evt_diagnostic.c:2022-2056 vscp_evt_diagnostic_sendNmiFailure *)
Definition evt_diagnostic_sendNmiFailure : Sender := mkSender "vscp_evt_diagnostic_sendNmiFailure" 506 41 3 [("index", PInt 1); ("zone", PInt 1); ("subZone", PInt 1); ("user", PBuf false); ("userSize", PSize)]
  [Do (Set_ 0 (Par 0)); Do (Add 1); Do (Set_ 1 (Par 1)); Do (Add 1); Do (Set_ 2 (Par 2)); Do (Add 1); IfPtr 3 [Loop 3 3 4]; Do (SizeVar)].
(* src/events/vscp_evt_diagnostic.c:2070-2104 vscp_evt_diagnostic_sendOverheat *)
Definition evt_diagnostic_sendOverheat : Sender := mkSender "vscp_evt_diagnostic_sendOverheat" 506 42 3 [("index", PInt 1); ("zone", PInt 1); ("subZone", PInt 1); ("user", PBuf false); ("userSize", PSize)]
  [Do (Set_ 0 (Par 0)); Do (Add 1); Do (Set_ 1 (Par 1)); Do (Add 1); Do (Set_ 2 (Par 2)); Do (Add 1); IfPtr 3 [Loop 3 3 4]; Do (SizeVar)].
(* src/events/vscp_evt_diagnostic.c:2118-2152 vscp_evt_diagnostic_sendPllFail *)
Definition evt_diagnostic_sendPllFail : Sender := mkSender "vscp_evt_diagnostic_sendPllFail" 506 43 3 [("index", PInt 1); ("zone", PInt 1); ("subZone", PInt 1); ("user", PBuf false); ("userSize", PSize)]
  [Do (Set_ 0 (Par 0)); Do (Add 1); Do (Set_ 1 (Par 1)); Do (Add 1); Do (Set_ 2 (Par 2)); Do (Add 1); IfPtr 3 [Loop 3 3 4]; Do (SizeVar)].
(* src/events/vscp_evt_diagnostic.c:2166-2200 vscp_evt_diagnostic_sendPorFailure *)
Definition evt_diagnostic_sendPorFailure : Sender := mkSender "vscp_evt_diagnostic_sendPorFailure" 506 44 3 [("index", PInt 1); ("zone", PInt 1); ("subZone", PInt 1); ("user", PBuf false); ("userSize", PSize)]
  [Do (Set_ 0 (Par 0)); Do (Add 1); Do (Set_ 1 (Par 1)); Do (Add 1); Do (Set_ 2 (Par 2)); Do (Add 1); IfPtr 3 [Loop 3 3 4]; Do (SizeVar)].
(* src/events/vscp_evt_diagnostic.c:2214-2248 vscp_evt_diagnostic_sendPwmFailure *)
Definition evt_diagnostic_sendPwmFailure : Sender := mkSender "vscp_evt_diagnostic_sendPwmFailure" 506 45 3 [("index", PInt 1); ("zone", PInt 1); ("subZone", PInt 1); ("user", PBuf false); ("userSize", PSize)]
  [Do (Set_ 0 (Par 0)); Do (Add 1); Do (Set_ 1 (Par 1)); Do (Add 1); Do (Set_ 2 (Par 2)); Do (Add 1); IfPtr 3 [Loop 3 3 4]; Do (SizeVar)].
(* src/events/vscp_evt_diagnostic.c:2262-2296 vscp_evt_diagnostic_sendRamFailure *)
Definition evt_diagnostic_sendRamFailure : Sender := mkSender "vscp_evt_diagnostic_sendRamFailure" 506 46 3 [("index", PInt 1); ("zone", PInt 1); ("subZone", PInt 1); ("user", PBuf false); ("userSize", PSize)]
  [Do (Set_ 0 (Par 0)); Do (Add 1); Do (Set_ 1 (Par 1)); Do (Add 1); Do (Set_ 2 (Par 2)); Do (Add 1); IfPtr 3 [Loop 3 3 4]; Do (SizeVar)].
(* src/events/vscp_evt_diagnostic.c:2310-2344 vscp_evt_diagnostic_sendRomFailure *)
Definition evt_diagnostic_sendRomFailure : Sender := mkSender "vscp_evt_diagnostic_sendRomFailure" 506 47 3 [("index", PInt 1); ("zone", PInt 1); ("subZone", PInt 1); ("user", PBuf false); ("userSize", PSize)]
  [Do (Set_ 0 (Par 0)); Do (Add 1); Do (Set_ 1 (Par 1)); Do (Add 1); Do (Set_ 2 (Par 2)); Do (Add 1); IfPtr 3 [Loop 3 3 4]; Do (SizeVar)].
(* src/events/vscp_evt_diagnostic.c:2358-2392 vscp_evt_diagnostic_sendSpiFailure *)
Definition evt_diagnostic_sendSpiFailure : Sender := mkSender "vscp_evt_diagnostic_sendSpiFailure" 506 48 3 [("index", PInt 1); ("zone", PInt 1); ("subZone", PInt 1); ("user", PBuf false); ("userSize", PSize)]
  [Do (Set_ 0 (Par 0)); Do (Add 1); Do (Set_ 1 (Par 1)); Do (Add 1); Do (Set_ 2 (Par 2)); Do (Add 1); IfPtr 3 [Loop 3 3 4]; Do (SizeVar)].
(* src/events/vscp_evt_diagnostic.c:2406-2440 vscp_evt_diagnostic_sendStackFailure *)
Definition evt_diagnostic_sendStackFailure : Sender := mkSender "vscp_evt_diagnostic_sendStackFailure" 506 49 3 [("index", PInt 1); ("zone", PInt 1); ("subZone", PInt 1); ("user", PBuf false); ("userSize", PSize)]
  [Do (Set_ 0 (Par 0)); Do (Add 1); Do (Set_ 1 (Par 1)); Do (Add 1); Do (Set_ 2 (Par 2)); Do (Add 1); IfPtr 3 [Loop 3 3 4]; Do (SizeVar)].
(* src/events/vscp_evt_diagnostic.c:2454-2488 vscp_evt_diagnostic_sendLinBusFailure *)
Definition evt_diagnostic_sendLinBusFailure : Sender := mkSender "vscp_evt_diagnostic_sendLinBusFailure" 506 50 3 [("index", PInt 1); ("zone", PInt 1); ("subZone", PInt 1); ("user", PBuf false); ("userSize", PSize)]
  [Do (Set_ 0 (Par 0)); Do (Add 1); Do (Set_ 1 (Par 1)); Do (Add 1); Do (Set_ 2 (Par 2)); Do (Add 1); IfPtr 3 [Loop 3 3 4]; Do (SizeVar)].
(* src/events/vscp_evt_diagnostic.c:2502-2536 vscp_evt_diagnostic_sendUartFailure *)
Definition evt_diagnostic_sendUartFailure : Sender := mkSender "vscp_evt_diagnostic_sendUartFailure" 506 51 3 [("index", PInt 1); ("zone", PInt 1); ("subZone", PInt 1); ("user", PBuf false); ("userSize", PSize)]
  [Do (Set_ 0 (Par 0)); Do (Add 1); Do (Set_ 1 (Par 1)); Do (Add 1); Do (Set_ 2 (Par 2)); Do (Add 1); IfPtr 3 [Loop 3 3 4]; Do (SizeVar)].
(* src/events/vscp_evt_diagnostic.c:2550-2584 vscp_evt_diagnostic_sendUnhandledInterrupt *)
Definition evt_diagnostic_sendUnhandledInterrupt : Sender := mkSender "vscp_evt_diagnostic_sendUnhandledInterrupt" 506 52 3 [("index", PInt 1); ("zone", PInt 1); ("subZone", PInt 1); ("user", PBuf false); ("userSize", PSize)]
  [Do (Set_ 0 (Par 0)); Do (Add 1); Do (Set_ 1 (Par 1)); Do (Add 1); Do (Set_ 2 (Par 2)); Do (Add 1); IfPtr 3 [Loop 3 3 4]; Do (SizeVar)].
(* src/events/vscp_evt_diagnostic.c:2598-2632 vscp_evt_diagnostic_sendMemoryFailure *)
Definition evt_diagnostic_sendMemoryFailure : Sender := mkSender "vscp_evt_diagnostic_sendMemoryFailure" 506 53 3 [("index", PInt 1); ("zone", PInt 1); ("subZone", PInt 1); ("user", PBuf false); ("userSize", PSize)]
  [Do (Set_ 0 (Par 0)); Do (Add 1); Do (Set_ 1 (Par 1)); Do (Add 1); Do (Set_ 2 (Par 2)); Do (Add 1); IfPtr 3 [Loop 3 3 4]; Do (SizeVar)].
(* src/events/vscp_evt_diagnostic.c:2646-2680 vscp_evt_diagnostic_sendVariableRangeFailure *)
Definition evt_diagnostic_sendVariableRangeFailure : Sender := mkSender "vscp_evt_diagnostic_sendVariableRangeFailure" 506 54 3 [("index", PInt 1); ("zone", PInt 1); ("subZone", PInt 1); ("user", PBuf false); ("userSize", PSize)]
  [Do (Set_ 0 (Par 0)); Do (Add 1); Do (Set_ 1 (Par 1)); Do (Add 1); Do (Set_ 2 (Par 2)); Do (Add 1); IfPtr 3 [Loop 3 3 4]; Do (SizeVar)].
(* src/events/vscp_evt_diagnostic.c:2694-2728 vscp_evt_diagnostic_sendWdtFailure *)
Definition evt_diagnostic_sendWdtFailure : Sender := mkSender "vscp_evt_diagnostic_sendWdtFailure" 506 55 3 [("index", PInt 1); ("zone", PInt 1); ("subZone", PInt 1); ("user", PBuf false); ("userSize", PSize)]
  [Do (Set_ 0 (Par 0)); Do (Add 1); Do (Set_ 1 (Par 1)); Do (Add 1); Do (Set_ 2 (Par 2)); Do (Add 1); IfPtr 3 [Loop 3 3 4]; Do (SizeVar)].
(* src/events/vscp_evt_diagnostic.c:2742-2776 vscp_evt_diagnostic_sendEepromFailure *)
Definition evt_diagnostic_sendEepromFailure : Sender := mkSender "vscp_evt_diagnostic_sendEepromFailure" 506 56 3 [("index", PInt 1); ("zone", PInt 1); ("subZone", PInt 1); ("user", PBuf false); ("userSize", PSize)]
  [Do (Set_ 0 (Par 0)); Do (Add 1); Do (Set_ 1 (Par 1)); Do (Add 1); Do (Set_ 2 (Par 2)); Do (Add 1); IfPtr 3 [Loop 3 3 4]; Do (SizeVar)].
(* src/events/vscp_evt_diagnostic.c:2790-2824 vscp_evt_diagnostic_sendEncryptionFailure *)
Definition evt_diagnostic_sendEncryptionFailure : Sender := mkSender "vscp_evt_diagnostic_sendEncryptionFailure" 506 57 3 [("index", PInt 1); ("zone", PInt 1); ("subZone", PInt 1); ("user", PBuf false); ("userSize", PSize)]
  [Do (Set_ 0 (Par 0)); Do (Add 1); Do (Set_ 1 (Par 1)); Do (Add 1); Do (Set_ 2 (Par 2)); Do (Add 1); IfPtr 3 [Loop 3 3 4]; Do (SizeVar)].
(* src/events/vscp_evt_diagnostic.c:2838-2872 vscp_evt_diagnostic_sendBadUserInputFailure *)
Definition evt_diagnostic_sendBadUserInputFailure : Sender := mkSender "vscp_evt_diagnostic_sendBadUserInputFailure" 506 58 3 [("index", PInt 1); ("zone", PInt 1); ("subZone", PInt 1); ("user", PBuf false); ("userSize", PSize)]
  [Do (Set_ 0 (Par 0)); Do (Add 1); Do (Set_ 1 (Par 1)); Do (Add 1); Do (Set_ 2 (Par 2)); Do (Add 1); IfPtr 3 [Loop 3 3 4]; Do (SizeVar)].
(* src/events/vscp_evt_diagnostic.c:2886-2920 vscp_evt_diagnostic_sendDecryptionFailure *)
Definition evt_diagnostic_sendDecryptionFailure : Sender := mkSender "vscp_evt_diagnostic_sendDecryptionFailure" 506 59 3 [("index", PInt 1); ("zone", PInt 1); ("subZone", PInt 1); ("user", PBuf false); ("userSize", PSize)]
  [Do (Set_ 0 (Par 0)); Do (Add 1); Do (Set_ 1 (Par 1)); Do (Add 1); Do (Set_ 2 (Par 2)); Do (Add 1); IfPtr 3 [Loop 3 3 4]; Do (SizeVar)].
(* src/events/vscp_evt_diagnostic.c:2934-2968 vscp_evt_diagnostic_sendNoise *)
Definition evt_diagnostic_sendNoise : Sender := mkSender "vscp_evt_diagnostic_sendNoise" 506 60 3 [("index", PInt 1); ("zone", PInt 1); ("subZone", PInt 1); ("user", PBuf false); ("userSize", PSize)]
  [Do (Set_ 0 (Par 0)); Do (Add 1); Do (Set_ 1 (Par 1)); Do (Add 1); Do (Set_ 2 (Par 2)); Do (Add 1); IfPtr 3 [Loop 3 3 4]; Do (SizeVar)].
(* src/events/vscp_evt_diagnostic.c:2982-3016 vscp_evt_diagnostic_sendBootLoaderFailure *)
Definition evt_diagnostic_sendBootLoaderFailure : Sender := mkSender "vscp_evt_diagnostic_sendBootLoaderFailure" 506 61 3 [("index", PInt 1); ("zone", PInt 1); ("subZone", PInt 1); ("user", PBuf false); ("userSize", PSize)]
  [Do (Set_ 0 (Par 0)); Do (Add 1); Do (Set_ 1 (Par 1)); Do (Add 1); Do (Set_ 2 (Par 2)); Do (Add 1); IfPtr 3 [Loop 3 3 4]; Do (SizeVar)].
(* src/events/vscp_evt_diagnostic.c:3030-3064 vscp_evt_diagnostic_sendProgramFlowFailure *)
Definition evt_diagnostic_sendProgramFlowFailure : Sender := mkSender "vscp_evt_diagnostic_sendProgramFlowFailure" 506 62 3 [("index", PInt 1); ("zone", PInt 1); ("subZone", PInt 1); ("user", PBuf false); ("userSize", PSize)]
  [Do (Set_ 0 (Par 0)); Do (Add 1); Do (Set_ 1 (Par 1)); Do (Add 1); Do (Set_ 2 (Par 2)); Do (Add 1); IfPtr 3 [Loop 3 3 4]; Do (SizeVar)].
(* src/events/vscp_evt_diagnostic.c:3078-3112 vscp_evt_diagnostic_sendRtcFaiure *)
Definition evt_diagnostic_sendRtcFaiure : Sender := mkSender "vscp_evt_diagnostic_sendRtcFaiure" 506 63 3 [("index", PInt 1); ("zone", PInt 1); ("subZone", PInt 1); ("user", PBuf false); ("userSize", PSize)]
  [Do (Set_ 0 (Par 0)); Do (Add 1); Do (Set_ 1 (Par 1)); Do (Add 1); Do (Set_ 2 (Par 2)); Do (Add 1); IfPtr 3 [Loop 3 3 4]; Do (SizeVar)].
(* src/events/vscp_evt_diagnostic.c:3126-3160 vscp_evt_diagnostic_sendSystemTestFailure *)
Definition evt_diagnostic_sendSystemTestFailure : Sender := mkSender "vscp_evt_diagnostic_sendSystemTestFailure" 506 64 3 [("index", PInt 1); ("zone", PInt 1); ("subZone", PInt 1); ("user", PBuf false); ("userSize", PSize)]
  [Do (Set_ 0 (Par 0)); Do (Add 1); Do (Set_ 1 (Par 1)); Do (Add 1); Do (Set_ 2 (Par 2)); Do (Add 1); IfPtr 3 [Loop 3 3 4]; Do (SizeVar)].
(* src/events/vscp_evt_diagnostic.c:3174-3208 vscp_evt_diagnostic_sendSensorFailure *)
Definition evt_diagnostic_sendSensorFailure : Sender := mkSender "vscp_evt_diagnostic_sendSensorFailure" 506 65 3 [("index", PInt 1); ("zone", PInt 1); ("subZone", PInt 1); ("user", PBuf false); ("userSize", PSize)]
  [Do (Set_ 0 (Par 0)); Do (Add 1); Do (Set_ 1 (Par 1)); Do (Add 1); Do (Set_ 2 (Par 2)); Do (Add 1); IfPtr 3 [Loop 3 3 4]; Do (SizeVar)].
(* src/events/vscp_evt_diagnostic.c:3222-3256 vscp_evt_diagnostic_sendSafeStateEntered *)
Definition evt_diagnostic_sendSafeStateEntered : Sender := mkSender "vscp_evt_diagnostic_sendSafeStateEntered" 506 66 3 [("index", PInt 1); ("zone", PInt 1); ("subZone", PInt 1); ("user", PBuf false); ("userSize", PSize)]
  [Do (Set_ 0 (Par 0)); Do (Add 1); Do (Set_ 1 (Par 1)); Do (Add 1); Do (Set_ 2 (Par 2)); Do (Add 1); IfPtr 3 [Loop 3 3 4]; Do (SizeVar)].
(* src/events/vscp_evt_diagnostic.c:3270-3304 vscp_evt_diagnostic_sendSignalImplausible *)
Definition evt_diagnostic_sendSignalImplausible : Sender := mkSender "vscp_evt_diagnostic_sendSignalImplausible" 506 67 3 [("index", PInt 1); ("zone", PInt 1); ("subZone", PInt 1); ("user", PBuf false); ("userSize", PSize)]
  [Do (Set_ 0 (Par 0)); Do (Add 1); Do (Set_ 1 (Par 1)); Do (Add 1); Do (Set_ 2 (Par 2)); Do (Add 1); IfPtr 3 [Loop 3 3 4]; Do (SizeVar)].
(* src/events/vscp_evt_diagnostic.c:3318-3352 vscp_evt_diagnostic_sendStorageFail *)
Definition evt_diagnostic_sendStorageFail : Sender := mkSender "vscp_evt_diagnostic_sendStorageFail" 506 68 3 [("index", PInt 1); ("zone", PInt 1); ("subZone", PInt 1); ("user", PBuf false); ("userSize", PSize)]
  [Do (Set_ 0 (Par 0)); Do (Add 1); Do (Set_ 1 (Par 1)); Do (Add 1); Do (Set_ 2 (Par 2)); Do (Add 1); IfPtr 3 [Loop 3 3 4]; Do (SizeVar)].
(* src/events/vscp_evt_diagnostic.c:3366-3400 vscp_evt_diagnostic_sendSelfTestOk *)
Definition evt_diagnostic_sendSelfTestOk : Sender := mkSender "vscp_evt_diagnostic_sendSelfTestOk" 506 69 3 [("index", PInt 1); ("zone", PInt 1); ("subZone", PInt 1); ("user", PBuf false); ("userSize", PSize)]
  [Do (Set_ 0 (Par 0)); Do (Add 1); Do (Set_ 1 (Par 1)); Do (Add 1); Do (Set_ 2 (Par 2)); Do (Add 1); IfPtr 3 [Loop 3 3 4]; Do (SizeVar)].
(* src/events/vscp_evt_diagnostic.c:3414-3448 vscp_evt_diagnostic_sendEsdEmcEmiFailure *)
Definition evt_diagnostic_sendEsdEmcEmiFailure : Sender := mkSender "vscp_evt_diagnostic_sendEsdEmcEmiFailure" 506 70 3 [("index", PInt 1); ("zone", PInt 1); ("subZone", PInt 1); ("user", PBuf false); ("userSize", PSize)]
  [Do (Set_ 0 (Par 0)); Do (Add 1); Do (Set_ 1 (Par 1)); Do (Add 1); Do (Set_ 2 (Par 2)); Do (Add 1); IfPtr 3 [Loop 3 3 4]; Do (SizeVar)].
(* src/events/vscp_evt_diagnostic.c:3462-3496 vscp_evt_diagnostic_sendTimeout *)
Definition evt_diagnostic_sendTimeout : Sender := mkSender "vscp_evt_diagnostic_sendTimeout" 506 71 3 [("index", PInt 1); ("zone", PInt 1); ("subZone", PInt 1); ("user", PBuf false); ("userSize", PSize)]
  [Do (Set_ 0 (Par 0)); Do (Add 1); Do (Set_ 1 (Par 1)); Do (Add 1); Do (Set_ 2 (Par 2)); Do (Add 1); IfPtr 3 [Loop 3 3 4]; Do (SizeVar)].
(* src/events/vscp_evt_diagnostic.c:3510-3544 vscp_evt_diagnostic_sendLcdFailure *)
Definition evt_diagnostic_sendLcdFailure : Sender := mkSender "vscp_evt_diagnostic_sendLcdFailure" 506 72 3 [("index", PInt 1); ("zone", PInt 1); ("subZone", PInt 1); ("user", PBuf false); ("userSize", PSize)]
  [Do (Set_ 0 (Par 0)); Do (Add 1); Do (Set_ 1 (Par 1)); Do (Add 1); Do (Set_ 2 (Par 2)); Do (Add 1); IfPtr 3 [Loop 3 3 4]; Do (SizeVar)].
(* src/events/vscp_evt_diagnostic.c:3558-3592 vscp_evt_diagnostic_sendTouchPanelFailure *)
Definition evt_diagnostic_sendTouchPanelFailure : Sender := mkSender "vscp_evt_diagnostic_sendTouchPanelFailure" 506 73 3 [("index", PInt 1); ("zone", PInt 1); ("subZone", PInt 1); ("user", PBuf false); ("userSize", PSize)]
  [Do (Set_ 0 (Par 0)); Do (Add 1); Do (Set_ 1 (Par 1)); Do (Add 1); Do (Set_ 2 (Par 2)); Do (Add 1); IfPtr 3 [Loop 3 3 4]; Do (SizeVar)].
(* src/events/vscp_evt_diagnostic.c:3606-3640 vscp_evt_diagnostic_sendNoLoad *)
Definition evt_diagnostic_sendNoLoad : Sender := mkSender "vscp_evt_diagnostic_sendNoLoad" 506 74 3 [("index", PInt 1); ("zone", PInt 1); ("subZone", PInt 1); ("user", PBuf false); ("userSize", PSize)]
  [Do (Set_ 0 (Par 0)); Do (Add 1); Do (Set_ 1 (Par 1)); Do (Add 1); Do (Set_ 2 (Par 2)); Do (Add 1); IfPtr 3 [Loop 3 3 4]; Do (SizeVar)].
(* src/events/vscp_evt_diagnostic.c:3654-3688 vscp_evt_diagnostic_sendCoolingFailure *)
Definition evt_diagnostic_sendCoolingFailure : Sender := mkSender "vscp_evt_diagnostic_sendCoolingFailure" 506 75 3 [("index", PInt 1); ("zone", PInt 1); ("subZone", PInt 1); ("user", PBuf false); ("userSize", PSize)]
  [Do (Set_ 0 (Par 0)); Do (Add 1); Do (Set_ 1 (Par 1)); Do (Add 1); Do (Set_ 2 (Par 2)); Do (Add 1); IfPtr 3 [Loop 3 3 4]; Do (SizeVar)].
(* src/events/vscp_evt_diagnostic.c:3702-3736 vscp_evt_diagnostic_sendHeatingFailure *)
Definition evt_diagnostic_sendHeatingFailure : Sender := mkSender "vscp_evt_diagnostic_sendHeatingFailure" 506 76 3 [("index", PInt 1); ("zone", PInt 1); ("subZone", PInt 1); ("user", PBuf false); ("userSize", PSize)]
  [Do (Set_ 0 (Par 0)); Do (Add 1); Do (Set_ 1 (Par 1)); Do (Add 1); Do (Set_ 2 (Par 2)); Do (Add 1); IfPtr 3 [Loop 3 3 4]; Do (SizeVar)].
(* src/events/vscp_evt_diagnostic.c:3750-3784 vscp_evt_diagnostic_sendTransmissionFailure *)
Definition evt_diagnostic_sendTransmissionFailure : Sender := mkSender "vscp_evt_diagnostic_sendTransmissionFailure" 506 77 3 [("index", PInt 1); ("zone", PInt 1); ("subZone", PInt 1); ("user", PBuf false); ("userSize", PSize)]
  [Do (Set_ 0 (Par 0)); Do (Add 1); Do (Set_ 1 (Par 1)); Do (Add 1); Do (Set_ 2 (Par 2)); Do (Add 1); IfPtr 3 [Loop 3 3 4]; Do (SizeVar)].
(* src/events/vscp_evt_diagnostic.c:3798-3832 vscp_evt_diagnostic_sendReceiptionFailure *)
Definition evt_diagnostic_sendReceiptionFailure : Sender := mkSender "vscp_evt_diagnostic_sendReceiptionFailure" 506 78 3 [("index", PInt 1); ("zone", PInt 1); ("subZone", PInt 1); ("user", PBuf false); ("userSize", PSize)]
  [Do (Set_ 0 (Par 0)); Do (Add 1); Do (Set_ 1 (Par 1)); Do (Add 1); Do (Set_ 2 (Par 2)); Do (Add 1); IfPtr 3 [Loop 3 3 4]; Do (SizeVar)].
(* src/events/vscp_evt_diagnostic.c:3846-3880 vscp_evt_diagnostic_sendExternalIcFailure *)
Definition evt_diagnostic_sendExternalIcFailure : Sender := mkSender "vscp_evt_diagnostic_sendExternalIcFailure" 506 79 3 [("index", PInt 1); ("zone", PInt 1); ("subZone", PInt 1); ("user", PBuf false); ("userSize", PSize)]
  [Do (Set_ 0 (Par 0)); Do (Add 1); Do (Set_ 1 (Par 1)); Do (Add 1); Do (Set_ 2 (Par 2)); Do (Add 1); IfPtr 3 [Loop 3 3 4]; Do (SizeVar)].
(* src/events/vscp_evt_diagnostic.c:3894-3928 vscp_evt_diagnostic_sendChargingOn *)
Definition evt_diagnostic_sendChargingOn : Sender := mkSender "vscp_evt_diagnostic_sendChargingOn" 506 80 3 [("index", PInt 1); ("zone", PInt 1); ("subZone", PInt 1); ("user", PBuf false); ("userSize", PSize)]
  [Do (Set_ 0 (Par 0)); Do (Add 1); Do (Set_ 1 (Par 1)); Do (Add 1); Do (Set_ 2 (Par 2)); Do (Add 1); IfPtr 3 [Loop 3 3 4]; Do (SizeVar)].
(* src/events/vscp_evt_diagnostic.c:3942-3976 vscp_evt_diagnostic_sendChargingOff *)
Definition evt_diagnostic_sendChargingOff : Sender := mkSender "vscp_evt_diagnostic_sendChargingOff" 506 81 3 [("index", PInt 1); ("zone", PInt 1); ("subZone", PInt 1); ("user", PBuf false); ("userSize", PSize)]
  [Do (Set_ 0 (Par 0)); Do (Add 1); Do (Set_ 1 (Par 1)); Do (Add 1); Do (Set_ 2 (Par 2)); Do (Add 1); IfPtr 3 [Loop 3 3 4]; Do (SizeVar)].
(* src/events/vscp_evt_display.c:79-88 vscp_evt_display_sendGeneralEvent *)
Definition evt_display_sendGeneralEvent : Sender := mkSender "vscp_evt_display_sendGeneralEvent" 102 0 3 []
  [Do (SizeIs 0)].
(* src/events/vscp_evt_display.c:99-118 vscp_evt_display_sendClearDisplay *)
Definition evt_display_sendClearDisplay : Sender := mkSender "vscp_evt_display_sendClearDisplay" 102 1 3 [("code", PInt 1); ("zone", PInt 1); ("subZone", PInt 1)]
  [Do (Set_ 0 (Par 0)); Do (Add 1); Do (Set_ 1 (Par 1)); Do (Add 1); Do (Set_ 2 (Par 2)); Do (Add 1); Do (SizeVar)].
(* src/events/vscp_evt_display.c:131-156 vscp_evt_display_sendPositionCursor *)
Definition evt_display_sendPositionCursor : Sender := mkSender "vscp_evt_display_sendPositionCursor" 102 2 3 [("index", PInt 1); ("zone", PInt 1); ("subZone", PInt 1); ("row", PInt 1); ("column", PInt 1)]
  [Do (Set_ 0 (Par 0)); Do (Add 1); Do (Set_ 1 (Par 1)); Do (Add 1); Do (Set_ 2 (Par 2)); Do (Add 1); Do (Set_ 3 (Par 3)); Do (Add 1); Do (Set_ 4 (Par 4)); Do (Add 1); Do (SizeVar)].
(* src/events/vscp_evt_display.c:169-205 vscp_evt_display_sendWriteDisplay *)
Definition evt_display_sendWriteDisplay : Sender := mkSender "vscp_evt_display_sendWriteDisplay" 102 3 3 [("index", PInt 1); ("zone", PInt 1); ("subZone", PInt 1); ("data", PBuf true); ("dataSize", PSize)]
  [Guard 3 4; Do (Set_ 0 (Par 0)); Do (Add 1); Do (Set_ 1 (Par 1)); Do (Add 1); Do (Set_ 2 (Par 2)); Do (Add 1); Do (Loop 3 3 4); Do (SizeVar)].
(* src/events/vscp_evt_display.c:218-254 vscp_evt_display_sendWriteDisplayBuffer *)
Definition evt_display_sendWriteDisplayBuffer : Sender := mkSender "vscp_evt_display_sendWriteDisplayBuffer" 102 4 3 [("index", PInt 1); ("zone", PInt 1); ("subZone", PInt 1); ("data", PBuf true); ("dataSize", PSize)]
  [Guard 3 4; Do (Set_ 0 (Par 0)); Do (Add 1); Do (Set_ 1 (Par 1)); Do (Add 1); Do (Set_ 2 (Par 2)); Do (Add 1); Do (Loop 3 3 4); Do (SizeVar)].
(* src/events/vscp_evt_display.c:265-284 vscp_evt_display_sendShowDisplayBuffer *)
Definition evt_display_sendShowDisplayBuffer : Sender := mkSender "vscp_evt_display_sendShowDisplayBuffer" 102 5 3 [("index", PInt 1); ("zone", PInt 1); ("subZone", PInt 1)]
  [Do (Set_ 0 (Par 0)); Do (Add 1); Do (Set_ 1 (Par 1)); Do (Add 1); Do (Set_ 2 (Par 2)); Do (Add 1); Do (SizeVar)].
(* src/events/vscp_evt_display.c:296-329 vscp_evt_display_sendSetDisplayBufferParameter *)
Definition evt_display_sendSetDisplayBufferParameter : Sender := mkSender "vscp_evt_display_sendSetDisplayBufferParameter" 102 6 3 [("index", PInt 1); ("coding", PInt 1); ("data", PBuf true); ("dataSize", PSize)]
  [Guard 2 3; Do (Set_ 0 (Par 0)); Do (Add 1); Do (Set_ 1 (Par 1)); Do (Add 1); Do (Loop 2 2 3); Do (SizeVar)].
(* src/events/vscp_evt_display.c:342-378 vscp_evt_display_sendShowText *)
Definition evt_display_sendShowText : Sender := mkSender "vscp_evt_display_sendShowText" 102 32 3 [("index", PInt 1); ("zone", PInt 1); ("subZone", PInt 1); ("event", PBuf true); ("eventSize", PSize)]
  [Guard 3 4; Do (Set_ 0 (Par 0)); Do (Add 1); Do (Set_ 1 (Par 1)); Do (Add 1); Do (Set_ 2 (Par 2)); Do (Add 1); Do (Loop 3 3 4); Do (SizeVar)].
(* src/events/vscp_evt_display.c:392-422 vscp_evt_display_sendSetLed *)
Definition evt_display_sendSetLed : Sender := mkSender "vscp_evt_display_sendSetLed" 102 48 3 [("index", PInt 1); ("zone", PInt 1); ("subZone", PInt 1); ("state", PInt 1); ("blinkOnPeriod", PInt 2); ("blinkOffPeriod", PInt 2)]
  [Do (Set_ 0 (Par 0)); Do (Add 1); Do (Set_ 1 (Par 1)); Do (Add 1); Do (Set_ 2 (Par 2)); Do (Add 1); Do (Set_ 3 (Par 3)); Do (Add 1); Do (Set_ 4 (Shift 4 8)); Do (Set_ 5 (Shift 4 0)); Do (Add 2); Do (Set_ 6 (Shift 5 8)); Do (Set_ 7 (Shift 5 0)); Do (Add 2); Do (SizeVar)].
(* src/events/vscp_evt_display.c:436-464 vscp_evt_display_sendSetRgbColor *)
Definition evt_display_sendSetRgbColor : Sender := mkSender "vscp_evt_display_sendSetRgbColor" 102 49 3 [("index", PInt 1); ("zone", PInt 1); ("subZone", PInt 1); ("red", PInt 1); ("green", PInt 1); ("blue", PInt 1)]
  [Do (Set_ 0 (Par 0)); Do (Add 1); Do (Set_ 1 (Par 1)); Do (Add 1); Do (Set_ 2 (Par 2)); Do (Add 1); Do (Set_ 3 (Par 3)); Do (Add 1); Do (Set_ 4 (Par 4)); Do (Add 1); Do (Set_ 5 (Par 5)); Do (Add 1); Do (SizeVar)].
(* src/events/vscp_evt_error.c:86-120 vscp_evt_error_sendSuccess *)
Definition evt_error_sendSuccess : Sender := mkSender "vscp_evt_error_sendSuccess" 508 0 3 [("index", PInt 1); ("zone", PInt 1); ("subZone", PInt 1); ("user", PBuf false); ("userSize", PSize)]
  [Do (Set_ 0 (Par 0)); Do (Add 1); Do (Set_ 1 (Par 1)); Do (Add 1); Do (Set_ 2 (Par 2)); Do (Add 1); IfPtr 3 [Loop 3 3 4]; Do (SizeVar)].
(* src/events/vscp_evt_error.c:134-168 vscp_evt_error_sendError *)
Definition evt_error_sendError : Sender := mkSender "vscp_evt_error_sendError" 508 1 3 [("index", PInt 1); ("zone", PInt 1); ("subZone", PInt 1); ("user", PBuf false); ("userSize", PSize)]
  [Do (Set_ 0 (Par 0)); Do (Add 1); Do (Set_ 1 (Par 1)); Do (Add 1); Do (Set_ 2 (Par 2)); Do (Add 1); IfPtr 3 [Loop 3 3 4]; Do (SizeVar)].
(* src/events/vscp_evt_error.c:182-216 vscp_evt_error_sendChannelError *)
Definition evt_error_sendChannelError : Sender := mkSender "vscp_evt_error_sendChannelError" 508 7 3 [("index", PInt 1); ("zone", PInt 1); ("subZone", PInt 1); ("user", PBuf false); ("userSize", PSize)]
  [Do (Set_ 0 (Par 0)); Do (Add 1); Do (Set_ 1 (Par 1)); Do (Add 1); Do (Set_ 2 (Par 2)); Do (Add 1); IfPtr 3 [Loop 3 3 4]; Do (SizeVar)].
(* src/events/vscp_evt_error.c:230-264 vscp_evt_error_sendFifoEmptyError *)
Definition evt_error_sendFifoEmptyError : Sender := mkSender "vscp_evt_error_sendFifoEmptyError" 508 8 3 [("index", PInt 1); ("zone", PInt 1); ("subZone", PInt 1); ("user", PBuf false); ("userSize", PSize)]
  [Do (Set_ 0 (Par 0)); Do (Add 1); Do (Set_ 1 (Par 1)); Do (Add 1); Do (Set_ 2 (Par 2)); Do (Add 1); IfPtr 3 [Loop 3 3 4]; Do (SizeVar)].
(* src/events/vscp_evt_error.c:278-312 vscp_evt_error_sendFifoFullError *)
Definition evt_error_sendFifoFullError : Sender := mkSender "vscp_evt_error_sendFifoFullError" 508 9 3 [("index", PInt 1); ("zone", PInt 1); ("subZone", PInt 1); ("user", PBuf false); ("userSize", PSize)]
  [Do (Set_ 0 (Par 0)); Do (Add 1); Do (Set_ 1 (Par 1)); Do (Add 1); Do (Set_ 2 (Par 2)); Do (Add 1); IfPtr 3 [Loop 3 3 4]; Do (SizeVar)].
(* src/events/vscp_evt_error.c:326-360 vscp_evt_error_sendFifoSizeError *)
Definition evt_error_sendFifoSizeError : Sender := mkSender "vscp_evt_error_sendFifoSizeError" 508 10 3 [("index", PInt 1); ("zone", PInt 1); ("subZone", PInt 1); ("user", PBuf false); ("userSize", PSize)]
  [Do (Set_ 0 (Par 0)); Do (Add 1); Do (Set_ 1 (Par 1)); Do (Add 1); Do (Set_ 2 (Par 2)); Do (Add 1); IfPtr 3 [Loop 3 3 4]; Do (SizeVar)].
(* src/events/vscp_evt_error.c:374-408 vscp_evt_error_sendFifoWaitError *)
Definition evt_error_sendFifoWaitError : Sender := mkSender "vscp_evt_error_sendFifoWaitError" 508 11 3 [("index", PInt 1); ("zone", PInt 1); ("subZone", PInt 1); ("user", PBuf false); ("userSize", PSize)]
  [Do (Set_ 0 (Par 0)); Do (Add 1); Do (Set_ 1 (Par 1)); Do (Add 1); Do (Set_ 2 (Par 2)); Do (Add 1); IfPtr 3 [Loop 3 3 4]; Do (SizeVar)].
(* src/events/vscp_evt_error.c:422-456 vscp_evt_error_sendGenericError *)
Definition evt_error_sendGenericError : Sender := mkSender "vscp_evt_error_sendGenericError" 508 12 3 [("index", PInt 1); ("zone", PInt 1); ("subZone", PInt 1); ("user", PBuf false); ("userSize", PSize)]
  [Do (Set_ 0 (Par 0)); Do (Add 1); Do (Set_ 1 (Par 1)); Do (Add 1); Do (Set_ 2 (Par 2)); Do (Add 1); IfPtr 3 [Loop 3 3 4]; Do (SizeVar)].
(* src/events/vscp_evt_error.c:470-504 vscp_evt_error_sendHardwareError *)
Definition evt_error_sendHardwareError : Sender := mkSender "vscp_evt_error_sendHardwareError" 508 13 3 [("index", PInt 1); ("zone", PInt 1); ("subZone", PInt 1); ("user", PBuf false); ("userSize", PSize)]
  [Do (Set_ 0 (Par 0)); Do (Add 1); Do (Set_ 1 (Par 1)); Do (Add 1); Do (Set_ 2 (Par 2)); Do (Add 1); IfPtr 3 [Loop 3 3 4]; Do (SizeVar)].
(* src/events/vscp_evt_error.c:518-552 vscp_evt_error_sendInitializationError *)
Definition evt_error_sendInitializationError : Sender := mkSender "vscp_evt_error_sendInitializationError" 508 14 3 [("index", PInt 1); ("zone", PInt 1); ("subZone", PInt 1); ("user", PBuf false); ("userSize", PSize)]
  [Do (Set_ 0 (Par 0)); Do (Add 1); Do (Set_ 1 (Par 1)); Do (Add 1); Do (Set_ 2 (Par 2)); Do (Add 1); IfPtr 3 [Loop 3 3 4]; Do (SizeVar)].
(* src/events/vscp_evt_error.c:566-600 vscp_evt_error_sendMissingInitializationError *)
Definition evt_error_sendMissingInitializationError : Sender := mkSender "vscp_evt_error_sendMissingInitializationError" 508 15 3 [("index", PInt 1); ("zone", PInt 1); ("subZone", PInt 1); ("user", PBuf false); ("userSize", PSize)]
  [Do (Set_ 0 (Par 0)); Do (Add 1); Do (Set_ 1 (Par 1)); Do (Add 1); Do (Set_ 2 (Par 2)); Do (Add 1); IfPtr 3 [Loop 3 3 4]; Do (SizeVar)].
(* src/events/vscp_evt_error.c:614-648 vscp_evt_error_sendInitializationReady *)
Definition evt_error_sendInitializationReady : Sender := mkSender "vscp_evt_error_sendInitializationReady" 508 16 3 [("index", PInt 1); ("zone", PInt 1); ("subZone", PInt 1); ("user", PBuf false); ("userSize", PSize)]
  [Do (Set_ 0 (Par 0)); Do (Add 1); Do (Set_ 1 (Par 1)); Do (Add 1); Do (Set_ 2 (Par 2)); Do (Add 1); IfPtr 3 [Loop 3 3 4]; Do (SizeVar)].
(* src/events/vscp_evt_error.c:662-696 vscp_evt_error_sendNotSupported *)
Definition evt_error_sendNotSupported : Sender := mkSender "vscp_evt_error_sendNotSupported" 508 17 3 [("index", PInt 1); ("zone", PInt 1); ("subZone", PInt 1); ("user", PBuf false); ("userSize", PSize)]
  [Do (Set_ 0 (Par 0)); Do (Add 1); Do (Set_ 1 (Par 1)); Do (Add 1); Do (Set_ 2 (Par 2)); Do (Add 1); IfPtr 3 [Loop 3 3 4]; Do (SizeVar)].
(* src/events/vscp_evt_error.c:710-744 vscp_evt_error_sendOverrunError *)
Definition evt_error_sendOverrunError : Sender := mkSender "vscp_evt_error_sendOverrunError" 508 18 3 [("index", PInt 1); ("zone", PInt 1); ("subZone", PInt 1); ("user", PBuf false); ("userSize", PSize)]
  [Do (Set_ 0 (Par 0)); Do (Add 1); Do (Set_ 1 (Par 1)); Do (Add 1); Do (Set_ 2 (Par 2)); Do (Add 1); IfPtr 3 [Loop 3 3 4]; Do (SizeVar)].
(* src/events/vscp_evt_error.c:758-792 vscp_evt_error_sendReceiverEmptyError *)
Definition evt_error_sendReceiverEmptyError : Sender := mkSender "vscp_evt_error_sendReceiverEmptyError" 508 19 3 [("index", PInt 1); ("zone", PInt 1); ("subZone", PInt 1); ("user", PBuf false); ("userSize", PSize)]
  [Do (Set_ 0 (Par 0)); Do (Add 1); Do (Set_ 1 (Par 1)); Do (Add 1); Do (Set_ 2 (Par 2)); Do (Add 1); IfPtr 3 [Loop 3 3 4]; Do (SizeVar)].
(* src/events/vscp_evt_error.c:806-840 vscp_evt_error_sendRegisterError *)
Definition evt_error_sendRegisterError : Sender := mkSender "vscp_evt_error_sendRegisterError" 508 20 3 [("index", PInt 1); ("zone", PInt 1); ("subZone", PInt 1); ("user", PBuf false); ("userSize", PSize)]
  [Do (Set_ 0 (Par 0)); Do (Add 1); Do (Set_ 1 (Par 1)); Do (Add 1); Do (Set_ 2 (Par 2)); Do (Add 1); IfPtr 3 [Loop 3 3 4]; Do (SizeVar)].
(* src/events/vscp_evt_error.c:854-888 vscp_evt_error_sendTransmitterFullError *)
Definition evt_error_sendTransmitterFullError : Sender := mkSender "vscp_evt_error_sendTransmitterFullError" 508 21 3 [("index", PInt 1); ("zone", PInt 1); ("subZone", PInt 1); ("user", PBuf false); ("userSize", PSize)]
  [Do (Set_ 0 (Par 0)); Do (Add 1); Do (Set_ 1 (Par 1)); Do (Add 1); Do (Set_ 2 (Par 2)); Do (Add 1); IfPtr 3 [Loop 3 3 4]; Do (SizeVar)].
(* src/events/vscp_evt_error.c:902-936 vscp_evt_error_sendLibraryError *)
Definition evt_error_sendLibraryError : Sender := mkSender "vscp_evt_error_sendLibraryError" 508 28 3 [("index", PInt 1); ("zone", PInt 1); ("subZone", PInt 1); ("user", PBuf false); ("userSize", PSize)]
  [Do (Set_ 0 (Par 0)); Do (Add 1); Do (Set_ 1 (Par 1)); Do (Add 1); Do (Set_ 2 (Par 2)); Do (Add 1); IfPtr 3 [Loop 3 3 4]; Do (SizeVar)].
(* src/events/vscp_evt_error.c:950-984 vscp_evt_error_sendProceduralAddressError *)
Definition evt_error_sendProceduralAddressError : Sender := mkSender "vscp_evt_error_sendProceduralAddressError" 508 29 3 [("index", PInt 1); ("zone", PInt 1); ("subZone", PInt 1); ("user", PBuf false); ("userSize", PSize)]
  [Do (Set_ 0 (Par 0)); Do (Add 1); Do (Set_ 1 (Par 1)); Do (Add 1); Do (Set_ 2 (Par 2)); Do (Add 1); IfPtr 3 [Loop 3 3 4]; Do (SizeVar)].
(* src/events/vscp_evt_error.c:998-1032 vscp_evt_error_sendOnlyOneInstanceError *)
Definition evt_error_sendOnlyOneInstanceError : Sender := mkSender "vscp_evt_error_sendOnlyOneInstanceError" 508 30 3 [("index", PInt 1); ("zone", PInt 1); ("subZone", PInt 1); ("user", PBuf false); ("userSize", PSize)]
  [Do (Set_ 0 (Par 0)); Do (Add 1); Do (Set_ 1 (Par 1)); Do (Add 1); Do (Set_ 2 (Par 2)); Do (Add 1); IfPtr 3 [Loop 3 3 4]; Do (SizeVar)].
(* src/events/vscp_evt_error.c:1046-1080 vscp_evt_error_sendSubDriverError *)
Definition evt_error_sendSubDriverError : Sender := mkSender "vscp_evt_error_sendSubDriverError" 508 31 3 [("index", PInt 1); ("zone", PInt 1); ("subZone", PInt 1); ("user", PBuf false); ("userSize", PSize)]
  [Do (Set_ 0 (Par 0)); Do (Add 1); Do (Set_ 1 (Par 1)); Do (Add 1); Do (Set_ 2 (Par 2)); Do (Add 1); IfPtr 3 [Loop 3 3 4]; Do (SizeVar)].
(* src/events/vscp_evt_error.c:1094-1128 vscp_evt_error_sendTimeoutError *)
Definition evt_error_sendTimeoutError : Sender := mkSender "vscp_evt_error_sendTimeoutError" 508 32 3 [("index", PInt 1); ("zone", PInt 1); ("subZone", PInt 1); ("user", PBuf false); ("userSize", PSize)]
  [Do (Set_ 0 (Par 0)); Do (Add 1); Do (Set_ 1 (Par 1)); Do (Add 1); Do (Set_ 2 (Par 2)); Do (Add 1); IfPtr 3 [Loop 3 3 4]; Do (SizeVar)].
(* src/events/vscp_evt_error.c:1142-1176 vscp_evt_error_sendNotOpenError *)
Definition evt_error_sendNotOpenError : Sender := mkSender "vscp_evt_error_sendNotOpenError" 508 33 3 [("index", PInt 1); ("zone", PInt 1); ("subZone", PInt 1); ("user", PBuf false); ("userSize", PSize)]
  [Do (Set_ 0 (Par 0)); Do (Add 1); Do (Set_ 1 (Par 1)); Do (Add 1); Do (Set_ 2 (Par 2)); Do (Add 1); IfPtr 3 [Loop 3 3 4]; Do (SizeVar)].
(* src/events/vscp_evt_error.c:1190-1224 vscp_evt_error_sendParameterError *)
Definition evt_error_sendParameterError : Sender := mkSender "vscp_evt_error_sendParameterError" 508 34 3 [("index", PInt 1); ("zone", PInt 1); ("subZone", PInt 1); ("user", PBuf false); ("userSize", PSize)]
  [Do (Set_ 0 (Par 0)); Do (Add 1); Do (Set_ 1 (Par 1)); Do (Add 1); Do (Set_ 2 (Par 2)); Do (Add 1); IfPtr 3 [Loop 3 3 4]; Do (SizeVar)].
(* src/events/vscp_evt_error.c:1238-1272 vscp_evt_error_sendMemoryError *)
Definition evt_error_sendMemoryError : Sender := mkSender "vscp_evt_error_sendMemoryError" 508 35 3 [("index", PInt 1); ("zone", PInt 1); ("subZone", PInt 1); ("user", PBuf false); ("userSize", PSize)]
  [Do (Set_ 0 (Par 0)); Do (Add 1); Do (Set_ 1 (Par 1)); Do (Add 1); Do (Set_ 2 (Par 2)); Do (Add 1); IfPtr 3 [Loop 3 3 4]; Do (SizeVar)].
(* src/events/vscp_evt_error.c:1286-1320 vscp_evt_error_sendInternalError *)
Definition evt_error_sendInternalError : Sender := mkSender "vscp_evt_error_sendInternalError" 508 36 3 [("index", PInt 1); ("zone", PInt 1); ("subZone", PInt 1); ("user", PBuf false); ("userSize", PSize)]
  [Do (Set_ 0 (Par 0)); Do (Add 1); Do (Set_ 1 (Par 1)); Do (Add 1); Do (Set_ 2 (Par 2)); Do (Add 1); IfPtr 3 [Loop 3 3 4]; Do (SizeVar)].
(* src/events/vscp_evt_error.c:1334-1368 vscp_evt_error_sendCommunicationError *)
Definition evt_error_sendCommunicationError : Sender := mkSender "vscp_evt_error_sendCommunicationError" 508 37 3 [("index", PInt 1); ("zone", PInt 1); ("subZone", PInt 1); ("user", PBuf false); ("userSize", PSize)]
  [Do (Set_ 0 (Par 0)); Do (Add 1); Do (Set_ 1 (Par 1)); Do (Add 1); Do (Set_ 2 (Par 2)); Do (Add 1); IfPtr 3 [Loop 3 3 4]; Do (SizeVar)].
(* src/events/vscp_evt_error.c:1382-1416 vscp_evt_error_sendUserError *)
Definition evt_error_sendUserError : Sender := mkSender "vscp_evt_error_sendUserError" 508 38 3 [("index", PInt 1); ("zone", PInt 1); ("subZone", PInt 1); ("user", PBuf false); ("userSize", PSize)]
  [Do (Set_ 0 (Par 0)); Do (Add 1); Do (Set_ 1 (Par 1)); Do (Add 1); Do (Set_ 2 (Par 2)); Do (Add 1); IfPtr 3 [Loop 3 3 4]; Do (SizeVar)].
(* src/events/vscp_evt_error.c:1430-1464 vscp_evt_error_sendPasswordError *)
Definition evt_error_sendPasswordError : Sender := mkSender "vscp_evt_error_sendPasswordError" 508 39 3 [("index", PInt 1); ("zone", PInt 1); ("subZone", PInt 1); ("user", PBuf false); ("userSize", PSize)]
  [Do (Set_ 0 (Par 0)); Do (Add 1); Do (Set_ 1 (Par 1)); Do (Add 1); Do (Set_ 2 (Par 2)); Do (Add 1); IfPtr 3 [Loop 3 3 4]; Do (SizeVar)].
(* src/events/vscp_evt_error.c:1478-1512 vscp_evt_error_sendConnectionError *)
Definition evt_error_sendConnectionError : Sender := mkSender "vscp_evt_error_sendConnectionError" 508 40 3 [("index", PInt 1); ("zone", PInt 1); ("subZone", PInt 1); ("user", PBuf false); ("userSize", PSize)]
  [Do (Set_ 0 (Par 0)); Do (Add 1); Do (Set_ 1 (Par 1)); Do (Add 1); Do (Set_ 2 (Par 2)); Do (Add 1); IfPtr 3 [Loop 3 3 4]; Do (SizeVar)].
(* src/events/vscp_evt_error.c:1526-1560 vscp_evt_error_sendInvalidHandleError *)
Definition evt_error_sendInvalidHandleError : Sender := mkSender "vscp_evt_error_sendInvalidHandleError" 508 41 3 [("index", PInt 1); ("zone", PInt 1); ("subZone", PInt 1); ("user", PBuf false); ("userSize", PSize)]
  [Do (Set_ 0 (Par 0)); Do (Add 1); Do (Set_ 1 (Par 1)); Do (Add 1); Do (Set_ 2 (Par 2)); Do (Add 1); IfPtr 3 [Loop 3 3 4]; Do (SizeVar)].
(* src/events/vscp_evt_error.c:1574-1608 vscp_evt_error_sendOperationFailedError *)
Definition evt_error_sendOperationFailedError : Sender := mkSender "vscp_evt_error_sendOperationFailedError" 508 42 3 [("index", PInt 1); ("zone", PInt 1); ("subZone", PInt 1); ("user", PBuf false); ("userSize", PSize)]
  [Do (Set_ 0 (Par 0)); Do (Add 1); Do (Set_ 1 (Par 1)); Do (Add 1); Do (Set_ 2 (Par 2)); Do (Add 1); IfPtr 3 [Loop 3 3 4]; Do (SizeVar)].
(* src/events/vscp_evt_error.c:1622-1656 vscp_evt_error_sendSuppliedBufferIsToSmallToFitContent *)
Definition evt_error_sendSuppliedBufferIsToSmallToFitContent : Sender := mkSender "vscp_evt_error_sendSuppliedBufferIsToSmallToFitContent" 508 43 3 [("index", PInt 1); ("zone", PInt 1); ("subZone", PInt 1); ("user", PBuf false); ("userSize", PSize)]
  [Do (Set_ 0 (Par 0)); Do (Add 1); Do (Set_ 1 (Par 1)); Do (Add 1); Do (Set_ 2 (Par 2)); Do (Add 1); IfPtr 3 [Loop 3 3 4]; Do (SizeVar)].
(* src/events/vscp_evt_error.c:1670-1704 vscp_evt_error_sendRequestedItemIsUnknown *)
Definition evt_error_sendRequestedItemIsUnknown : Sender := mkSender "vscp_evt_error_sendRequestedItemIsUnknown" 508 44 3 [("index", PInt 1); ("zone", PInt 1); ("subZone", PInt 1); ("user", PBuf false); ("userSize", PSize)]
  [Do (Set_ 0 (Par 0)); Do (Add 1); Do (Set_ 1 (Par 1)); Do (Add 1); Do (Set_ 2 (Par 2)); Do (Add 1); IfPtr 3 [Loop 3 3 4]; Do (SizeVar)].
(* src/events/vscp_evt_error.c:1718-1752 vscp_evt_error_sendNameIsAlreadyInUse *)
Definition evt_error_sendNameIsAlreadyInUse : Sender := mkSender "vscp_evt_error_sendNameIsAlreadyInUse" 508 45 3 [("index", PInt 1); ("zone", PInt 1); ("subZone", PInt 1); ("user", PBuf false); ("userSize", PSize)]
  [Do (Set_ 0 (Par 0)); Do (Add 1); Do (Set_ 1 (Par 1)); Do (Add 1); Do (Set_ 2 (Par 2)); Do (Add 1); IfPtr 3 [Loop 3 3 4]; Do (SizeVar)].
(* src/events/vscp_evt_error.c:1766-1800 vscp_evt_error_sendErrorWhenWritingData *)
Definition evt_error_sendErrorWhenWritingData : Sender := mkSender "vscp_evt_error_sendErrorWhenWritingData" 508 46 3 [("index", PInt 1); ("zone", PInt 1); ("subZone", PInt 1); ("user", PBuf false); ("userSize", PSize)]
  [Do (Set_ 0 (Par 0)); Do (Add 1); Do (Set_ 1 (Par 1)); Do (Add 1); Do (Set_ 2 (Par 2)); Do (Add 1); IfPtr 3 [Loop 3 3 4]; Do (SizeVar)].
(* src/events/vscp_evt_error.c:1814-1848 vscp_evt_error_sendOperationStoppedOrAborted *)
Definition evt_error_sendOperationStoppedOrAborted : Sender := mkSender "vscp_evt_error_sendOperationStoppedOrAborted" 508 47 3 [("index", PInt 1); ("zone", PInt 1); ("subZone", PInt 1); ("user", PBuf false); ("userSize", PSize)]
  [Do (Set_ 0 (Par 0)); Do (Add 1); Do (Set_ 1 (Par 1)); Do (Add 1); Do (Set_ 2 (Par 2)); Do (Add 1); IfPtr 3 [Loop 3 3 4]; Do (SizeVar)].
(* src/events/vscp_evt_error.c:1862-1896 vscp_evt_error_sendPointerWithInvalidValue *)
Definition evt_error_sendPointerWithInvalidValue : Sender := mkSender "vscp_evt_error_sendPointerWithInvalidValue" 508 48 3 [("index", PInt 1); ("zone", PInt 1); ("subZone", PInt 1); ("user", PBuf false); ("userSize", PSize)]
  [Do (Set_ 0 (Par 0)); Do (Add 1); Do (Set_ 1 (Par 1)); Do (Add 1); Do (Set_ 2 (Par 2)); Do (Add 1); IfPtr 3 [Loop 3 3 4]; Do (SizeVar)].
(* src/events/vscp_evt_gnss.c:79-88 vscp_evt_gnss_sendGeneralEvent *)
Definition evt_gnss_sendGeneralEvent : Sender := mkSender "vscp_evt_gnss_sendGeneralEvent" 206 0 3 []
  [Do (SizeIs 0)].
(* src/events/vscp_evt_gnss.c:98-120 vscp_evt_gnss_sendPosition *)
Definition evt_gnss_sendPosition : Sender := mkSender "vscp_evt_gnss_sendPosition" 206 1 3 [("latitude", PFloat); ("longitude", PFloat)]
  [Do (Set_ 0 (Byte 0 4 3)); Do (Set_ 1 (Byte 0 4 2)); Do (Set_ 2 (Byte 0 4 1)); Do (Set_ 3 (Byte 0 4 0)); Do (Add 4); Do (Set_ 4 (Byte 1 4 3)); Do (Set_ 5 (Byte 1 4 2)); Do (Set_ 6 (Byte 1 4 1)); Do (Set_ 7 (Byte 1 4 0)); Do (Add 4); Do (SizeVar)].
(* src/events/vscp_evt_gnss.c:129-142 vscp_evt_gnss_sendSatellites *)
Definition evt_gnss_sendSatellites : Sender := mkSender "vscp_evt_gnss_sendSatellites" 206 2 3 [("count", PInt 1)]
  [Do (Set_ 0 (Par 0)); Do (Add 1); Do (SizeVar)].
(* src/events/vscp_evt_information.c:79-88 vscp_evt_information_sendGeneralEvent *)
Definition evt_information_sendGeneralEvent : Sender := mkSender "vscp_evt_information_sendGeneralEvent" 20 0 3 []
  [Do (SizeIs 0)].
(* src/events/vscp_evt_information.c:101-131 vscp_evt_information_sendButton *)
Definition evt_information_sendButton : Sender := mkSender "vscp_evt_information_sendButton" 20 1 3 [("buttonState", PInt 1); ("zone", PInt 1); ("subZone", PInt 1); ("buttonCode", PInt 2); ("codePage", PRef 2)]
  [Do (Set_ 0 (Par 0)); Do (Add 1); Do (Set_ 1 (Par 1)); Do (Add 1); Do (Set_ 2 (Par 2)); Do (Add 1); Do (Set_ 3 (Shift 3 8)); Do (Set_ 4 (Shift 3 0)); Do (Add 2); IfPtr 4 [Set_ 5 (Shift 4 8); Set_ 6 (Shift 4 0); Add 2]; Do (SizeVar)].
(* src/events/vscp_evt_information.c:145-172 vscp_evt_information_sendMouse *)
Definition evt_information_sendMouse : Sender := mkSender "vscp_evt_information_sendMouse" 20 2 3 [("kindOfCoordinates", PInt 1); ("zone", PInt 1); ("subZone", PInt 1); ("normalizedXCoordinate", PInt 2); ("normalizedYCoordinate", PInt 2)]
  [Do (Set_ 0 (Par 0)); Do (Add 1); Do (Set_ 1 (Par 1)); Do (Add 1); Do (Set_ 2 (Par 2)); Do (Add 1); Do (Set_ 3 (Shift 3 8)); Do (Set_ 4 (Shift 3 0)); Do (Add 2); Do (Set_ 5 (Shift 4 8)); Do (Set_ 6 (Shift 4 0)); Do (Add 2); Do (SizeVar)].
(* src/events/vscp_evt_information.c:183-202 vscp_evt_information_sendOn *)
Definition evt_information_sendOn : Sender := mkSender "vscp_evt_information_sendOn" 20 3 3 [("index", PInt 1); ("zone", PInt 1); ("subZone", PInt 1)]
  [Do (Set_ 0 (Par 0)); Do (Add 1); Do (Set_ 1 (Par 1)); Do (Add 1); Do (Set_ 2 (Par 2)); Do (Add 1); Do (SizeVar)].
(* src/events/vscp_evt_information.c:213-232 vscp_evt_information_sendOff *)
Definition evt_information_sendOff : Sender := mkSender "vscp_evt_information_sendOff" 20 4 3 [("index", PInt 1); ("zone", PInt 1); ("subZone", PInt 1)]
  [Do (Set_ 0 (Par 0)); Do (Add 1); Do (Set_ 1 (Par 1)); Do (Add 1); Do (Set_ 2 (Par 2)); Do (Add 1); Do (SizeVar)].
(* src/events/vscp_evt_information.c:243-262 vscp_evt_information_sendAlive *)
Definition evt_information_sendAlive : Sender := mkSender "vscp_evt_information_sendAlive" 20 5 3 [("userSpecific", PInt 1); ("zone", PInt 1); ("subZone", PInt 1)]
  [Do (Set_ 0 (Par 0)); Do (Add 1); Do (Set_ 1 (Par 1)); Do (Add 1); Do (Set_ 2 (Par 2)); Do (Add 1); Do (SizeVar)].
(* src/events/vscp_evt_information.c:273-292 vscp_evt_information_sendTerminating *)
Definition evt_information_sendTerminating : Sender := mkSender "vscp_evt_information_sendTerminating" 20 6 3 [("userSpecific", PInt 1); ("zone", PInt 1); ("subZone", PInt 1)]
  [Do (Set_ 0 (Par 0)); Do (Add 1); Do (Set_ 1 (Par 1)); Do (Add 1); Do (Set_ 2 (Par 2)); Do (Add 1); Do (SizeVar)].
(* src/events/vscp_evt_information.c:303-322 vscp_evt_information_sendOpened *)
Definition evt_information_sendOpened : Sender := mkSender "vscp_evt_information_sendOpened" 20 7 3 [("userSpecific", PInt 1); ("zone", PInt 1); ("subZone", PInt 1)]
  [Do (Set_ 0 (Par 0)); Do (Add 1); Do (Set_ 1 (Par 1)); Do (Add 1); Do (Set_ 2 (Par 2)); Do (Add 1); Do (SizeVar)].
(* src/events/vscp_evt_information.c:333-352 vscp_evt_information_sendClosed *)
Definition evt_information_sendClosed : Sender := mkSender "vscp_evt_information_sendClosed" 20 8 3 [("userSpecific", PInt 1); ("zone", PInt 1); ("subZone", PInt 1)]
  [Do (Set_ 0 (Par 0)); Do (Add 1); Do (Set_ 1 (Par 1)); Do (Add 1); Do (Set_ 2 (Par 2)); Do (Add 1); Do (SizeVar)].
(* src/events/vscp_evt_information.c:365-399 vscp_evt_information_sendNodeHeartbeat *)
Definition evt_information_sendNodeHeartbeat : Sender := mkSender "vscp_evt_information_sendNodeHeartbeat" 20 9 3 [("userSpecific", PInt 1); ("zone", PInt 1); ("subZone", PInt 1); ("userData", PBuf false); ("userDataSize", PSize)]
  [Do (Set_ 0 (Par 0)); Do (Add 1); Do (Set_ 1 (Par 1)); Do (Add 1); Do (Set_ 2 (Par 2)); Do (Add 1); IfPtr 3 [Loop 3 3 4]; Do (SizeVar)].
(* src/events/vscp_evt_information.c:410-429 vscp_evt_information_sendBelowLimit *)
Definition evt_information_sendBelowLimit : Sender := mkSender "vscp_evt_information_sendBelowLimit" 20 10 3 [("reserved", PInt 1); ("zone", PInt 1); ("subZone", PInt 1)]
  [Do (Set_ 0 (Par 0)); Do (Add 1); Do (Set_ 1 (Par 1)); Do (Add 1); Do (Set_ 2 (Par 2)); Do (Add 1); Do (SizeVar)].
(* src/events/vscp_evt_information.c:440-459 vscp_evt_information_sendAboveLimit *)
Definition evt_information_sendAboveLimit : Sender := mkSender "vscp_evt_information_sendAboveLimit" 20 11 3 [("reserved", PInt 1); ("zone", PInt 1); ("subZone", PInt 1)]
  [Do (Set_ 0 (Par 0)); Do (Add 1); Do (Set_ 1 (Par 1)); Do (Add 1); Do (Set_ 2 (Par 2)); Do (Add 1); Do (SizeVar)].
(* src/events/vscp_evt_information.c:470-489 vscp_evt_information_sendPulse *)
Definition evt_information_sendPulse : Sender := mkSender "vscp_evt_information_sendPulse" 20 12 3 [("reserved", PInt 1); ("zone", PInt 1); ("subZone", PInt 1)]
  [Do (Set_ 0 (Par 0)); Do (Add 1); Do (Set_ 1 (Par 1)); Do (Add 1); Do (Set_ 2 (Par 2)); Do (Add 1); Do (SizeVar)].
(* src/events/vscp_evt_information.c:500-519 vscp_evt_information_sendError *)
Definition evt_information_sendError : Sender := mkSender "vscp_evt_information_sendError" 20 13 3 [("reserved", PInt 1); ("zone", PInt 1); ("subZone", PInt 1)]
  [Do (Set_ 0 (Par 0)); Do (Add 1); Do (Set_ 1 (Par 1)); Do (Add 1); Do (Set_ 2 (Par 2)); Do (Add 1); Do (SizeVar)].
(* src/events/vscp_evt_information.c:530-549 vscp_evt_information_sendResumed *)
Definition evt_information_sendResumed : Sender := mkSender "vscp_evt_information_sendResumed" 20 14 3 [("reserved", PInt 1); ("zone", PInt 1); ("subZone", PInt 1)]
  [Do (Set_ 0 (Par 0)); Do (Add 1); Do (Set_ 1 (Par 1)); Do (Add 1); Do (Set_ 2 (Par 2)); Do (Add 1); Do (SizeVar)].
(* src/events/vscp_evt_information.c:560-579 vscp_evt_information_sendPaused *)
Definition evt_information_sendPaused : Sender := mkSender "vscp_evt_information_sendPaused" 20 15 3 [("reserved", PInt 1); ("zone", PInt 1); ("subZone", PInt 1)]
  [Do (Set_ 0 (Par 0)); Do (Add 1); Do (Set_ 1 (Par 1)); Do (Add 1); Do (Set_ 2 (Par 2)); Do (Add 1); Do (SizeVar)].
(* src/events/vscp_evt_information.c:590-609 vscp_evt_information_sendSleeping *)
Definition evt_information_sendSleeping : Sender := mkSender "vscp_evt_information_sendSleeping" 20 16 3 [("reserved", PInt 1); ("zone", PInt 1); ("subZone", PInt 1)]
  [Do (Set_ 0 (Par 0)); Do (Add 1); Do (Set_ 1 (Par 1)); Do (Add 1); Do (Set_ 2 (Par 2)); Do (Add 1); Do (SizeVar)].
(* src/events/vscp_evt_information.c:620-639 vscp_evt_information_sendGoodMorning *)
Definition evt_information_sendGoodMorning : Sender := mkSender "vscp_evt_information_sendGoodMorning" 20 17 3 [("reserved", PInt 1); ("zone", PInt 1); ("subZone", PInt 1)]
  [Do (Set_ 0 (Par 0)); Do (Add 1); Do (Set_ 1 (Par 1)); Do (Add 1); Do (Set_ 2 (Par 2)); Do (Add 1); Do (SizeVar)].
(* src/events/vscp_evt_information.c:650-669 vscp_evt_information_sendGoodDay *)
Definition evt_information_sendGoodDay : Sender := mkSender "vscp_evt_information_sendGoodDay" 20 18 3 [("reserved", PInt 1); ("zone", PInt 1); ("subZone", PInt 1)]
  [Do (Set_ 0 (Par 0)); Do (Add 1); Do (Set_ 1 (Par 1)); Do (Add 1); Do (Set_ 2 (Par 2)); Do (Add 1); Do (SizeVar)].
(* src/events/vscp_evt_information.c:680-699 vscp_evt_information_sendGoodAfternoon *)
Definition evt_information_sendGoodAfternoon : Sender := mkSender "vscp_evt_information_sendGoodAfternoon" 20 19 3 [("reserved", PInt 1); ("zone", PInt 1); ("subZone", PInt 1)]
  [Do (Set_ 0 (Par 0)); Do (Add 1); Do (Set_ 1 (Par 1)); Do (Add 1); Do (Set_ 2 (Par 2)); Do (Add 1); Do (SizeVar)].
(* src/events/vscp_evt_information.c:710-729 vscp_evt_information_sendGoodEvening *)
Definition evt_information_sendGoodEvening : Sender := mkSender "vscp_evt_information_sendGoodEvening" 20 20 3 [("reserved", PInt 1); ("zone", PInt 1); ("subZone", PInt 1)]
  [Do (Set_ 0 (Par 0)); Do (Add 1); Do (Set_ 1 (Par 1)); Do (Add 1); Do (Set_ 2 (Par 2)); Do (Add 1); Do (SizeVar)].
(* src/events/vscp_evt_information.c:740-759 vscp_evt_information_sendGoodNight *)
Definition evt_information_sendGoodNight : Sender := mkSender "vscp_evt_information_sendGoodNight" 20 21 3 [("reserved", PInt 1); ("zone", PInt 1); ("subZone", PInt 1)]
  [Do (Set_ 0 (Par 0)); Do (Add 1); Do (Set_ 1 (Par 1)); Do (Add 1); Do (Set_ 2 (Par 2)); Do (Add 1); Do (SizeVar)].
(* src/events/vscp_evt_information.c:770-789 vscp_evt_information_sendSeeYouSoon *)
Definition evt_information_sendSeeYouSoon : Sender := mkSender "vscp_evt_information_sendSeeYouSoon" 20 22 3 [("reserved", PInt 1); ("zone", PInt 1); ("subZone", PInt 1)]
  [Do (Set_ 0 (Par 0)); Do (Add 1); Do (Set_ 1 (Par 1)); Do (Add 1); Do (Set_ 2 (Par 2)); Do (Add 1); Do (SizeVar)].
(* src/events/vscp_evt_information.c:800-819 vscp_evt_information_sendGoodbye *)
Definition evt_information_sendGoodbye : Sender := mkSender "vscp_evt_information_sendGoodbye" 20 23 3 [("reserved", PInt 1); ("zone", PInt 1); ("subZone", PInt 1)]
  [Do (Set_ 0 (Par 0)); Do (Add 1); Do (Set_ 1 (Par 1)); Do (Add 1); Do (Set_ 2 (Par 2)); Do (Add 1); Do (SizeVar)].
(* src/events/vscp_evt_information.c:830-849 vscp_evt_information_sendStop *)
Definition evt_information_sendStop : Sender := mkSender "vscp_evt_information_sendStop" 20 24 3 [("reserved", PInt 1); ("zone", PInt 1); ("subZone", PInt 1)]
  [Do (Set_ 0 (Par 0)); Do (Add 1); Do (Set_ 1 (Par 1)); Do (Add 1); Do (Set_ 2 (Par 2)); Do (Add 1); Do (SizeVar)].
(* src/events/vscp_evt_information.c:860-879 vscp_evt_information_sendStart *)
Definition evt_information_sendStart : Sender := mkSender "vscp_evt_information_sendStart" 20 25 3 [("reserved", PInt 1); ("zone", PInt 1); ("subZone", PInt 1)]
  [Do (Set_ 0 (Par 0)); Do (Add 1); Do (Set_ 1 (Par 1)); Do (Add 1); Do (Set_ 2 (Par 2)); Do (Add 1); Do (SizeVar)].
(* src/events/vscp_evt_information.c:890-909 vscp_evt_information_sendResetcompleted *)
Definition evt_information_sendResetcompleted : Sender := mkSender "vscp_evt_information_sendResetcompleted" 20 26 3 [("reserved", PInt 1); ("zone", PInt 1); ("subZone", PInt 1)]
  [Do (Set_ 0 (Par 0)); Do (Add 1); Do (Set_ 1 (Par 1)); Do (Add 1); Do (Set_ 2 (Par 2)); Do (Add 1); Do (SizeVar)].
(* src/events/vscp_evt_information.c:920-939 vscp_evt_information_sendInterrupted *)
Definition evt_information_sendInterrupted : Sender := mkSender "vscp_evt_information_sendInterrupted" 20 27 3 [("reserved", PInt 1); ("zone", PInt 1); ("subZone", PInt 1)]
  [Do (Set_ 0 (Par 0)); Do (Add 1); Do (Set_ 1 (Par 1)); Do (Add 1); Do (Set_ 2 (Par 2)); Do (Add 1); Do (SizeVar)].
(* src/events/vscp_evt_information.c:950-969 vscp_evt_information_sendPreparingtosleep *)
Definition evt_information_sendPreparingtosleep : Sender := mkSender "vscp_evt_information_sendPreparingtosleep" 20 28 3 [("reserved", PInt 1); ("zone", PInt 1); ("subZone", PInt 1)]
  [Do (Set_ 0 (Par 0)); Do (Add 1); Do (Set_ 1 (Par 1)); Do (Add 1); Do (Set_ 2 (Par 2)); Do (Add 1); Do (SizeVar)].
(* src/events/vscp_evt_information.c:980-999 vscp_evt_information_sendWokenup *)
Definition evt_information_sendWokenup : Sender := mkSender "vscp_evt_information_sendWokenup" 20 29 3 [("reserved", PInt 1); ("zone", PInt 1); ("subZone", PInt 1)]
  [Do (Set_ 0 (Par 0)); Do (Add 1); Do (Set_ 1 (Par 1)); Do (Add 1); Do (Set_ 2 (Par 2)); Do (Add 1); Do (SizeVar)].
(* src/events/vscp_evt_information.c:1010-1029 vscp_evt_information_sendDusk *)
Definition evt_information_sendDusk : Sender := mkSender "vscp_evt_information_sendDusk" 20 30 3 [("reserved", PInt 1); ("zone", PInt 1); ("subZone", PInt 1)]
  [Do (Set_ 0 (Par 0)); Do (Add 1); Do (Set_ 1 (Par 1)); Do (Add 1); Do (Set_ 2 (Par 2)); Do (Add 1); Do (SizeVar)].
(* src/events/vscp_evt_information.c:1040-1059 vscp_evt_information_sendDawn *)
Definition evt_information_sendDawn : Sender := mkSender "vscp_evt_information_sendDawn" 20 31 3 [("reserved", PInt 1); ("zone", PInt 1); ("subZone", PInt 1)]
  [Do (Set_ 0 (Par 0)); Do (Add 1); Do (Set_ 1 (Par 1)); Do (Add 1); Do (Set_ 2 (Par 2)); Do (Add 1); Do (SizeVar)].
(* src/events/vscp_evt_information.c:1070-1089 vscp_evt_information_sendActive *)
Definition evt_information_sendActive : Sender := mkSender "vscp_evt_information_sendActive" 20 32 3 [("reserved", PInt 1); ("zone", PInt 1); ("subZone", PInt 1)]
  [Do (Set_ 0 (Par 0)); Do (Add 1); Do (Set_ 1 (Par 1)); Do (Add 1); Do (Set_ 2 (Par 2)); Do (Add 1); Do (SizeVar)].
(* src/events/vscp_evt_information.c:1100-1119 vscp_evt_information_sendInactive *)
Definition evt_information_sendInactive : Sender := mkSender "vscp_evt_information_sendInactive" 20 33 3 [("reserved", PInt 1); ("zone", PInt 1); ("subZone", PInt 1)]
  [Do (Set_ 0 (Par 0)); Do (Add 1); Do (Set_ 1 (Par 1)); Do (Add 1); Do (Set_ 2 (Par 2)); Do (Add 1); Do (SizeVar)].
(* src/events/vscp_evt_information.c:1130-1149 vscp_evt_information_sendBusy *)
Definition evt_information_sendBusy : Sender := mkSender "vscp_evt_information_sendBusy" 20 34 3 [("reserved", PInt 1); ("zone", PInt 1); ("subZone", PInt 1)]
  [Do (Set_ 0 (Par 0)); Do (Add 1); Do (Set_ 1 (Par 1)); Do (Add 1); Do (Set_ 2 (Par 2)); Do (Add 1); Do (SizeVar)].
(* src/events/vscp_evt_information.c:1160-1179 vscp_evt_information_sendIdle *)
Definition evt_information_sendIdle : Sender := mkSender "vscp_evt_information_sendIdle" 20 35 3 [("reserved", PInt 1); ("zone", PInt 1); ("subZone", PInt 1)]
  [Do (Set_ 0 (Par 0)); Do (Add 1); Do (Set_ 1 (Par 1)); Do (Add 1); Do (Set_ 2 (Par 2)); Do (Add 1); Do (SizeVar)].
(* src/events/vscp_evt_information.c:1192-1222 vscp_evt_information_sendStreamData *)
Definition evt_information_sendStreamData : Sender := mkSender "vscp_evt_information_sendStreamData" 20 36 3 [("sequenceNumber", PInt 1); ("streamData", PBuf true); ("streamDataSize", PSize)]
  [Guard 1 2; Do (Set_ 0 (Par 0)); Do (Add 1); Do (Loop 1 1 2); Do (SizeVar)].
(* src/events/vscp_evt_information.c:1237-1276 vscp_evt_information_sendTokenActivity *)
Definition evt_information_sendTokenActivity : Sender := mkSender "vscp_evt_information_sendTokenActivity" 20 37 3 [("tokenType", PInt 1); ("zone", PInt 1); ("subZone", PInt 1); ("frameIndex", PInt 1); ("tokenData", PBuf true); ("tokenDataSize", PSize)]
  [Guard 4 5; Do (Set_ 0 (Par 0)); Do (Add 1); Do (Set_ 1 (Par 1)); Do (Add 1); Do (Set_ 2 (Par 2)); Do (Add 1); Do (Set_ 3 (Par 3)); Do (Add 1); Do (Loop 4 4 5); Do (SizeVar)].
(* src/events/vscp_evt_information.c:1291-1327 vscp_evt_information_sendStreamDataWithZone *)
Definition evt_information_sendStreamDataWithZone : Sender := mkSender "vscp_evt_information_sendStreamDataWithZone" 20 38 3 [("zone", PInt 1); ("subZone", PInt 1); ("sequenceNumber", PInt 1); ("streamData", PBuf true); ("streamDataSize", PSize)]
  [Guard 3 4; Do (Set_ 0 (Par 0)); Do (Add 1); Do (Set_ 1 (Par 1)); Do (Add 1); Do (Set_ 2 (Par 2)); Do (Add 1); Do (Loop 3 3 4); Do (SizeVar)].
(* src/events/vscp_evt_information.c:1340-1367 vscp_evt_information_sendConfirm *)
Definition evt_information_sendConfirm : Sender := mkSender "vscp_evt_information_sendConfirm" 20 39 3 [("zone", PInt 1); ("subZone", PInt 1); ("sequenceNumber", PInt 1); ("vscpClass", PInt 2); ("vscpType", PInt 2)]
  [Do (Set_ 0 (Par 0)); Do (Add 1); Do (Set_ 1 (Par 1)); Do (Add 1); Do (Set_ 2 (Par 2)); Do (Add 1); Do (Set_ 3 (Shift 3 8)); Do (Set_ 4 (Shift 3 0)); Do (Add 2); Do (Set_ 5 (Shift 4 8)); Do (Set_ 6 (Shift 4 0)); Do (Add 2); Do (SizeVar)].
(* src/events/vscp_evt_information.c:1378-1397 vscp_evt_information_sendLevelChanged *)
Definition evt_information_sendLevelChanged : Sender := mkSender "vscp_evt_information_sendLevelChanged" 20 40 3 [("level", PInt 1); ("zone", PInt 1); ("subZone", PInt 1)]
  [Do (Set_ 0 (Par 0)); Do (Add 1); Do (Set_ 1 (Par 1)); Do (Add 1); Do (Set_ 2 (Par 2)); Do (Add 1); Do (SizeVar)].
(* src/events/vscp_evt_information.c:1408-1427 vscp_evt_information_sendWarning *)
Definition evt_information_sendWarning : Sender := mkSender "vscp_evt_information_sendWarning" 20 41 3 [("level", PInt 1); ("zone", PInt 1); ("subZone", PInt 1)]
  [Do (Set_ 0 (Par 0)); Do (Add 1); Do (Set_ 1 (Par 1)); Do (Add 1); Do (Set_ 2 (Par 2)); Do (Add 1); Do (SizeVar)].
(* src/events/vscp_evt_information.c:1440-1465 vscp_evt_information_sendState *)
Definition evt_information_sendState : Sender := mkSender "vscp_evt_information_sendState" 20 42 3 [("userSpecific", PInt 1); ("zone", PInt 1); ("subZone", PInt 1); ("from", PInt 1); ("to", PInt 1)]
  [Do (Set_ 0 (Par 0)); Do (Add 1); Do (Set_ 1 (Par 1)); Do (Add 1); Do (Set_ 2 (Par 2)); Do (Add 1); Do (Set_ 3 (Par 3)); Do (Add 1); Do (Set_ 4 (Par 4)); Do (Add 1); Do (SizeVar)].
(* src/events/vscp_evt_information.c:1476-1495 vscp_evt_information_sendActionTrigger *)
Definition evt_information_sendActionTrigger : Sender := mkSender "vscp_evt_information_sendActionTrigger" 20 43 3 [("actionId", PInt 1); ("zone", PInt 1); ("subZone", PInt 1)]
  [Do (Set_ 0 (Par 0)); Do (Add 1); Do (Set_ 1 (Par 1)); Do (Add 1); Do (Set_ 2 (Par 2)); Do (Add 1); Do (SizeVar)].
(* src/events/vscp_evt_information.c:1506-1525 vscp_evt_information_sendSunrise *)
Definition evt_information_sendSunrise : Sender := mkSender "vscp_evt_information_sendSunrise" 20 44 3 [("userSpecific", PInt 1); ("zone", PInt 1); ("subZone", PInt 1)]
  [Do (Set_ 0 (Par 0)); Do (Add 1); Do (Set_ 1 (Par 1)); Do (Add 1); Do (Set_ 2 (Par 2)); Do (Add 1); Do (SizeVar)].
(* src/events/vscp_evt_information.c:1536-1555 vscp_evt_information_sendSunset *)
Definition evt_information_sendSunset : Sender := mkSender "vscp_evt_information_sendSunset" 20 45 3 [("userSpecific", PInt 1); ("zone", PInt 1); ("subZone", PInt 1)]
  [Do (Set_ 0 (Par 0)); Do (Add 1); Do (Set_ 1 (Par 1)); Do (Add 1); Do (Set_ 2 (Par 2)); Do (Add 1); Do (SizeVar)].
(* src/events/vscp_evt_information.c:1567-1589 vscp_evt_information_sendStartOfRecord *)
Definition evt_information_sendStartOfRecord : Sender := mkSender "vscp_evt_information_sendStartOfRecord" 20 46 3 [("index", PInt 1); ("zone", PInt 1); ("subZone", PInt 1); ("remainingFrames", PInt 1)]
  [Do (Set_ 0 (Par 0)); Do (Add 1); Do (Set_ 1 (Par 1)); Do (Add 1); Do (Set_ 2 (Par 2)); Do (Add 1); Do (Set_ 3 (Par 3)); Do (Add 1); Do (SizeVar)].
(* src/events/vscp_evt_information.c:1600-1619 vscp_evt_information_sendEndOfRecord *)
Definition evt_information_sendEndOfRecord : Sender := mkSender "vscp_evt_information_sendEndOfRecord" 20 47 3 [("index", PInt 1); ("zone", PInt 1); ("subZone", PInt 1)]
  [Do (Set_ 0 (Par 0)); Do (Add 1); Do (Set_ 1 (Par 1)); Do (Add 1); Do (Set_ 2 (Par 2)); Do (Add 1); Do (SizeVar)].
(* src/events/vscp_evt_information.c:1631-1653 vscp_evt_information_sendPreSetActive *)
Definition evt_information_sendPreSetActive : Sender := mkSender "vscp_evt_information_sendPreSetActive" 20 48 3 [("user", PInt 1); ("zone", PInt 1); ("subZone", PInt 1); ("preSetCode", PInt 1)]
  [Do (Set_ 0 (Par 0)); Do (Add 1); Do (Set_ 1 (Par 1)); Do (Add 1); Do (Set_ 2 (Par 2)); Do (Add 1); Do (Set_ 2 (Par 3)); Do (Add 1); Do (SizeVar)].
(* src/events/vscp_evt_information.c:1664-1683 vscp_evt_information_sendDetect *)
Definition evt_information_sendDetect : Sender := mkSender "vscp_evt_information_sendDetect" 20 49 3 [("index", PInt 1); ("zone", PInt 1); ("subZone", PInt 1)]
  [Do (Set_ 0 (Par 0)); Do (Add 1); Do (Set_ 1 (Par 1)); Do (Add 1); Do (Set_ 2 (Par 2)); Do (Add 1); Do (SizeVar)].
(* src/events/vscp_evt_information.c:1694-1713 vscp_evt_information_sendOverflow *)
Definition evt_information_sendOverflow : Sender := mkSender "vscp_evt_information_sendOverflow" 20 50 3 [("index", PInt 1); ("zone", PInt 1); ("subZone", PInt 1)]
  [Do (Set_ 0 (Par 0)); Do (Add 1); Do (Set_ 1 (Par 1)); Do (Add 1); Do (Set_ 2 (Par 2)); Do (Add 1); Do (SizeVar)].
(* src/events/vscp_evt_information.c:1727-1763 vscp_evt_information_sendBigLevelChanged *)
Definition evt_information_sendBigLevelChanged : Sender := mkSender "vscp_evt_information_sendBigLevelChanged" 20 51 3 [("index", PInt 1); ("zone", PInt 1); ("subZone", PInt 1); ("level", PBuf true); ("levelSize", PSize)]
  [Guard 3 4; Do (Set_ 0 (Par 0)); Do (Add 1); Do (Set_ 1 (Par 1)); Do (Add 1); Do (Set_ 2 (Par 2)); Do (Add 1); Do (Loop 3 3 4); Do (SizeVar)].
(* src/events/vscp_evt_information.c:1774-1793 vscp_evt_information_sendCivilSunriseTwilightTime *)
Definition evt_information_sendCivilSunriseTwilightTime : Sender := mkSender "vscp_evt_information_sendCivilSunriseTwilightTime" 20 52 3 [("userSpecific", PInt 1); ("zone", PInt 1); ("subZone", PInt 1)]
  [Do (Set_ 0 (Par 0)); Do (Add 1); Do (Set_ 1 (Par 1)); Do (Add 1); Do (Set_ 2 (Par 2)); Do (Add 1); Do (SizeVar)].
(* src/events/vscp_evt_information.c:1804-1823 vscp_evt_information_sendCivilSunsetTwilightTime *)
Definition evt_information_sendCivilSunsetTwilightTime : Sender := mkSender "vscp_evt_information_sendCivilSunsetTwilightTime" 20 53 3 [("userSpecific", PInt 1); ("zone", PInt 1); ("subZone", PInt 1)]
  [Do (Set_ 0 (Par 0)); Do (Add 1); Do (Set_ 1 (Par 1)); Do (Add 1); Do (Set_ 2 (Par 2)); Do (Add 1); Do (SizeVar)].
(* src/events/vscp_evt_information.c:1834-1853 vscp_evt_information_sendNauticalSunriseTwilightTime *)
Definition evt_information_sendNauticalSunriseTwilightTime : Sender := mkSender "vscp_evt_information_sendNauticalSunriseTwilightTime" 20 54 3 [("userSpecific", PInt 1); ("zone", PInt 1); ("subZone", PInt 1)]
  [Do (Set_ 0 (Par 0)); Do (Add 1); Do (Set_ 1 (Par 1)); Do (Add 1); Do (Set_ 2 (Par 2)); Do (Add 1); Do (SizeVar)].
(* src/events/vscp_evt_information.c:1864-1883 vscp_evt_information_sendNauticalSunsetTwilightTime *)
Definition evt_information_sendNauticalSunsetTwilightTime : Sender := mkSender "vscp_evt_information_sendNauticalSunsetTwilightTime" 20 55 3 [("userSpecific", PInt 1); ("zone", PInt 1); ("subZone", PInt 1)]
  [Do (Set_ 0 (Par 0)); Do (Add 1); Do (Set_ 1 (Par 1)); Do (Add 1); Do (Set_ 2 (Par 2)); Do (Add 1); Do (SizeVar)].
(* src/events/vscp_evt_information.c:1894-1913 vscp_evt_information_sendAstronomicalSunriseTwilightTime *)
Definition evt_information_sendAstronomicalSunriseTwilightTime : Sender := mkSender "vscp_evt_information_sendAstronomicalSunriseTwilightTime" 20 56 3 [("userSpecific", PInt 1); ("zone", PInt 1); ("subZone", PInt 1)]
  [Do (Set_ 0 (Par 0)); Do (Add 1); Do (Set_ 1 (Par 1)); Do (Add 1); Do (Set_ 2 (Par 2)); Do (Add 1); Do (SizeVar)].
(* src/events/vscp_evt_information.c:1924-1943 vscp_evt_information_sendAstronomicalSunsetTwilightTime *)
Definition evt_information_sendAstronomicalSunsetTwilightTime : Sender := mkSender "vscp_evt_information_sendAstronomicalSunsetTwilightTime" 20 57 3 [("userSpecific", PInt 1); ("zone", PInt 1); ("subZone", PInt 1)]
  [Do (Set_ 0 (Par 0)); Do (Add 1); Do (Set_ 1 (Par 1)); Do (Add 1); Do (Set_ 2 (Par 2)); Do (Add 1); Do (SizeVar)].
(* src/events/vscp_evt_information.c:1954-1973 vscp_evt_information_sendCalculatedNoon *)
Definition evt_information_sendCalculatedNoon : Sender := mkSender "vscp_evt_information_sendCalculatedNoon" 20 58 3 [("reserved", PInt 1); ("zone", PInt 1); ("subZone", PInt 1)]
  [Do (Set_ 0 (Par 0)); Do (Add 1); Do (Set_ 1 (Par 1)); Do (Add 1); Do (Set_ 2 (Par 2)); Do (Add 1); Do (SizeVar)].
(* src/events/vscp_evt_information.c:1984-2003 vscp_evt_information_sendShutterUp *)
Definition evt_information_sendShutterUp : Sender := mkSender "vscp_evt_information_sendShutterUp" 20 59 3 [("reserved", PInt 1); ("zone", PInt 1); ("subZone", PInt 1)]
  [Do (Set_ 0 (Par 0)); Do (Add 1); Do (Set_ 1 (Par 1)); Do (Add 1); Do (Set_ 2 (Par 2)); Do (Add 1); Do (SizeVar)].
(* src/events/vscp_evt_information.c:2014-2033 vscp_evt_information_sendShutterDown *)
Definition evt_information_sendShutterDown : Sender := mkSender "vscp_evt_information_sendShutterDown" 20 60 3 [("reserved", PInt 1); ("zone", PInt 1); ("subZone", PInt 1)]
  [Do (Set_ 0 (Par 0)); Do (Add 1); Do (Set_ 1 (Par 1)); Do (Add 1); Do (Set_ 2 (Par 2)); Do (Add 1); Do (SizeVar)].
(* src/events/vscp_evt_information.c:2044-2063 vscp_evt_information_sendShutterLeft *)
Definition evt_information_sendShutterLeft : Sender := mkSender "vscp_evt_information_sendShutterLeft" 20 61 3 [("reserved", PInt 1); ("zone", PInt 1); ("subZone", PInt 1)]
  [Do (Set_ 0 (Par 0)); Do (Add 1); Do (Set_ 1 (Par 1)); Do (Add 1); Do (Set_ 2 (Par 2)); Do (Add 1); Do (SizeVar)].
(* src/events/vscp_evt_information.c:2074-2093 vscp_evt_information_sendShutterRight *)
Definition evt_information_sendShutterRight : Sender := mkSender "vscp_evt_information_sendShutterRight" 20 62 3 [("reserved", PInt 1); ("zone", PInt 1); ("subZone", PInt 1)]
  [Do (Set_ 0 (Par 0)); Do (Add 1); Do (Set_ 1 (Par 1)); Do (Add 1); Do (Set_ 2 (Par 2)); Do (Add 1); Do (SizeVar)].
(* src/events/vscp_evt_information.c:2104-2123 vscp_evt_information_sendShutterReachedTopEnd *)
Definition evt_information_sendShutterReachedTopEnd : Sender := mkSender "vscp_evt_information_sendShutterReachedTopEnd" 20 63 3 [("reserved", PInt 1); ("zone", PInt 1); ("subZone", PInt 1)]
  [Do (Set_ 0 (Par 0)); Do (Add 1); Do (Set_ 1 (Par 1)); Do (Add 1); Do (Set_ 2 (Par 2)); Do (Add 1); Do (SizeVar)].
(* src/events/vscp_evt_information.c:2134-2153 vscp_evt_information_sendShutterReachedBottomEnd *)
Definition evt_information_sendShutterReachedBottomEnd : Sender := mkSender "vscp_evt_information_sendShutterReachedBottomEnd" 20 64 3 [("reserved", PInt 1); ("zone", PInt 1); ("subZone", PInt 1)]
  [Do (Set_ 0 (Par 0)); Do (Add 1); Do (Set_ 1 (Par 1)); Do (Add 1); Do (Set_ 2 (Par 2)); Do (Add 1); Do (SizeVar)].
(* src/events/vscp_evt_information.c:2164-2183 vscp_evt_information_sendShutterReachedMiddleEnd *)
Definition evt_information_sendShutterReachedMiddleEnd : Sender := mkSender "vscp_evt_information_sendShutterReachedMiddleEnd" 20 65 3 [("reserved", PInt 1); ("zone", PInt 1); ("subZone", PInt 1)]
  [Do (Set_ 0 (Par 0)); Do (Add 1); Do (Set_ 1 (Par 1)); Do (Add 1); Do (Set_ 2 (Par 2)); Do (Add 1); Do (SizeVar)].
(* src/events/vscp_evt_information.c:2194-2213 vscp_evt_information_sendShutterReachedPresetEnd *)
Definition evt_information_sendShutterReachedPresetEnd : Sender := mkSender "vscp_evt_information_sendShutterReachedPresetEnd" 20 66 3 [("reserved", PInt 1); ("zone", PInt 1); ("subZone", PInt 1)]
  [Do (Set_ 0 (Par 0)); Do (Add 1); Do (Set_ 1 (Par 1)); Do (Add 1); Do (Set_ 2 (Par 2)); Do (Add 1); Do (SizeVar)].
(* src/events/vscp_evt_information.c:2224-2243 vscp_evt_information_sendShutterReachedPresetLeft *)
Definition evt_information_sendShutterReachedPresetLeft : Sender := mkSender "vscp_evt_information_sendShutterReachedPresetLeft" 20 67 3 [("reserved", PInt 1); ("zone", PInt 1); ("subZone", PInt 1)]
  [Do (Set_ 0 (Par 0)); Do (Add 1); Do (Set_ 1 (Par 1)); Do (Add 1); Do (Set_ 2 (Par 2)); Do (Add 1); Do (SizeVar)].
(* src/events/vscp_evt_information.c:2254-2273 vscp_evt_information_sendShutterReachedPresetRight *)
Definition evt_information_sendShutterReachedPresetRight : Sender := mkSender "vscp_evt_information_sendShutterReachedPresetRight" 20 68 3 [("reserved", PInt 1); ("zone", PInt 1); ("subZone", PInt 1)]
  [Do (Set_ 0 (Par 0)); Do (Add 1); Do (Set_ 1 (Par 1)); Do (Add 1); Do (Set_ 2 (Par 2)); Do (Add 1); Do (SizeVar)].
(* src/events/vscp_evt_information.c:2284-2303 vscp_evt_information_sendLongClick *)
Definition evt_information_sendLongClick : Sender := mkSender "vscp_evt_information_sendLongClick" 20 69 3 [("index", PInt 1); ("zone", PInt 1); ("subZone", PInt 1)]
  [Do (Set_ 0 (Par 0)); Do (Add 1); Do (Set_ 1 (Par 1)); Do (Add 1); Do (Set_ 2 (Par 2)); Do (Add 1); Do (SizeVar)].
(* src/events/vscp_evt_information.c:2314-2333 vscp_evt_information_sendSingleClick *)
Definition evt_information_sendSingleClick : Sender := mkSender "vscp_evt_information_sendSingleClick" 20 70 3 [("index", PInt 1); ("zone", PInt 1); ("subZone", PInt 1)]
  [Do (Set_ 0 (Par 0)); Do (Add 1); Do (Set_ 1 (Par 1)); Do (Add 1); Do (Set_ 2 (Par 2)); Do (Add 1); Do (SizeVar)].
(* src/events/vscp_evt_information.c:2344-2363 vscp_evt_information_sendDoubleClick *)
Definition evt_information_sendDoubleClick : Sender := mkSender "vscp_evt_information_sendDoubleClick" 20 71 3 [("index", PInt 1); ("zone", PInt 1); ("subZone", PInt 1)]
  [Do (Set_ 0 (Par 0)); Do (Add 1); Do (Set_ 1 (Par 1)); Do (Add 1); Do (Set_ 2 (Par 2)); Do (Add 1); Do (SizeVar)].
(* src/events/vscp_evt_information.c:2378-2409 vscp_evt_information_sendDate *)
Definition evt_information_sendDate : Sender := mkSender "vscp_evt_information_sendDate" 20 72 3 [("index", PInt 1); ("zone", PInt 1); ("subZone", PInt 1); ("yearCentury", PInt 1); ("year", PInt 1); ("month", PInt 1); ("day", PInt 1)]
  [Do (Set_ 0 (Par 0)); Do (Add 1); Do (Set_ 1 (Par 1)); Do (Add 1); Do (Set_ 2 (Par 2)); Do (Add 1); Do (Set_ 3 (Par 3)); Do (Add 1); Do (Set_ 4 (Par 4)); Do (Add 1); Do (Set_ 5 (Par 5)); Do (Add 1); Do (Set_ 6 (Par 6)); Do (Add 1); Do (SizeVar)].
(* src/events/vscp_evt_information.c:2424-2456 vscp_evt_information_sendTime *)
Definition evt_information_sendTime : Sender := mkSender "vscp_evt_information_sendTime" 20 73 3 [("index", PInt 1); ("zone", PInt 1); ("subZone", PInt 1); ("hour", PInt 1); ("minutes", PInt 1); ("seconds", PInt 1); ("milliseconds", PInt 2)]
  [Do (Set_ 0 (Par 0)); Do (Add 1); Do (Set_ 1 (Par 1)); Do (Add 1); Do (Set_ 2 (Par 2)); Do (Add 1); Do (Set_ 3 (Par 3)); Do (Add 1); Do (Set_ 4 (Par 4)); Do (Add 1); Do (Set_ 5 (Par 5)); Do (Add 1); Do (Set_ 6 (Shift 6 8)); Do (Set_ 7 (Shift 6 0)); Do (Add 2); Do (SizeVar)].
(* src/events/vscp_evt_information.c:2468-2490 vscp_evt_information_sendWeekday *)
Definition evt_information_sendWeekday : Sender := mkSender "vscp_evt_information_sendWeekday" 20 74 3 [("index", PInt 1); ("zone", PInt 1); ("subZone", PInt 1); ("weekday", PInt 1)]
  [Do (Set_ 0 (Par 0)); Do (Add 1); Do (Set_ 1 (Par 1)); Do (Add 1); Do (Set_ 2 (Par 2)); Do (Add 1); Do (Set_ 3 (Par 3)); Do (Add 1); Do (SizeVar)].
(* src/events/vscp_evt_information.c:2501-2520 vscp_evt_information_sendLock *)
Definition evt_information_sendLock : Sender := mkSender "vscp_evt_information_sendLock" 20 75 3 [("index", PInt 1); ("zone", PInt 1); ("subZone", PInt 1)]
  [Do (Set_ 0 (Par 0)); Do (Add 1); Do (Set_ 1 (Par 1)); Do (Add 1); Do (Set_ 2 (Par 2)); Do (Add 1); Do (SizeVar)].
(* src/events/vscp_evt_information.c:2531-2550 vscp_evt_information_sendUnlock *)
Definition evt_information_sendUnlock : Sender := mkSender "vscp_evt_information_sendUnlock" 20 76 3 [("index", PInt 1); ("zone", PInt 1); ("subZone", PInt 1)]
  [Do (Set_ 0 (Par 0)); Do (Add 1); Do (Set_ 1 (Par 1)); Do (Add 1); Do (Set_ 2 (Par 2)); Do (Add 1); Do (SizeVar)].
(* src/events/vscp_evt_information.c:2563-2599 vscp_evt_information_sendDatetime *)
Definition evt_information_sendDatetime : Sender := mkSender "vscp_evt_information_sendDatetime" 20 77 3 [("index", PInt 1); ("zone", PInt 1); ("subZone", PInt 1); ("dateTime", PBuf true); ("dateTimeSize", PSize)]
  [Guard 3 4; Do (Set_ 0 (Par 0)); Do (Add 1); Do (Set_ 1 (Par 1)); Do (Add 1); Do (Set_ 2 (Par 2)); Do (Add 1); Do (Loop 2 3 4); Do (SizeVar)].
(* src/events/vscp_evt_information.c:2610-2629 vscp_evt_information_sendRising *)
Definition evt_information_sendRising : Sender := mkSender "vscp_evt_information_sendRising" 20 78 3 [("index", PInt 1); ("zone", PInt 1); ("subZone", PInt 1)]
  [Do (Set_ 0 (Par 0)); Do (Add 1); Do (Set_ 1 (Par 1)); Do (Add 1); Do (Set_ 2 (Par 2)); Do (Add 1); Do (SizeVar)].
(* src/events/vscp_evt_information.c:2640-2659 vscp_evt_information_sendFalling *)
Definition evt_information_sendFalling : Sender := mkSender "vscp_evt_information_sendFalling" 20 79 3 [("index", PInt 1); ("zone", PInt 1); ("subZone", PInt 1)]
  [Do (Set_ 0 (Par 0)); Do (Add 1); Do (Set_ 1 (Par 1)); Do (Add 1); Do (Set_ 2 (Par 2)); Do (Add 1); Do (SizeVar)].
(* src/events/vscp_evt_information.c:2670-2689 vscp_evt_information_sendUpdated *)
Definition evt_information_sendUpdated : Sender := mkSender "vscp_evt_information_sendUpdated" 20 80 3 [("index", PInt 1); ("zone", PInt 1); ("subZone", PInt 1)]
  [Do (Set_ 0 (Par 0)); Do (Add 1); Do (Set_ 1 (Par 1)); Do (Add 1); Do (Set_ 2 (Par 2)); Do (Add 1); Do (SizeVar)].
(* src/events/vscp_evt_information.c:2700-2719 vscp_evt_information_sendConnect *)
Definition evt_information_sendConnect : Sender := mkSender "vscp_evt_information_sendConnect" 20 81 3 [("index", PInt 1); ("zone", PInt 1); ("subZone", PInt 1)]
  [Do (Set_ 0 (Par 0)); Do (Add 1); Do (Set_ 1 (Par 1)); Do (Add 1); Do (Set_ 2 (Par 2)); Do (Add 1); Do (SizeVar)].
(* src/events/vscp_evt_information.c:2730-2749 vscp_evt_information_sendDisconnect *)
Definition evt_information_sendDisconnect : Sender := mkSender "vscp_evt_information_sendDisconnect" 20 82 3 [("index", PInt 1); ("zone", PInt 1); ("subZone", PInt 1)]
  [Do (Set_ 0 (Par 0)); Do (Add 1); Do (Set_ 1 (Par 1)); Do (Add 1); Do (Set_ 2 (Par 2)); Do (Add 1); Do (SizeVar)].
(* src/events/vscp_evt_information.c:2760-2779 vscp_evt_information_sendReconnect *)
Definition evt_information_sendReconnect : Sender := mkSender "vscp_evt_information_sendReconnect" 20 83 3 [("index", PInt 1); ("zone", PInt 1); ("subZone", PInt 1)]
  [Do (Set_ 0 (Par 0)); Do (Add 1); Do (Set_ 1 (Par 1)); Do (Add 1); Do (Set_ 2 (Par 2)); Do (Add 1); Do (SizeVar)].
(* src/events/vscp_evt_information.c:2790-2809 vscp_evt_information_sendEnter *)
Definition evt_information_sendEnter : Sender := mkSender "vscp_evt_information_sendEnter" 20 84 3 [("index", PInt 1); ("zone", PInt 1); ("subZone", PInt 1)]
  [Do (Set_ 0 (Par 0)); Do (Add 1); Do (Set_ 1 (Par 1)); Do (Add 1); Do (Set_ 2 (Par 2)); Do (Add 1); Do (SizeVar)].
(* src/events/vscp_evt_information.c:2820-2839 vscp_evt_information_sendExit *)
Definition evt_information_sendExit : Sender := mkSender "vscp_evt_information_sendExit" 20 85 3 [("index", PInt 1); ("zone", PInt 1); ("subZone", PInt 1)]
  [Do (Set_ 0 (Par 0)); Do (Add 1); Do (Set_ 1 (Par 1)); Do (Add 1); Do (Set_ 2 (Par 2)); Do (Add 1); Do (SizeVar)].
(* src/events/vscp_evt_information.c:2853-2887 vscp_evt_information_sendIncremented *)
Definition evt_information_sendIncremented : Sender := mkSender "vscp_evt_information_sendIncremented" 20 86 3 [("userSpecific", PInt 1); ("zone", PInt 1); ("subzone", PInt 1); ("incrementedValue", PBuf false); ("incrementedValueSize", PSize)]
  [Do (Set_ 0 (Par 0)); Do (Add 1); Do (Set_ 1 (Par 1)); Do (Add 1); Do (Set_ 2 (Par 2)); Do (Add 1); IfPtr 3 [Loop 3 3 4]; Do (SizeVar)].
(* src/events/vscp_evt_information.c:2901-2935 vscp_evt_information_sendDecremented *)
Definition evt_information_sendDecremented : Sender := mkSender "vscp_evt_information_sendDecremented" 20 87 3 [("userSpecific", PInt 1); ("zone", PInt 1); ("subzone", PInt 1); ("decrementedValue", PBuf false); ("decrementedValueSize", PSize)]
  [Do (Set_ 0 (Par 0)); Do (Add 1); Do (Set_ 1 (Par 1)); Do (Add 1); Do (Set_ 2 (Par 2)); Do (Add 1); IfPtr 3 [Loop 3 3 4]; Do (SizeVar)].
(* src/events/vscp_evt_information.c:2947-2973 vscp_evt_information_sendProximityDetected *)
Definition evt_information_sendProximityDetected : Sender := mkSender "vscp_evt_information_sendProximityDetected" 20 88 3 [("userSpecific", PInt 1); ("zone", PInt 1); ("subzone", PInt 1); ("proximityLevel", PRef 2)]
  [Do (Set_ 0 (Par 0)); Do (Add 1); Do (Set_ 1 (Par 1)); Do (Add 1); Do (Set_ 2 (Par 2)); Do (Add 1); IfPtr 3 [Set_ 3 (Shift 3 8); Set_ 4 (Shift 3 0); Add 2]; Do (SizeVar)].
(* src/events/vscp_evt_ir.c:79-88 vscp_evt_ir_sendGeneralEvent *)
Definition evt_ir_sendGeneralEvent : Sender := mkSender "vscp_evt_ir_sendGeneralEvent" 110 0 3 []
  [Do (SizeIs 0)].
(* src/events/vscp_evt_ir.c:99-118 vscp_evt_ir_sendRc5SendReceive *)
Definition evt_ir_sendRc5SendReceive : Sender := mkSender "vscp_evt_ir_sendRc5SendReceive" 110 1 3 [("code", PInt 1); ("adress", PInt 1); ("repeat", PInt 1)]
  [Do (Set_ 0 (Par 0)); Do (Add 1); Do (Set_ 1 (Par 1)); Do (Add 1); Do (Set_ 2 (Par 2)); Do (Add 1); Do (SizeVar)].
(* src/events/vscp_evt_ir.c:129-148 vscp_evt_ir_sendSony12BitSendReceive *)
Definition evt_ir_sendSony12BitSendReceive : Sender := mkSender "vscp_evt_ir_sendSony12BitSendReceive" 110 3 3 [("code", PInt 1); ("adress", PInt 1); ("repeat", PInt 1)]
  [Do (Set_ 0 (Par 0)); Do (Add 1); Do (Set_ 1 (Par 1)); Do (Add 1); Do (Set_ 2 (Par 2)); Do (Add 1); Do (SizeVar)].
(* src/events/vscp_evt_ir.c:164-198 vscp_evt_ir_sendLircLinuxInfraredRemoteControl *)
Definition evt_ir_sendLircLinuxInfraredRemoteControl : Sender := mkSender "vscp_evt_ir_sendLircLinuxInfraredRemoteControl" 110 32 3 [("code6", PInt 1); ("code5", PInt 1); ("code4", PInt 1); ("code3", PInt 1); ("code2", PInt 1); ("code1", PInt 1); ("code0", PInt 1); ("repeat", PInt 1)]
  [Do (Set_ 0 (Par 0)); Do (Add 1); Do (Set_ 1 (Par 1)); Do (Add 1); Do (Set_ 2 (Par 2)); Do (Add 1); Do (Set_ 3 (Par 3)); Do (Add 1); Do (Set_ 4 (Par 4)); Do (Add 1); Do (Set_ 5 (Par 5)); Do (Add 1); Do (Set_ 6 (Par 6)); Do (Add 1); Do (Set_ 7 (Par 7)); Do (Add 1); Do (SizeVar)].
(* src/events/vscp_evt_ir.c:210-233 vscp_evt_ir_sendVscpAbstractRemoteFormat *)
Definition evt_ir_sendVscpAbstractRemoteFormat : Sender := mkSender "vscp_evt_ir_sendVscpAbstractRemoteFormat" 110 48 3 [("code", PInt 2); ("zone", PInt 1); ("subZone", PInt 1); ("repeat", PInt 1)]
  [Do (Set_ 0 (Shift 0 8)); Do (Set_ 1 (Shift 0 0)); Do (Add 2); Do (Set_ 2 (Par 1)); Do (Add 1); Do (Set_ 3 (Par 2)); Do (Add 1); Do (Set_ 4 (Par 3)); Do (Add 1); Do (SizeVar)].
(* src/events/vscp_evt_ir.c:246-274 vscp_evt_ir_sendMapitoRemoteFormat *)
Definition evt_ir_sendMapitoRemoteFormat : Sender := mkSender "vscp_evt_ir_sendMapitoRemoteFormat" 110 49 3 [("repeat", PInt 1); ("zone", PInt 1); ("subZone", PInt 1); ("address", PInt 4); ("keyCode", PInt 1)]
  [Do (Set_ 0 (Par 0)); Do (Add 1); Do (Set_ 1 (Par 1)); Do (Add 1); Do (Set_ 2 (Par 2)); Do (Add 1); Do (Set_ 3 (Shift 3 24)); Do (Set_ 4 (Shift 3 16)); Do (Set_ 5 (Shift 3 8)); Do (Set_ 6 (Shift 3 0)); Do (Add 4); Do (Set_ 7 (Par 4)); Do (Add 1); Do (SizeVar)].
(* src/events/vscp_evt_log.c:79-88 vscp_evt_log_sendGeneralEvent *)
Definition evt_log_sendGeneralEvent : Sender := mkSender "vscp_evt_log_sendGeneralEvent" 509 0 3 []
  [Do (SizeIs 0)].
(* src/events/vscp_evt_log.c:101-137 vscp_evt_log_sendLogEvent *)
Definition evt_log_sendLogEvent : Sender := mkSender "vscp_evt_log_sendLogEvent" 509 1 3 [("id", PInt 1); ("logLevel", PInt 1); ("index", PInt 1); ("msg", PBuf true); ("msgSize", PSize)]
  [Guard 3 4; Do (Set_ 0 (Par 0)); Do (Add 1); Do (Set_ 1 (Par 1)); Do (Add 1); Do (Set_ 2 (Par 2)); Do (Add 1); Do (Loop 3 3 4); Do (SizeVar)].
(* src/events/vscp_evt_log.c:146-159 vscp_evt_log_sendLogStart *)
Definition evt_log_sendLogStart : Sender := mkSender "vscp_evt_log_sendLogStart" 509 2 3 [("id", PInt 1)]
  [Do (Set_ 0 (Par 0)); Do (Add 1); Do (SizeVar)].
(* src/events/vscp_evt_log.c:168-181 vscp_evt_log_sendLogStop *)
Definition evt_log_sendLogStop : Sender := mkSender "vscp_evt_log_sendLogStop" 509 3 3 [("id", PInt 1)]
  [Do (Set_ 0 (Par 0)); Do (Add 1); Do (SizeVar)].
(* src/events/vscp_evt_log.c:190-203 vscp_evt_log_sendLogLevel *)
Definition evt_log_sendLogLevel : Sender := mkSender "vscp_evt_log_sendLogLevel" 509 4 3 [("level", PInt 1)]
  [Do (Set_ 0 (Par 0)); Do (Add 1); Do (SizeVar)].
(* src/events/vscp_evt_measurement.c:80-89 vscp_evt_measurement_sendGeneralEvent *)
Definition evt_measurement_sendGeneralEvent : Sender := mkSender "vscp_evt_measurement_sendGeneralEvent" 10 0 3 []
  [Do (SizeIs 0)].
(* src/events/vscp_evt_measurement.c:101-113 vscp_evt_measurement_sendCount *)
Definition evt_measurement_sendCount : Sender := mkSender "vscp_evt_measurement_sendCount" 10 1 3 [("index", PInt 1); ("unit", PUnit); ("data", PData); ("exp", PExp)]
  [Do (SizeIs 1); Do (Set_ 0 (Fmt 4 1 0)); Do (Norm 1 2 3)].
(* src/events/vscp_evt_measurement.c:125-137 vscp_evt_measurement_sendLengthDistance *)
Definition evt_measurement_sendLengthDistance : Sender := mkSender "vscp_evt_measurement_sendLengthDistance" 10 2 3 [("index", PInt 1); ("unit", PUnit); ("data", PData); ("exp", PExp)]
  [Do (SizeIs 1); Do (Set_ 0 (Fmt 4 1 0)); Do (Norm 1 2 3)].
(* src/events/vscp_evt_measurement.c:149-161 vscp_evt_measurement_sendMass *)
Definition evt_measurement_sendMass : Sender := mkSender "vscp_evt_measurement_sendMass" 10 3 3 [("index", PInt 1); ("unit", PUnit); ("data", PData); ("exp", PExp)]
  [Do (SizeIs 1); Do (Set_ 0 (Fmt 4 1 0)); Do (Norm 1 2 3)].
(* src/events/vscp_evt_measurement.c:173-185 vscp_evt_measurement_sendTime *)
Definition evt_measurement_sendTime : Sender := mkSender "vscp_evt_measurement_sendTime" 10 4 3 [("index", PInt 1); ("unit", PUnit); ("data", PData); ("exp", PExp)]
  [Do (SizeIs 1); Do (Set_ 0 (Fmt 4 1 0)); Do (Norm 1 2 3)].
(* src/events/vscp_evt_measurement.c:197-209 vscp_evt_measurement_sendElectricCurrent *)
Definition evt_measurement_sendElectricCurrent : Sender := mkSender "vscp_evt_measurement_sendElectricCurrent" 10 5 3 [("index", PInt 1); ("unit", PUnit); ("data", PData); ("exp", PExp)]
  [Do (SizeIs 1); Do (Set_ 0 (Fmt 4 1 0)); Do (Norm 1 2 3)].
(* src/events/vscp_evt_measurement.c:221-233 vscp_evt_measurement_sendTemperature *)
Definition evt_measurement_sendTemperature : Sender := mkSender "vscp_evt_measurement_sendTemperature" 10 6 3 [("index", PInt 1); ("unit", PUnit); ("data", PData); ("exp", PExp)]
  [Do (SizeIs 1); Do (Set_ 0 (Fmt 4 1 0)); Do (Norm 1 2 3)].
(* src/events/vscp_evt_measurement.c:245-257 vscp_evt_measurement_sendAmountOfSubstance *)
Definition evt_measurement_sendAmountOfSubstance : Sender := mkSender "vscp_evt_measurement_sendAmountOfSubstance" 10 7 3 [("index", PInt 1); ("unit", PUnit); ("data", PData); ("exp", PExp)]
  [Do (SizeIs 1); Do (Set_ 0 (Fmt 4 1 0)); Do (Norm 1 2 3)].
(* src/events/vscp_evt_measurement.c:269-281 vscp_evt_measurement_sendLuminousIntensityIntensityOfLight *)
Definition evt_measurement_sendLuminousIntensityIntensityOfLight : Sender := mkSender "vscp_evt_measurement_sendLuminousIntensityIntensityOfLight" 10 8 3 [("index", PInt 1); ("unit", PUnit); ("data", PData); ("exp", PExp)]
  [Do (SizeIs 1); Do (Set_ 0 (Fmt 4 1 0)); Do (Norm 1 2 3)].
(* src/events/vscp_evt_measurement.c:293-305 vscp_evt_measurement_sendFrequency *)
Definition evt_measurement_sendFrequency : Sender := mkSender "vscp_evt_measurement_sendFrequency" 10 9 3 [("index", PInt 1); ("unit", PUnit); ("data", PData); ("exp", PExp)]
  [Do (SizeIs 1); Do (Set_ 0 (Fmt 4 1 0)); Do (Norm 1 2 3)].
(* src/events/vscp_evt_measurement.c:317-329 vscp_evt_measurement_sendRadioactivityAndOtherRandomEvents *)
Definition evt_measurement_sendRadioactivityAndOtherRandomEvents : Sender := mkSender "vscp_evt_measurement_sendRadioactivityAndOtherRandomEvents" 10 10 3 [("index", PInt 1); ("unit", PUnit); ("data", PData); ("exp", PExp)]
  [Do (SizeIs 1); Do (Set_ 0 (Fmt 4 1 0)); Do (Norm 1 2 3)].
(* src/events/vscp_evt_measurement.c:341-353 vscp_evt_measurement_sendForce *)
Definition evt_measurement_sendForce : Sender := mkSender "vscp_evt_measurement_sendForce" 10 11 3 [("index", PInt 1); ("unit", PUnit); ("data", PData); ("exp", PExp)]
  [Do (SizeIs 1); Do (Set_ 0 (Fmt 4 1 0)); Do (Norm 1 2 3)].
(* src/events/vscp_evt_measurement.c:365-377 vscp_evt_measurement_sendPressure *)
Definition evt_measurement_sendPressure : Sender := mkSender "vscp_evt_measurement_sendPressure" 10 12 3 [("index", PInt 1); ("unit", PUnit); ("data", PData); ("exp", PExp)]
  [Do (SizeIs 1); Do (Set_ 0 (Fmt 4 1 0)); Do (Norm 1 2 3)].
(* src/events/vscp_evt_measurement.c:389-401 vscp_evt_measurement_sendEnergy *)
Definition evt_measurement_sendEnergy : Sender := mkSender "vscp_evt_measurement_sendEnergy" 10 13 3 [("index", PInt 1); ("unit", PUnit); ("data", PData); ("exp", PExp)]
  [Do (SizeIs 1); Do (Set_ 0 (Fmt 4 1 0)); Do (Norm 1 2 3)].
(* src/events/vscp_evt_measurement.c:413-425 vscp_evt_measurement_sendPower *)
Definition evt_measurement_sendPower : Sender := mkSender "vscp_evt_measurement_sendPower" 10 14 3 [("index", PInt 1); ("unit", PUnit); ("data", PData); ("exp", PExp)]
  [Do (SizeIs 1); Do (Set_ 0 (Fmt 4 1 0)); Do (Norm 1 2 3)].
(* src/events/vscp_evt_measurement.c:437-449 vscp_evt_measurement_sendElectricalCharge *)
Definition evt_measurement_sendElectricalCharge : Sender := mkSender "vscp_evt_measurement_sendElectricalCharge" 10 15 3 [("index", PInt 1); ("unit", PUnit); ("data", PData); ("exp", PExp)]
  [Do (SizeIs 1); Do (Set_ 0 (Fmt 4 1 0)); Do (Norm 1 2 3)].
(* src/events/vscp_evt_measurement.c:461-473 vscp_evt_measurement_sendElectricalPotentialVoltage *)
Definition evt_measurement_sendElectricalPotentialVoltage : Sender := mkSender "vscp_evt_measurement_sendElectricalPotentialVoltage" 10 16 3 [("index", PInt 1); ("unit", PUnit); ("data", PData); ("exp", PExp)]
  [Do (SizeIs 1); Do (Set_ 0 (Fmt 4 1 0)); Do (Norm 1 2 3)].
(* src/events/vscp_evt_measurement.c:485-497 vscp_evt_measurement_sendElectricalCapacitance *)
Definition evt_measurement_sendElectricalCapacitance : Sender := mkSender "vscp_evt_measurement_sendElectricalCapacitance" 10 17 3 [("index", PInt 1); ("unit", PUnit); ("data", PData); ("exp", PExp)]
  [Do (SizeIs 1); Do (Set_ 0 (Fmt 4 1 0)); Do (Norm 1 2 3)].
(* src/events/vscp_evt_measurement.c:509-521 vscp_evt_measurement_sendElectricalResistance *)
Definition evt_measurement_sendElectricalResistance : Sender := mkSender "vscp_evt_measurement_sendElectricalResistance" 10 18 3 [("index", PInt 1); ("unit", PUnit); ("data", PData); ("exp", PExp)]
  [Do (SizeIs 1); Do (Set_ 0 (Fmt 4 1 0)); Do (Norm 1 2 3)].
(* src/events/vscp_evt_measurement.c:533-545 vscp_evt_measurement_sendElectricalConductance *)
Definition evt_measurement_sendElectricalConductance : Sender := mkSender "vscp_evt_measurement_sendElectricalConductance" 10 19 3 [("index", PInt 1); ("unit", PUnit); ("data", PData); ("exp", PExp)]
  [Do (SizeIs 1); Do (Set_ 0 (Fmt 4 1 0)); Do (Norm 1 2 3)].
(* src/events/vscp_evt_measurement.c:557-569 vscp_evt_measurement_sendMagneticFieldStrength *)
Definition evt_measurement_sendMagneticFieldStrength : Sender := mkSender "vscp_evt_measurement_sendMagneticFieldStrength" 10 20 3 [("index", PInt 1); ("unit", PUnit); ("data", PData); ("exp", PExp)]
  [Do (SizeIs 1); Do (Set_ 0 (Fmt 4 1 0)); Do (Norm 1 2 3)].
(* src/events/vscp_evt_measurement.c:581-593 vscp_evt_measurement_sendMagneticFlux *)
Definition evt_measurement_sendMagneticFlux : Sender := mkSender "vscp_evt_measurement_sendMagneticFlux" 10 21 3 [("index", PInt 1); ("unit", PUnit); ("data", PData); ("exp", PExp)]
  [Do (SizeIs 1); Do (Set_ 0 (Fmt 4 1 0)); Do (Norm 1 2 3)].
(* src/events/vscp_evt_measurement.c:605-617 vscp_evt_measurement_sendMagneticFluxDensity *)
Definition evt_measurement_sendMagneticFluxDensity : Sender := mkSender "vscp_evt_measurement_sendMagneticFluxDensity" 10 22 3 [("index", PInt 1); ("unit", PUnit); ("data", PData); ("exp", PExp)]
  [Do (SizeIs 1); Do (Set_ 0 (Fmt 4 1 0)); Do (Norm 1 2 3)].
(* src/events/vscp_evt_measurement.c:629-641 vscp_evt_measurement_sendInductance *)
Definition evt_measurement_sendInductance : Sender := mkSender "vscp_evt_measurement_sendInductance" 10 23 3 [("index", PInt 1); ("unit", PUnit); ("data", PData); ("exp", PExp)]
  [Do (SizeIs 1); Do (Set_ 0 (Fmt 4 1 0)); Do (Norm 1 2 3)].
(* src/events/vscp_evt_measurement.c:653-665 vscp_evt_measurement_sendLuminousFlux *)
Definition evt_measurement_sendLuminousFlux : Sender := mkSender "vscp_evt_measurement_sendLuminousFlux" 10 24 3 [("index", PInt 1); ("unit", PUnit); ("data", PData); ("exp", PExp)]
  [Do (SizeIs 1); Do (Set_ 0 (Fmt 4 1 0)); Do (Norm 1 2 3)].
(* src/events/vscp_evt_measurement.c:677-689 vscp_evt_measurement_sendIlluminance *)
Definition evt_measurement_sendIlluminance : Sender := mkSender "vscp_evt_measurement_sendIlluminance" 10 25 3 [("index", PInt 1); ("unit", PUnit); ("data", PData); ("exp", PExp)]
  [Do (SizeIs 1); Do (Set_ 0 (Fmt 4 1 0)); Do (Norm 1 2 3)].
(* src/events/vscp_evt_measurement.c:701-713 vscp_evt_measurement_sendRadiationDose *)
Definition evt_measurement_sendRadiationDose : Sender := mkSender "vscp_evt_measurement_sendRadiationDose" 10 26 3 [("index", PInt 1); ("unit", PUnit); ("data", PData); ("exp", PExp)]
  [Do (SizeIs 1); Do (Set_ 0 (Fmt 4 1 0)); Do (Norm 1 2 3)].
(* src/events/vscp_evt_measurement.c:725-737 vscp_evt_measurement_sendCatalyticActivity *)
Definition evt_measurement_sendCatalyticActivity : Sender := mkSender "vscp_evt_measurement_sendCatalyticActivity" 10 27 3 [("index", PInt 1); ("unit", PUnit); ("data", PData); ("exp", PExp)]
  [Do (SizeIs 1); Do (Set_ 0 (Fmt 4 1 0)); Do (Norm 1 2 3)].
(* src/events/vscp_evt_measurement.c:749-761 vscp_evt_measurement_sendVolume *)
Definition evt_measurement_sendVolume : Sender := mkSender "vscp_evt_measurement_sendVolume" 10 28 3 [("index", PInt 1); ("unit", PUnit); ("data", PData); ("exp", PExp)]
  [Do (SizeIs 1); Do (Set_ 0 (Fmt 4 1 0)); Do (Norm 1 2 3)].
(* src/events/vscp_evt_measurement.c:773-785 vscp_evt_measurement_sendSoundIntensity *)
Definition evt_measurement_sendSoundIntensity : Sender := mkSender "vscp_evt_measurement_sendSoundIntensity" 10 29 3 [("index", PInt 1); ("unit", PUnit); ("data", PData); ("exp", PExp)]
  [Do (SizeIs 1); Do (Set_ 0 (Fmt 4 1 0)); Do (Norm 1 2 3)].
(* src/events/vscp_evt_measurement.c:797-809 vscp_evt_measurement_sendAngleDirectionOrSimilar *)
Definition evt_measurement_sendAngleDirectionOrSimilar : Sender := mkSender "vscp_evt_measurement_sendAngleDirectionOrSimilar" 10 30 3 [("index", PInt 1); ("unit", PUnit); ("data", PData); ("exp", PExp)]
  [Do (SizeIs 1); Do (Set_ 0 (Fmt 4 1 0)); Do (Norm 1 2 3)].
(* src/events/vscp_evt_measurement.c:821-833 vscp_evt_measurement_sendPositionWgs84 *)
Definition evt_measurement_sendPositionWgs84 : Sender := mkSender "vscp_evt_measurement_sendPositionWgs84" 10 31 3 [("index", PInt 1); ("unit", PUnit); ("data", PData); ("exp", PExp)]
  [Do (SizeIs 1); Do (Set_ 0 (Fmt 4 1 0)); Do (Norm 1 2 3)].
(* src/events/vscp_evt_measurement.c:845-857 vscp_evt_measurement_sendSpeed *)
Definition evt_measurement_sendSpeed : Sender := mkSender "vscp_evt_measurement_sendSpeed" 10 32 3 [("index", PInt 1); ("unit", PUnit); ("data", PData); ("exp", PExp)]
  [Do (SizeIs 1); Do (Set_ 0 (Fmt 4 1 0)); Do (Norm 1 2 3)].
(* src/events/vscp_evt_measurement.c:869-881 vscp_evt_measurement_sendAcceleration *)
Definition evt_measurement_sendAcceleration : Sender := mkSender "vscp_evt_measurement_sendAcceleration" 10 33 3 [("index", PInt 1); ("unit", PUnit); ("data", PData); ("exp", PExp)]
  [Do (SizeIs 1); Do (Set_ 0 (Fmt 4 1 0)); Do (Norm 1 2 3)].
(* src/events/vscp_evt_measurement.c:893-905 vscp_evt_measurement_sendTension *)
Definition evt_measurement_sendTension : Sender := mkSender "vscp_evt_measurement_sendTension" 10 34 3 [("index", PInt 1); ("unit", PUnit); ("data", PData); ("exp", PExp)]
  [Do (SizeIs 1); Do (Set_ 0 (Fmt 4 1 0)); Do (Norm 1 2 3)].
(* src/events/vscp_evt_measurement.c:917-929 vscp_evt_measurement_sendDampMoistHygrometerReading *)
Definition evt_measurement_sendDampMoistHygrometerReading : Sender := mkSender "vscp_evt_measurement_sendDampMoistHygrometerReading" 10 35 3 [("index", PInt 1); ("unit", PUnit); ("data", PData); ("exp", PExp)]
  [Do (SizeIs 1); Do (Set_ 0 (Fmt 4 1 0)); Do (Norm 1 2 3)].
(* src/events/vscp_evt_measurement.c:941-953 vscp_evt_measurement_sendFlow *)
Definition evt_measurement_sendFlow : Sender := mkSender "vscp_evt_measurement_sendFlow" 10 36 3 [("index", PInt 1); ("unit", PUnit); ("data", PData); ("exp", PExp)]
  [Do (SizeIs 1); Do (Set_ 0 (Fmt 4 1 0)); Do (Norm 1 2 3)].
(* src/events/vscp_evt_measurement.c:965-977 vscp_evt_measurement_sendThermalResistance *)
Definition evt_measurement_sendThermalResistance : Sender := mkSender "vscp_evt_measurement_sendThermalResistance" 10 37 3 [("index", PInt 1); ("unit", PUnit); ("data", PData); ("exp", PExp)]
  [Do (SizeIs 1); Do (Set_ 0 (Fmt 4 1 0)); Do (Norm 1 2 3)].
(* src/events/vscp_evt_measurement.c:989-1001 vscp_evt_measurement_sendRefractiveOpticalPower *)
Definition evt_measurement_sendRefractiveOpticalPower : Sender := mkSender "vscp_evt_measurement_sendRefractiveOpticalPower" 10 38 3 [("index", PInt 1); ("unit", PUnit); ("data", PData); ("exp", PExp)]
  [Do (SizeIs 1); Do (Set_ 0 (Fmt 4 1 0)); Do (Norm 1 2 3)].
(* src/events/vscp_evt_measurement.c:1013-1025 vscp_evt_measurement_sendDynamicViscosity *)
Definition evt_measurement_sendDynamicViscosity : Sender := mkSender "vscp_evt_measurement_sendDynamicViscosity" 10 39 3 [("index", PInt 1); ("unit", PUnit); ("data", PData); ("exp", PExp)]
  [Do (SizeIs 1); Do (Set_ 0 (Fmt 4 1 0)); Do (Norm 1 2 3)].
(* src/events/vscp_evt_measurement.c:1037-1049 vscp_evt_measurement_sendSoundImpedance *)
Definition evt_measurement_sendSoundImpedance : Sender := mkSender "vscp_evt_measurement_sendSoundImpedance" 10 40 3 [("index", PInt 1); ("unit", PUnit); ("data", PData); ("exp", PExp)]
  [Do (SizeIs 1); Do (Set_ 0 (Fmt 4 1 0)); Do (Norm 1 2 3)].
(* src/events/vscp_evt_measurement.c:1061-1073 vscp_evt_measurement_sendSoundResistance *)
Definition evt_measurement_sendSoundResistance : Sender := mkSender "vscp_evt_measurement_sendSoundResistance" 10 41 3 [("index", PInt 1); ("unit", PUnit); ("data", PData); ("exp", PExp)]
  [Do (SizeIs 1); Do (Set_ 0 (Fmt 4 1 0)); Do (Norm 1 2 3)].
(* src/events/vscp_evt_measurement.c:1085-1097 vscp_evt_measurement_sendElectricElastance *)
Definition evt_measurement_sendElectricElastance : Sender := mkSender "vscp_evt_measurement_sendElectricElastance" 10 42 3 [("index", PInt 1); ("unit", PUnit); ("data", PData); ("exp", PExp)]
  [Do (SizeIs 1); Do (Set_ 0 (Fmt 4 1 0)); Do (Norm 1 2 3)].
(* src/events/vscp_evt_measurement.c:1109-1121 vscp_evt_measurement_sendLuminousEnergy *)
Definition evt_measurement_sendLuminousEnergy : Sender := mkSender "vscp_evt_measurement_sendLuminousEnergy" 10 43 3 [("index", PInt 1); ("unit", PUnit); ("data", PData); ("exp", PExp)]
  [Do (SizeIs 1); Do (Set_ 0 (Fmt 4 1 0)); Do (Norm 1 2 3)].
(* src/events/vscp_evt_measurement.c:1133-1145 vscp_evt_measurement_sendLuminance *)
Definition evt_measurement_sendLuminance : Sender := mkSender "vscp_evt_measurement_sendLuminance" 10 44 3 [("index", PInt 1); ("unit", PUnit); ("data", PData); ("exp", PExp)]
  [Do (SizeIs 1); Do (Set_ 0 (Fmt 4 1 0)); Do (Norm 1 2 3)].
(* src/events/vscp_evt_measurement.c:1157-1169 vscp_evt_measurement_sendChemicalConcentration *)
Definition evt_measurement_sendChemicalConcentration : Sender := mkSender "vscp_evt_measurement_sendChemicalConcentration" 10 45 3 [("index", PInt 1); ("unit", PUnit); ("data", PData); ("exp", PExp)]
  [Do (SizeIs 1); Do (Set_ 0 (Fmt 4 1 0)); Do (Norm 1 2 3)].
(* src/events/vscp_evt_measurement.c:1183-1195 vscp_evt_measurement_sendDoseEquivalent *)
Definition evt_measurement_sendDoseEquivalent : Sender := mkSender "vscp_evt_measurement_sendDoseEquivalent" 10 47 3 [("index", PInt 1); ("unit", PUnit); ("data", PData); ("exp", PExp)]
  [Do (SizeIs 1); Do (Set_ 0 (Fmt 4 1 0)); Do (Norm 1 2 3)].
(* src/events/vscp_evt_measurement.c:1209-1221 vscp_evt_measurement_sendDewPoint *)
Definition evt_measurement_sendDewPoint : Sender := mkSender "vscp_evt_measurement_sendDewPoint" 10 49 3 [("index", PInt 1); ("unit", PUnit); ("data", PData); ("exp", PExp)]
  [Do (SizeIs 1); Do (Set_ 0 (Fmt 4 1 0)); Do (Norm 1 2 3)].
(* src/events/vscp_evt_measurement.c:1233-1245 vscp_evt_measurement_sendRelativeLevel *)
Definition evt_measurement_sendRelativeLevel : Sender := mkSender "vscp_evt_measurement_sendRelativeLevel" 10 50 3 [("index", PInt 1); ("unit", PUnit); ("data", PData); ("exp", PExp)]
  [Do (SizeIs 1); Do (Set_ 0 (Fmt 4 1 0)); Do (Norm 1 2 3)].
(* src/events/vscp_evt_measurement.c:1257-1269 vscp_evt_measurement_sendAltitude *)
Definition evt_measurement_sendAltitude : Sender := mkSender "vscp_evt_measurement_sendAltitude" 10 51 3 [("index", PInt 1); ("unit", PUnit); ("data", PData); ("exp", PExp)]
  [Do (SizeIs 1); Do (Set_ 0 (Fmt 4 1 0)); Do (Norm 1 2 3)].
(* src/events/vscp_evt_measurement.c:1281-1293 vscp_evt_measurement_sendArea *)
Definition evt_measurement_sendArea : Sender := mkSender "vscp_evt_measurement_sendArea" 10 52 3 [("index", PInt 1); ("unit", PUnit); ("data", PData); ("exp", PExp)]
  [Do (SizeIs 1); Do (Set_ 0 (Fmt 4 1 0)); Do (Norm 1 2 3)].
(* src/events/vscp_evt_measurement.c:1305-1317 vscp_evt_measurement_sendRadiantIntensity *)
Definition evt_measurement_sendRadiantIntensity : Sender := mkSender "vscp_evt_measurement_sendRadiantIntensity" 10 53 3 [("index", PInt 1); ("unit", PUnit); ("data", PData); ("exp", PExp)]
  [Do (SizeIs 1); Do (Set_ 0 (Fmt 4 1 0)); Do (Norm 1 2 3)].
(* src/events/vscp_evt_measurement.c:1329-1341 vscp_evt_measurement_sendRadiance *)
Definition evt_measurement_sendRadiance : Sender := mkSender "vscp_evt_measurement_sendRadiance" 10 54 3 [("index", PInt 1); ("unit", PUnit); ("data", PData); ("exp", PExp)]
  [Do (SizeIs 1); Do (Set_ 0 (Fmt 4 1 0)); Do (Norm 1 2 3)].
(* src/events/vscp_evt_measurement.c:1353-1365 vscp_evt_measurement_sendIrradianceExitanceRadiosity *)
Definition evt_measurement_sendIrradianceExitanceRadiosity : Sender := mkSender "vscp_evt_measurement_sendIrradianceExitanceRadiosity" 10 55 3 [("index", PInt 1); ("unit", PUnit); ("data", PData); ("exp", PExp)]
  [Do (SizeIs 1); Do (Set_ 0 (Fmt 4 1 0)); Do (Norm 1 2 3)].
(* src/events/vscp_evt_measurement.c:1377-1389 vscp_evt_measurement_sendSpectralRadiance *)
Definition evt_measurement_sendSpectralRadiance : Sender := mkSender "vscp_evt_measurement_sendSpectralRadiance" 10 56 3 [("index", PInt 1); ("unit", PUnit); ("data", PData); ("exp", PExp)]
  [Do (SizeIs 1); Do (Set_ 0 (Fmt 4 1 0)); Do (Norm 1 2 3)].
(* src/events/vscp_evt_measurement.c:1401-1413 vscp_evt_measurement_sendSpectralIrradiance *)
Definition evt_measurement_sendSpectralIrradiance : Sender := mkSender "vscp_evt_measurement_sendSpectralIrradiance" 10 57 3 [("index", PInt 1); ("unit", PUnit); ("data", PData); ("exp", PExp)]
  [Do (SizeIs 1); Do (Set_ 0 (Fmt 4 1 0)); Do (Norm 1 2 3)].
(* src/events/vscp_evt_measurement.c:1425-1437 vscp_evt_measurement_sendSoundPressureAcousticPressure *)
Definition evt_measurement_sendSoundPressureAcousticPressure : Sender := mkSender "vscp_evt_measurement_sendSoundPressureAcousticPressure" 10 58 3 [("index", PInt 1); ("unit", PUnit); ("data", PData); ("exp", PExp)]
  [Do (SizeIs 1); Do (Set_ 0 (Fmt 4 1 0)); Do (Norm 1 2 3)].
(* src/events/vscp_evt_measurement.c:1449-1461 vscp_evt_measurement_sendSoundEnergyDensity *)
Definition evt_measurement_sendSoundEnergyDensity : Sender := mkSender "vscp_evt_measurement_sendSoundEnergyDensity" 10 59 3 [("index", PInt 1); ("unit", PUnit); ("data", PData); ("exp", PExp)]
  [Do (SizeIs 1); Do (Set_ 0 (Fmt 4 1 0)); Do (Norm 1 2 3)].
(* src/events/vscp_evt_measurement.c:1473-1485 vscp_evt_measurement_sendSoundLevel *)
Definition evt_measurement_sendSoundLevel : Sender := mkSender "vscp_evt_measurement_sendSoundLevel" 10 60 3 [("index", PInt 1); ("unit", PUnit); ("data", PData); ("exp", PExp)]
  [Do (SizeIs 1); Do (Set_ 0 (Fmt 4 1 0)); Do (Norm 1 2 3)].
(* src/events/vscp_evt_measurement.c:1497-1509 vscp_evt_measurement_sendRadiationDoseEquivalent *)
Definition evt_measurement_sendRadiationDoseEquivalent : Sender := mkSender "vscp_evt_measurement_sendRadiationDoseEquivalent" 10 61 3 [("index", PInt 1); ("unit", PUnit); ("data", PData); ("exp", PExp)]
  [Do (SizeIs 1); Do (Set_ 0 (Fmt 4 1 0)); Do (Norm 1 2 3)].
(* src/events/vscp_evt_measurement.c:1521-1533 vscp_evt_measurement_sendRadiationDoseExposure *)
Definition evt_measurement_sendRadiationDoseExposure : Sender := mkSender "vscp_evt_measurement_sendRadiationDoseExposure" 10 62 3 [("index", PInt 1); ("unit", PUnit); ("data", PData); ("exp", PExp)]
  [Do (SizeIs 1); Do (Set_ 0 (Fmt 4 1 0)); Do (Norm 1 2 3)].
(* src/events/vscp_evt_measurement.c:1545-1557 vscp_evt_measurement_sendPowerFactor *)
Definition evt_measurement_sendPowerFactor : Sender := mkSender "vscp_evt_measurement_sendPowerFactor" 10 63 3 [("index", PInt 1); ("unit", PUnit); ("data", PData); ("exp", PExp)]
  [Do (SizeIs 1); Do (Set_ 0 (Fmt 4 1 0)); Do (Norm 1 2 3)].
(* src/events/vscp_evt_measurement.c:1569-1581 vscp_evt_measurement_sendReactivePower *)
Definition evt_measurement_sendReactivePower : Sender := mkSender "vscp_evt_measurement_sendReactivePower" 10 64 3 [("index", PInt 1); ("unit", PUnit); ("data", PData); ("exp", PExp)]
  [Do (SizeIs 1); Do (Set_ 0 (Fmt 4 1 0)); Do (Norm 1 2 3)].
(* src/events/vscp_evt_measurement.c:1593-1605 vscp_evt_measurement_sendReactiveEnergy *)
Definition evt_measurement_sendReactiveEnergy : Sender := mkSender "vscp_evt_measurement_sendReactiveEnergy" 10 65 3 [("index", PInt 1); ("unit", PUnit); ("data", PData); ("exp", PExp)]
  [Do (SizeIs 1); Do (Set_ 0 (Fmt 4 1 0)); Do (Norm 1 2 3)].
(* src/events/vscp_evt_measurement32.c:79-88 vscp_evt_measurement32_sendGeneralEvent *)
Definition evt_measurement32_sendGeneralEvent : Sender := mkSender "vscp_evt_measurement32_sendGeneralEvent" 70 0 3 []
  [Do (SizeIs 0)].
(* src/events/vscp_evt_measurement32.c:97-113 vscp_evt_measurement32_sendCount *)
Definition evt_measurement32_sendCount : Sender := mkSender "vscp_evt_measurement32_sendCount" 70 1 3 [("value", PFloat)]
  [Do (Set_ 0 (Byte 0 4 3)); Do (Set_ 1 (Byte 0 4 2)); Do (Set_ 2 (Byte 0 4 1)); Do (Set_ 3 (Byte 0 4 0)); Do (Add 4); Do (SizeVar)].
(* src/events/vscp_evt_measurement32.c:122-138 vscp_evt_measurement32_sendLengthDistance *)
Definition evt_measurement32_sendLengthDistance : Sender := mkSender "vscp_evt_measurement32_sendLengthDistance" 70 2 3 [("value", PFloat)]
  [Do (Set_ 0 (Byte 0 4 3)); Do (Set_ 1 (Byte 0 4 2)); Do (Set_ 2 (Byte 0 4 1)); Do (Set_ 3 (Byte 0 4 0)); Do (Add 4); Do (SizeVar)].
(* src/events/vscp_evt_measurement32.c:147-163 vscp_evt_measurement32_sendMass *)
Definition evt_measurement32_sendMass : Sender := mkSender "vscp_evt_measurement32_sendMass" 70 3 3 [("value", PFloat)]
  [Do (Set_ 0 (Byte 0 4 3)); Do (Set_ 1 (Byte 0 4 2)); Do (Set_ 2 (Byte 0 4 1)); Do (Set_ 3 (Byte 0 4 0)); Do (Add 4); Do (SizeVar)].
(* src/events/vscp_evt_measurement32.c:172-188 vscp_evt_measurement32_sendTime *)
Definition evt_measurement32_sendTime : Sender := mkSender "vscp_evt_measurement32_sendTime" 70 4 3 [("value", PFloat)]
  [Do (Set_ 0 (Byte 0 4 3)); Do (Set_ 1 (Byte 0 4 2)); Do (Set_ 2 (Byte 0 4 1)); Do (Set_ 3 (Byte 0 4 0)); Do (Add 4); Do (SizeVar)].
(* src/events/vscp_evt_measurement32.c:197-213 vscp_evt_measurement32_sendElectricCurrent *)
Definition evt_measurement32_sendElectricCurrent : Sender := mkSender "vscp_evt_measurement32_sendElectricCurrent" 70 5 3 [("value", PFloat)]
  [Do (Set_ 0 (Byte 0 4 3)); Do (Set_ 1 (Byte 0 4 2)); Do (Set_ 2 (Byte 0 4 1)); Do (Set_ 3 (Byte 0 4 0)); Do (Add 4); Do (SizeVar)].
(* src/events/vscp_evt_measurement32.c:222-238 vscp_evt_measurement32_sendTemperature *)
Definition evt_measurement32_sendTemperature : Sender := mkSender "vscp_evt_measurement32_sendTemperature" 70 6 3 [("value", PFloat)]
  [Do (Set_ 0 (Byte 0 4 3)); Do (Set_ 1 (Byte 0 4 2)); Do (Set_ 2 (Byte 0 4 1)); Do (Set_ 3 (Byte 0 4 0)); Do (Add 4); Do (SizeVar)].
(* src/events/vscp_evt_measurement32.c:247-263 vscp_evt_measurement32_sendAmountOfSubstance *)
Definition evt_measurement32_sendAmountOfSubstance : Sender := mkSender "vscp_evt_measurement32_sendAmountOfSubstance" 70 7 3 [("value", PFloat)]
  [Do (Set_ 0 (Byte 0 4 3)); Do (Set_ 1 (Byte 0 4 2)); Do (Set_ 2 (Byte 0 4 1)); Do (Set_ 3 (Byte 0 4 0)); Do (Add 4); Do (SizeVar)].
(* src/events/vscp_evt_measurement32.c:272-288 vscp_evt_measurement32_sendLuminousIntensityIntensityOfLight *)
Definition evt_measurement32_sendLuminousIntensityIntensityOfLight : Sender := mkSender "vscp_evt_measurement32_sendLuminousIntensityIntensityOfLight" 70 8 3 [("value", PFloat)]
  [Do (Set_ 0 (Byte 0 4 3)); Do (Set_ 1 (Byte 0 4 2)); Do (Set_ 2 (Byte 0 4 1)); Do (Set_ 3 (Byte 0 4 0)); Do (Add 4); Do (SizeVar)].
(* src/events/vscp_evt_measurement32.c:297-313 vscp_evt_measurement32_sendFrequency *)
Definition evt_measurement32_sendFrequency : Sender := mkSender "vscp_evt_measurement32_sendFrequency" 70 9 3 [("value", PFloat)]
  [Do (Set_ 0 (Byte 0 4 3)); Do (Set_ 1 (Byte 0 4 2)); Do (Set_ 2 (Byte 0 4 1)); Do (Set_ 3 (Byte 0 4 0)); Do (Add 4); Do (SizeVar)].
(* src/events/vscp_evt_measurement32.c:322-338 vscp_evt_measurement32_sendRadioactivityAndOtherRandomEvents *)
Definition evt_measurement32_sendRadioactivityAndOtherRandomEvents : Sender := mkSender "vscp_evt_measurement32_sendRadioactivityAndOtherRandomEvents" 70 10 3 [("value", PFloat)]
  [Do (Set_ 0 (Byte 0 4 3)); Do (Set_ 1 (Byte 0 4 2)); Do (Set_ 2 (Byte 0 4 1)); Do (Set_ 3 (Byte 0 4 0)); Do (Add 4); Do (SizeVar)].
(* src/events/vscp_evt_measurement32.c:347-363 vscp_evt_measurement32_sendForce *)
Definition evt_measurement32_sendForce : Sender := mkSender "vscp_evt_measurement32_sendForce" 70 11 3 [("value", PFloat)]
  [Do (Set_ 0 (Byte 0 4 3)); Do (Set_ 1 (Byte 0 4 2)); Do (Set_ 2 (Byte 0 4 1)); Do (Set_ 3 (Byte 0 4 0)); Do (Add 4); Do (SizeVar)].
(* src/events/vscp_evt_measurement32.c:372-388 vscp_evt_measurement32_sendPressure *)
Definition evt_measurement32_sendPressure : Sender := mkSender "vscp_evt_measurement32_sendPressure" 70 12 3 [("value", PFloat)]
  [Do (Set_ 0 (Byte 0 4 3)); Do (Set_ 1 (Byte 0 4 2)); Do (Set_ 2 (Byte 0 4 1)); Do (Set_ 3 (Byte 0 4 0)); Do (Add 4); Do (SizeVar)].
(* src/events/vscp_evt_measurement32.c:397-413 vscp_evt_measurement32_sendEnergy *)
Definition evt_measurement32_sendEnergy : Sender := mkSender "vscp_evt_measurement32_sendEnergy" 70 13 3 [("value", PFloat)]
  [Do (Set_ 0 (Byte 0 4 3)); Do (Set_ 1 (Byte 0 4 2)); Do (Set_ 2 (Byte 0 4 1)); Do (Set_ 3 (Byte 0 4 0)); Do (Add 4); Do (SizeVar)].
(* src/events/vscp_evt_measurement32.c:422-438 vscp_evt_measurement32_sendPower *)
Definition evt_measurement32_sendPower : Sender := mkSender "vscp_evt_measurement32_sendPower" 70 14 3 [("value", PFloat)]
  [Do (Set_ 0 (Byte 0 4 3)); Do (Set_ 1 (Byte 0 4 2)); Do (Set_ 2 (Byte 0 4 1)); Do (Set_ 3 (Byte 0 4 0)); Do (Add 4); Do (SizeVar)].
(* src/events/vscp_evt_measurement32.c:447-463 vscp_evt_measurement32_sendElectricalCharge *)
Definition evt_measurement32_sendElectricalCharge : Sender := mkSender "vscp_evt_measurement32_sendElectricalCharge" 70 15 3 [("value", PFloat)]
  [Do (Set_ 0 (Byte 0 4 3)); Do (Set_ 1 (Byte 0 4 2)); Do (Set_ 2 (Byte 0 4 1)); Do (Set_ 3 (Byte 0 4 0)); Do (Add 4); Do (SizeVar)].
(* src/events/vscp_evt_measurement32.c:472-488 vscp_evt_measurement32_sendElectricalPotentialVoltage *)
Definition evt_measurement32_sendElectricalPotentialVoltage : Sender := mkSender "vscp_evt_measurement32_sendElectricalPotentialVoltage" 70 16 3 [("value", PFloat)]
  [Do (Set_ 0 (Byte 0 4 3)); Do (Set_ 1 (Byte 0 4 2)); Do (Set_ 2 (Byte 0 4 1)); Do (Set_ 3 (Byte 0 4 0)); Do (Add 4); Do (SizeVar)].
(* src/events/vscp_evt_measurement32.c:497-513 vscp_evt_measurement32_sendElectricalCapacitance *)
Definition evt_measurement32_sendElectricalCapacitance : Sender := mkSender "vscp_evt_measurement32_sendElectricalCapacitance" 70 17 3 [("value", PFloat)]
  [Do (Set_ 0 (Byte 0 4 3)); Do (Set_ 1 (Byte 0 4 2)); Do (Set_ 2 (Byte 0 4 1)); Do (Set_ 3 (Byte 0 4 0)); Do (Add 4); Do (SizeVar)].
(* src/events/vscp_evt_measurement32.c:522-538 vscp_evt_measurement32_sendElectricalResistance *)
Definition evt_measurement32_sendElectricalResistance : Sender := mkSender "vscp_evt_measurement32_sendElectricalResistance" 70 18 3 [("value", PFloat)]
  [Do (Set_ 0 (Byte 0 4 3)); Do (Set_ 1 (Byte 0 4 2)); Do (Set_ 2 (Byte 0 4 1)); Do (Set_ 3 (Byte 0 4 0)); Do (Add 4); Do (SizeVar)].
(* src/events/vscp_evt_measurement32.c:547-563 vscp_evt_measurement32_sendElectricalConductance *)
Definition evt_measurement32_sendElectricalConductance : Sender := mkSender "vscp_evt_measurement32_sendElectricalConductance" 70 19 3 [("value", PFloat)]
  [Do (Set_ 0 (Byte 0 4 3)); Do (Set_ 1 (Byte 0 4 2)); Do (Set_ 2 (Byte 0 4 1)); Do (Set_ 3 (Byte 0 4 0)); Do (Add 4); Do (SizeVar)].
(* src/events/vscp_evt_measurement32.c:572-588 vscp_evt_measurement32_sendMagneticFieldStrength *)
Definition evt_measurement32_sendMagneticFieldStrength : Sender := mkSender "vscp_evt_measurement32_sendMagneticFieldStrength" 70 20 3 [("value", PFloat)]
  [Do (Set_ 0 (Byte 0 4 3)); Do (Set_ 1 (Byte 0 4 2)); Do (Set_ 2 (Byte 0 4 1)); Do (Set_ 3 (Byte 0 4 0)); Do (Add 4); Do (SizeVar)].
(* src/events/vscp_evt_measurement32.c:597-613 vscp_evt_measurement32_sendMagneticFlux *)
Definition evt_measurement32_sendMagneticFlux : Sender := mkSender "vscp_evt_measurement32_sendMagneticFlux" 70 21 3 [("value", PFloat)]
  [Do (Set_ 0 (Byte 0 4 3)); Do (Set_ 1 (Byte 0 4 2)); Do (Set_ 2 (Byte 0 4 1)); Do (Set_ 3 (Byte 0 4 0)); Do (Add 4); Do (SizeVar)].
(* src/events/vscp_evt_measurement32.c:622-638 vscp_evt_measurement32_sendMagneticFluxDensity *)
Definition evt_measurement32_sendMagneticFluxDensity : Sender := mkSender "vscp_evt_measurement32_sendMagneticFluxDensity" 70 22 3 [("value", PFloat)]
  [Do (Set_ 0 (Byte 0 4 3)); Do (Set_ 1 (Byte 0 4 2)); Do (Set_ 2 (Byte 0 4 1)); Do (Set_ 3 (Byte 0 4 0)); Do (Add 4); Do (SizeVar)].
(* src/events/vscp_evt_measurement32.c:647-663 vscp_evt_measurement32_sendInductance *)
Definition evt_measurement32_sendInductance : Sender := mkSender "vscp_evt_measurement32_sendInductance" 70 23 3 [("value", PFloat)]
  [Do (Set_ 0 (Byte 0 4 3)); Do (Set_ 1 (Byte 0 4 2)); Do (Set_ 2 (Byte 0 4 1)); Do (Set_ 3 (Byte 0 4 0)); Do (Add 4); Do (SizeVar)].
(* src/events/vscp_evt_measurement32.c:672-688 vscp_evt_measurement32_sendLuminousFlux *)
Definition evt_measurement32_sendLuminousFlux : Sender := mkSender "vscp_evt_measurement32_sendLuminousFlux" 70 24 3 [("value", PFloat)]
  [Do (Set_ 0 (Byte 0 4 3)); Do (Set_ 1 (Byte 0 4 2)); Do (Set_ 2 (Byte 0 4 1)); Do (Set_ 3 (Byte 0 4 0)); Do (Add 4); Do (SizeVar)].
(* src/events/vscp_evt_measurement32.c:697-713 vscp_evt_measurement32_sendIlluminance *)
Definition evt_measurement32_sendIlluminance : Sender := mkSender "vscp_evt_measurement32_sendIlluminance" 70 25 3 [("value", PFloat)]
  [Do (Set_ 0 (Byte 0 4 3)); Do (Set_ 1 (Byte 0 4 2)); Do (Set_ 2 (Byte 0 4 1)); Do (Set_ 3 (Byte 0 4 0)); Do (Add 4); Do (SizeVar)].
(* src/events/vscp_evt_measurement32.c:722-738 vscp_evt_measurement32_sendRadiationDose *)
Definition evt_measurement32_sendRadiationDose : Sender := mkSender "vscp_evt_measurement32_sendRadiationDose" 70 26 3 [("value", PFloat)]
  [Do (Set_ 0 (Byte 0 4 3)); Do (Set_ 1 (Byte 0 4 2)); Do (Set_ 2 (Byte 0 4 1)); Do (Set_ 3 (Byte 0 4 0)); Do (Add 4); Do (SizeVar)].
(* src/events/vscp_evt_measurement32.c:747-763 vscp_evt_measurement32_sendCatalyticActivity *)
Definition evt_measurement32_sendCatalyticActivity : Sender := mkSender "vscp_evt_measurement32_sendCatalyticActivity" 70 27 3 [("value", PFloat)]
  [Do (Set_ 0 (Byte 0 4 3)); Do (Set_ 1 (Byte 0 4 2)); Do (Set_ 2 (Byte 0 4 1)); Do (Set_ 3 (Byte 0 4 0)); Do (Add 4); Do (SizeVar)].
(* src/events/vscp_evt_measurement32.c:772-788 vscp_evt_measurement32_sendVolume *)
Definition evt_measurement32_sendVolume : Sender := mkSender "vscp_evt_measurement32_sendVolume" 70 28 3 [("value", PFloat)]
  [Do (Set_ 0 (Byte 0 4 3)); Do (Set_ 1 (Byte 0 4 2)); Do (Set_ 2 (Byte 0 4 1)); Do (Set_ 3 (Byte 0 4 0)); Do (Add 4); Do (SizeVar)].
(* src/events/vscp_evt_measurement32.c:797-813 vscp_evt_measurement32_sendSoundIntensity *)
Definition evt_measurement32_sendSoundIntensity : Sender := mkSender "vscp_evt_measurement32_sendSoundIntensity" 70 29 3 [("value", PFloat)]
  [Do (Set_ 0 (Byte 0 4 3)); Do (Set_ 1 (Byte 0 4 2)); Do (Set_ 2 (Byte 0 4 1)); Do (Set_ 3 (Byte 0 4 0)); Do (Add 4); Do (SizeVar)].
(* src/events/vscp_evt_measurement32.c:822-838 vscp_evt_measurement32_sendAngle *)
Definition evt_measurement32_sendAngle : Sender := mkSender "vscp_evt_measurement32_sendAngle" 70 30 3 [("value", PFloat)]
  [Do (Set_ 0 (Byte 0 4 3)); Do (Set_ 1 (Byte 0 4 2)); Do (Set_ 2 (Byte 0 4 1)); Do (Set_ 3 (Byte 0 4 0)); Do (Add 4); Do (SizeVar)].
(* src/events/vscp_evt_measurement32.c:847-863 vscp_evt_measurement32_sendPositionWgs84 *)
Definition evt_measurement32_sendPositionWgs84 : Sender := mkSender "vscp_evt_measurement32_sendPositionWgs84" 70 31 3 [("value", PFloat)]
  [Do (Set_ 0 (Byte 0 4 3)); Do (Set_ 1 (Byte 0 4 2)); Do (Set_ 2 (Byte 0 4 1)); Do (Set_ 3 (Byte 0 4 0)); Do (Add 4); Do (SizeVar)].
(* src/events/vscp_evt_measurement32.c:872-888 vscp_evt_measurement32_sendSpeed *)
Definition evt_measurement32_sendSpeed : Sender := mkSender "vscp_evt_measurement32_sendSpeed" 70 32 3 [("value", PFloat)]
  [Do (Set_ 0 (Byte 0 4 3)); Do (Set_ 1 (Byte 0 4 2)); Do (Set_ 2 (Byte 0 4 1)); Do (Set_ 3 (Byte 0 4 0)); Do (Add 4); Do (SizeVar)].
(* src/events/vscp_evt_measurement32.c:897-913 vscp_evt_measurement32_sendAcceleration *)
Definition evt_measurement32_sendAcceleration : Sender := mkSender "vscp_evt_measurement32_sendAcceleration" 70 33 3 [("value", PFloat)]
  [Do (Set_ 0 (Byte 0 4 3)); Do (Set_ 1 (Byte 0 4 2)); Do (Set_ 2 (Byte 0 4 1)); Do (Set_ 3 (Byte 0 4 0)); Do (Add 4); Do (SizeVar)].
(* src/events/vscp_evt_measurement32.c:922-938 vscp_evt_measurement32_sendTension *)
Definition evt_measurement32_sendTension : Sender := mkSender "vscp_evt_measurement32_sendTension" 70 34 3 [("value", PFloat)]
  [Do (Set_ 0 (Byte 0 4 3)); Do (Set_ 1 (Byte 0 4 2)); Do (Set_ 2 (Byte 0 4 1)); Do (Set_ 3 (Byte 0 4 0)); Do (Add 4); Do (SizeVar)].
(* src/events/vscp_evt_measurement32.c:947-963 vscp_evt_measurement32_sendDampMoistHygrometerReading *)
Definition evt_measurement32_sendDampMoistHygrometerReading : Sender := mkSender "vscp_evt_measurement32_sendDampMoistHygrometerReading" 70 35 3 [("value", PFloat)]
  [Do (Set_ 0 (Byte 0 4 3)); Do (Set_ 1 (Byte 0 4 2)); Do (Set_ 2 (Byte 0 4 1)); Do (Set_ 3 (Byte 0 4 0)); Do (Add 4); Do (SizeVar)].
(* src/events/vscp_evt_measurement32.c:972-988 vscp_evt_measurement32_sendFlow *)
Definition evt_measurement32_sendFlow : Sender := mkSender "vscp_evt_measurement32_sendFlow" 70 36 3 [("value", PFloat)]
  [Do (Set_ 0 (Byte 0 4 3)); Do (Set_ 1 (Byte 0 4 2)); Do (Set_ 2 (Byte 0 4 1)); Do (Set_ 3 (Byte 0 4 0)); Do (Add 4); Do (SizeVar)].
(* src/events/vscp_evt_measurement32.c:997-1013 vscp_evt_measurement32_sendThermalResistance *)
Definition evt_measurement32_sendThermalResistance : Sender := mkSender "vscp_evt_measurement32_sendThermalResistance" 70 37 3 [("value", PFloat)]
  [Do (Set_ 0 (Byte 0 4 3)); Do (Set_ 1 (Byte 0 4 2)); Do (Set_ 2 (Byte 0 4 1)); Do (Set_ 3 (Byte 0 4 0)); Do (Add 4); Do (SizeVar)].
(* src/events/vscp_evt_measurement32.c:1022-1038 vscp_evt_measurement32_sendRefractiveOpticalPower *)
Definition evt_measurement32_sendRefractiveOpticalPower : Sender := mkSender "vscp_evt_measurement32_sendRefractiveOpticalPower" 70 38 3 [("value", PFloat)]
  [Do (Set_ 0 (Byte 0 4 3)); Do (Set_ 1 (Byte 0 4 2)); Do (Set_ 2 (Byte 0 4 1)); Do (Set_ 3 (Byte 0 4 0)); Do (Add 4); Do (SizeVar)].
(* src/events/vscp_evt_measurement32.c:1047-1063 vscp_evt_measurement32_sendDynamicViscosity *)
Definition evt_measurement32_sendDynamicViscosity : Sender := mkSender "vscp_evt_measurement32_sendDynamicViscosity" 70 39 3 [("value", PFloat)]
  [Do (Set_ 0 (Byte 0 4 3)); Do (Set_ 1 (Byte 0 4 2)); Do (Set_ 2 (Byte 0 4 1)); Do (Set_ 3 (Byte 0 4 0)); Do (Add 4); Do (SizeVar)].
(* src/events/vscp_evt_measurement32.c:1072-1088 vscp_evt_measurement32_sendSoundImpedance *)
Definition evt_measurement32_sendSoundImpedance : Sender := mkSender "vscp_evt_measurement32_sendSoundImpedance" 70 40 3 [("value", PFloat)]
  [Do (Set_ 0 (Byte 0 4 3)); Do (Set_ 1 (Byte 0 4 2)); Do (Set_ 2 (Byte 0 4 1)); Do (Set_ 3 (Byte 0 4 0)); Do (Add 4); Do (SizeVar)].
(* src/events/vscp_evt_measurement32.c:1097-1113 vscp_evt_measurement32_sendSoundResistance *)
Definition evt_measurement32_sendSoundResistance : Sender := mkSender "vscp_evt_measurement32_sendSoundResistance" 70 41 3 [("value", PFloat)]
  [Do (Set_ 0 (Byte 0 4 3)); Do (Set_ 1 (Byte 0 4 2)); Do (Set_ 2 (Byte 0 4 1)); Do (Set_ 3 (Byte 0 4 0)); Do (Add 4); Do (SizeVar)].
(* src/events/vscp_evt_measurement32.c:1122-1138 vscp_evt_measurement32_sendElectricElastance *)
Definition evt_measurement32_sendElectricElastance : Sender := mkSender "vscp_evt_measurement32_sendElectricElastance" 70 42 3 [("value", PFloat)]
  [Do (Set_ 0 (Byte 0 4 3)); Do (Set_ 1 (Byte 0 4 2)); Do (Set_ 2 (Byte 0 4 1)); Do (Set_ 3 (Byte 0 4 0)); Do (Add 4); Do (SizeVar)].
(* src/events/vscp_evt_measurement32.c:1147-1163 vscp_evt_measurement32_sendLuminousEnergy *)
Definition evt_measurement32_sendLuminousEnergy : Sender := mkSender "vscp_evt_measurement32_sendLuminousEnergy" 70 43 3 [("value", PFloat)]
  [Do (Set_ 0 (Byte 0 4 3)); Do (Set_ 1 (Byte 0 4 2)); Do (Set_ 2 (Byte 0 4 1)); Do (Set_ 3 (Byte 0 4 0)); Do (Add 4); Do (SizeVar)].
(* src/events/vscp_evt_measurement32.c:1172-1188 vscp_evt_measurement32_sendLuminance *)
Definition evt_measurement32_sendLuminance : Sender := mkSender "vscp_evt_measurement32_sendLuminance" 70 44 3 [("value", PFloat)]
  [Do (Set_ 0 (Byte 0 4 3)); Do (Set_ 1 (Byte 0 4 2)); Do (Set_ 2 (Byte 0 4 1)); Do (Set_ 3 (Byte 0 4 0)); Do (Add 4); Do (SizeVar)].
(* src/events/vscp_evt_measurement32.c:1197-1213 vscp_evt_measurement32_sendChemicalConcentration *)
Definition evt_measurement32_sendChemicalConcentration : Sender := mkSender "vscp_evt_measurement32_sendChemicalConcentration" 70 45 3 [("value", PFloat)]
  [Do (Set_ 0 (Byte 0 4 3)); Do (Set_ 1 (Byte 0 4 2)); Do (Set_ 2 (Byte 0 4 1)); Do (Set_ 3 (Byte 0 4 0)); Do (Add 4); Do (SizeVar)].
(* src/events/vscp_evt_measurement32.c:1224-1240 vscp_evt_measurement32_sendDoseEquivalent *)
Definition evt_measurement32_sendDoseEquivalent : Sender := mkSender "vscp_evt_measurement32_sendDoseEquivalent" 70 47 3 [("value", PFloat)]
  [Do (Set_ 0 (Byte 0 4 3)); Do (Set_ 1 (Byte 0 4 2)); Do (Set_ 2 (Byte 0 4 1)); Do (Set_ 3 (Byte 0 4 0)); Do (Add 4); Do (SizeVar)].
(* src/events/vscp_evt_measurement32.c:1251-1267 vscp_evt_measurement32_sendDewPoint *)
Definition evt_measurement32_sendDewPoint : Sender := mkSender "vscp_evt_measurement32_sendDewPoint" 70 49 3 [("value", PFloat)]
  [Do (Set_ 0 (Byte 0 4 3)); Do (Set_ 1 (Byte 0 4 2)); Do (Set_ 2 (Byte 0 4 1)); Do (Set_ 3 (Byte 0 4 0)); Do (Add 4); Do (SizeVar)].
(* src/events/vscp_evt_measurement32.c:1276-1292 vscp_evt_measurement32_sendRelativeLevel *)
Definition evt_measurement32_sendRelativeLevel : Sender := mkSender "vscp_evt_measurement32_sendRelativeLevel" 70 50 3 [("value", PFloat)]
  [Do (Set_ 0 (Byte 0 4 3)); Do (Set_ 1 (Byte 0 4 2)); Do (Set_ 2 (Byte 0 4 1)); Do (Set_ 3 (Byte 0 4 0)); Do (Add 4); Do (SizeVar)].
(* src/events/vscp_evt_measurement32.c:1301-1317 vscp_evt_measurement32_sendAltitude *)
Definition evt_measurement32_sendAltitude : Sender := mkSender "vscp_evt_measurement32_sendAltitude" 70 51 3 [("value", PFloat)]
  [Do (Set_ 0 (Byte 0 4 3)); Do (Set_ 1 (Byte 0 4 2)); Do (Set_ 2 (Byte 0 4 1)); Do (Set_ 3 (Byte 0 4 0)); Do (Add 4); Do (SizeVar)].
(* src/events/vscp_evt_measurement32.c:1326-1342 vscp_evt_measurement32_sendArea *)
Definition evt_measurement32_sendArea : Sender := mkSender "vscp_evt_measurement32_sendArea" 70 52 3 [("value", PFloat)]
  [Do (Set_ 0 (Byte 0 4 3)); Do (Set_ 1 (Byte 0 4 2)); Do (Set_ 2 (Byte 0 4 1)); Do (Set_ 3 (Byte 0 4 0)); Do (Add 4); Do (SizeVar)].
(* src/events/vscp_evt_measurement32.c:1351-1367 vscp_evt_measurement32_sendRadiantIntensity *)
Definition evt_measurement32_sendRadiantIntensity : Sender := mkSender "vscp_evt_measurement32_sendRadiantIntensity" 70 53 3 [("value", PFloat)]
  [Do (Set_ 0 (Byte 0 4 3)); Do (Set_ 1 (Byte 0 4 2)); Do (Set_ 2 (Byte 0 4 1)); Do (Set_ 3 (Byte 0 4 0)); Do (Add 4); Do (SizeVar)].
(* src/events/vscp_evt_measurement32.c:1376-1392 vscp_evt_measurement32_sendRadiance *)
Definition evt_measurement32_sendRadiance : Sender := mkSender "vscp_evt_measurement32_sendRadiance" 70 54 3 [("value", PFloat)]
  [Do (Set_ 0 (Byte 0 4 3)); Do (Set_ 1 (Byte 0 4 2)); Do (Set_ 2 (Byte 0 4 1)); Do (Set_ 3 (Byte 0 4 0)); Do (Add 4); Do (SizeVar)].
(* src/events/vscp_evt_measurement32.c:1401-1417 vscp_evt_measurement32_sendIrradianceExitanceRadiosity *)
Definition evt_measurement32_sendIrradianceExitanceRadiosity : Sender := mkSender "vscp_evt_measurement32_sendIrradianceExitanceRadiosity" 70 55 3 [("value", PFloat)]
  [Do (Set_ 0 (Byte 0 4 3)); Do (Set_ 1 (Byte 0 4 2)); Do (Set_ 2 (Byte 0 4 1)); Do (Set_ 3 (Byte 0 4 0)); Do (Add 4); Do (SizeVar)].
(* src/events/vscp_evt_measurement32.c:1426-1442 vscp_evt_measurement32_sendSpectralRadiance *)
Definition evt_measurement32_sendSpectralRadiance : Sender := mkSender "vscp_evt_measurement32_sendSpectralRadiance" 70 56 3 [("value", PFloat)]
  [Do (Set_ 0 (Byte 0 4 3)); Do (Set_ 1 (Byte 0 4 2)); Do (Set_ 2 (Byte 0 4 1)); Do (Set_ 3 (Byte 0 4 0)); Do (Add 4); Do (SizeVar)].
(* src/events/vscp_evt_measurement32.c:1451-1467 vscp_evt_measurement32_sendSpectralIrradiance *)
Definition evt_measurement32_sendSpectralIrradiance : Sender := mkSender "vscp_evt_measurement32_sendSpectralIrradiance" 70 57 3 [("value", PFloat)]
  [Do (Set_ 0 (Byte 0 4 3)); Do (Set_ 1 (Byte 0 4 2)); Do (Set_ 2 (Byte 0 4 1)); Do (Set_ 3 (Byte 0 4 0)); Do (Add 4); Do (SizeVar)].
(* src/events/vscp_evt_measurement32.c:1476-1492 vscp_evt_measurement32_sendSoundPressureAcousticPressure *)
Definition evt_measurement32_sendSoundPressureAcousticPressure : Sender := mkSender "vscp_evt_measurement32_sendSoundPressureAcousticPressure" 70 58 3 [("value", PFloat)]
  [Do (Set_ 0 (Byte 0 4 3)); Do (Set_ 1 (Byte 0 4 2)); Do (Set_ 2 (Byte 0 4 1)); Do (Set_ 3 (Byte 0 4 0)); Do (Add 4); Do (SizeVar)].
(* src/events/vscp_evt_measurement32.c:1501-1517 vscp_evt_measurement32_sendSoundEnergyDensity *)
Definition evt_measurement32_sendSoundEnergyDensity : Sender := mkSender "vscp_evt_measurement32_sendSoundEnergyDensity" 70 59 3 [("value", PFloat)]
  [Do (Set_ 0 (Byte 0 4 3)); Do (Set_ 1 (Byte 0 4 2)); Do (Set_ 2 (Byte 0 4 1)); Do (Set_ 3 (Byte 0 4 0)); Do (Add 4); Do (SizeVar)].
(* src/events/vscp_evt_measurement32.c:1526-1542 vscp_evt_measurement32_sendSoundLevel *)
Definition evt_measurement32_sendSoundLevel : Sender := mkSender "vscp_evt_measurement32_sendSoundLevel" 70 60 3 [("value", PFloat)]
  [Do (Set_ 0 (Byte 0 4 3)); Do (Set_ 1 (Byte 0 4 2)); Do (Set_ 2 (Byte 0 4 1)); Do (Set_ 3 (Byte 0 4 0)); Do (Add 4); Do (SizeVar)].
(* src/events/vscp_evt_measurement32.c:1551-1567 vscp_evt_measurement32_sendRadiationDoseEquivalent *)
Definition evt_measurement32_sendRadiationDoseEquivalent : Sender := mkSender "vscp_evt_measurement32_sendRadiationDoseEquivalent" 70 61 3 [("value", PFloat)]
  [Do (Set_ 0 (Byte 0 4 3)); Do (Set_ 1 (Byte 0 4 2)); Do (Set_ 2 (Byte 0 4 1)); Do (Set_ 3 (Byte 0 4 0)); Do (Add 4); Do (SizeVar)].
(* src/events/vscp_evt_measurement32.c:1576-1592 vscp_evt_measurement32_sendRadiationDoseExposure *)
Definition evt_measurement32_sendRadiationDoseExposure : Sender := mkSender "vscp_evt_measurement32_sendRadiationDoseExposure" 70 62 3 [("value", PFloat)]
  [Do (Set_ 0 (Byte 0 4 3)); Do (Set_ 1 (Byte 0 4 2)); Do (Set_ 2 (Byte 0 4 1)); Do (Set_ 3 (Byte 0 4 0)); Do (Add 4); Do (SizeVar)].
(* src/events/vscp_evt_measurement32.c:1601-1617 vscp_evt_measurement32_sendPowerFactor *)
Definition evt_measurement32_sendPowerFactor : Sender := mkSender "vscp_evt_measurement32_sendPowerFactor" 70 63 3 [("value", PFloat)]
  [Do (Set_ 0 (Byte 0 4 3)); Do (Set_ 1 (Byte 0 4 2)); Do (Set_ 2 (Byte 0 4 1)); Do (Set_ 3 (Byte 0 4 0)); Do (Add 4); Do (SizeVar)].
(* src/events/vscp_evt_measurement32.c:1626-1642 vscp_evt_measurement32_sendReactivePower *)
Definition evt_measurement32_sendReactivePower : Sender := mkSender "vscp_evt_measurement32_sendReactivePower" 70 64 3 [("value", PFloat)]
  [Do (Set_ 0 (Byte 0 4 3)); Do (Set_ 1 (Byte 0 4 2)); Do (Set_ 2 (Byte 0 4 1)); Do (Set_ 3 (Byte 0 4 0)); Do (Add 4); Do (SizeVar)].
(* src/events/vscp_evt_measurement32.c:1651-1667 vscp_evt_measurement32_sendReactiveEnergy *)
Definition evt_measurement32_sendReactiveEnergy : Sender := mkSender "vscp_evt_measurement32_sendReactiveEnergy" 70 65 3 [("value", PFloat)]
  [Do (Set_ 0 (Byte 0 4 3)); Do (Set_ 1 (Byte 0 4 2)); Do (Set_ 2 (Byte 0 4 1)); Do (Set_ 3 (Byte 0 4 0)); Do (Add 4); Do (SizeVar)].
(* src/events/vscp_evt_measurement64.c:79-88 vscp_evt_measurement64_sendGeneralEvent *)
Definition evt_measurement64_sendGeneralEvent : Sender := mkSender "vscp_evt_measurement64_sendGeneralEvent" 60 0 3 []
  [Do (SizeIs 0)].
(* src/events/vscp_evt_measurement64.c:97-117 vscp_evt_measurement64_sendCount *)
Definition evt_measurement64_sendCount : Sender := mkSender "vscp_evt_measurement64_sendCount" 60 1 3 [("value", PDouble)]
  [Do (Set_ 0 (Byte 0 8 7)); Do (Set_ 1 (Byte 0 8 6)); Do (Set_ 2 (Byte 0 8 5)); Do (Set_ 3 (Byte 0 8 4)); Do (Set_ 4 (Byte 0 8 3)); Do (Set_ 5 (Byte 0 8 2)); Do (Set_ 6 (Byte 0 8 1)); Do (Set_ 7 (Byte 0 8 0)); Do (Add 8); Do (SizeVar)].
(* src/events/vscp_evt_measurement64.c:126-146 vscp_evt_measurement64_sendLengthDistance *)
Definition evt_measurement64_sendLengthDistance : Sender := mkSender "vscp_evt_measurement64_sendLengthDistance" 60 2 3 [("value", PDouble)]
  [Do (Set_ 0 (Byte 0 8 7)); Do (Set_ 1 (Byte 0 8 6)); Do (Set_ 2 (Byte 0 8 5)); Do (Set_ 3 (Byte 0 8 4)); Do (Set_ 4 (Byte 0 8 3)); Do (Set_ 5 (Byte 0 8 2)); Do (Set_ 6 (Byte 0 8 1)); Do (Set_ 7 (Byte 0 8 0)); Do (Add 8); Do (SizeVar)].
(* src/events/vscp_evt_measurement64.c:155-175 vscp_evt_measurement64_sendMass *)
Definition evt_measurement64_sendMass : Sender := mkSender "vscp_evt_measurement64_sendMass" 60 3 3 [("value", PDouble)]
  [Do (Set_ 0 (Byte 0 8 7)); Do (Set_ 1 (Byte 0 8 6)); Do (Set_ 2 (Byte 0 8 5)); Do (Set_ 3 (Byte 0 8 4)); Do (Set_ 4 (Byte 0 8 3)); Do (Set_ 5 (Byte 0 8 2)); Do (Set_ 6 (Byte 0 8 1)); Do (Set_ 7 (Byte 0 8 0)); Do (Add 8); Do (SizeVar)].
(* src/events/vscp_evt_measurement64.c:184-204 vscp_evt_measurement64_sendTime *)
Definition evt_measurement64_sendTime : Sender := mkSender "vscp_evt_measurement64_sendTime" 60 4 3 [("value", PDouble)]
  [Do (Set_ 0 (Byte 0 8 7)); Do (Set_ 1 (Byte 0 8 6)); Do (Set_ 2 (Byte 0 8 5)); Do (Set_ 3 (Byte 0 8 4)); Do (Set_ 4 (Byte 0 8 3)); Do (Set_ 5 (Byte 0 8 2)); Do (Set_ 6 (Byte 0 8 1)); Do (Set_ 7 (Byte 0 8 0)); Do (Add 8); Do (SizeVar)].
(* src/events/vscp_evt_measurement64.c:213-233 vscp_evt_measurement64_sendElectricCurrent *)
Definition evt_measurement64_sendElectricCurrent : Sender := mkSender "vscp_evt_measurement64_sendElectricCurrent" 60 5 3 [("value", PDouble)]
  [Do (Set_ 0 (Byte 0 8 7)); Do (Set_ 1 (Byte 0 8 6)); Do (Set_ 2 (Byte 0 8 5)); Do (Set_ 3 (Byte 0 8 4)); Do (Set_ 4 (Byte 0 8 3)); Do (Set_ 5 (Byte 0 8 2)); Do (Set_ 6 (Byte 0 8 1)); Do (Set_ 7 (Byte 0 8 0)); Do (Add 8); Do (SizeVar)].
(* src/events/vscp_evt_measurement64.c:242-262 vscp_evt_measurement64_sendTemperature *)
Definition evt_measurement64_sendTemperature : Sender := mkSender "vscp_evt_measurement64_sendTemperature" 60 6 3 [("value", PDouble)]
  [Do (Set_ 0 (Byte 0 8 7)); Do (Set_ 1 (Byte 0 8 6)); Do (Set_ 2 (Byte 0 8 5)); Do (Set_ 3 (Byte 0 8 4)); Do (Set_ 4 (Byte 0 8 3)); Do (Set_ 5 (Byte 0 8 2)); Do (Set_ 6 (Byte 0 8 1)); Do (Set_ 7 (Byte 0 8 0)); Do (Add 8); Do (SizeVar)].
(* src/events/vscp_evt_measurement64.c:271-291 vscp_evt_measurement64_sendAmountOfSubstance *)
Definition evt_measurement64_sendAmountOfSubstance : Sender := mkSender "vscp_evt_measurement64_sendAmountOfSubstance" 60 7 3 [("value", PDouble)]
  [Do (Set_ 0 (Byte 0 8 7)); Do (Set_ 1 (Byte 0 8 6)); Do (Set_ 2 (Byte 0 8 5)); Do (Set_ 3 (Byte 0 8 4)); Do (Set_ 4 (Byte 0 8 3)); Do (Set_ 5 (Byte 0 8 2)); Do (Set_ 6 (Byte 0 8 1)); Do (Set_ 7 (Byte 0 8 0)); Do (Add 8); Do (SizeVar)].
(* src/events/vscp_evt_measurement64.c:300-320 vscp_evt_measurement64_sendLuminousIntensityIntensityOfLight *)
Definition evt_measurement64_sendLuminousIntensityIntensityOfLight : Sender := mkSender "vscp_evt_measurement64_sendLuminousIntensityIntensityOfLight" 60 8 3 [("value", PDouble)]
  [Do (Set_ 0 (Byte 0 8 7)); Do (Set_ 1 (Byte 0 8 6)); Do (Set_ 2 (Byte 0 8 5)); Do (Set_ 3 (Byte 0 8 4)); Do (Set_ 4 (Byte 0 8 3)); Do (Set_ 5 (Byte 0 8 2)); Do (Set_ 6 (Byte 0 8 1)); Do (Set_ 7 (Byte 0 8 0)); Do (Add 8); Do (SizeVar)].
(* src/events/vscp_evt_measurement64.c:329-349 vscp_evt_measurement64_sendFrequency *)
Definition evt_measurement64_sendFrequency : Sender := mkSender "vscp_evt_measurement64_sendFrequency" 60 9 3 [("value", PDouble)]
  [Do (Set_ 0 (Byte 0 8 7)); Do (Set_ 1 (Byte 0 8 6)); Do (Set_ 2 (Byte 0 8 5)); Do (Set_ 3 (Byte 0 8 4)); Do (Set_ 4 (Byte 0 8 3)); Do (Set_ 5 (Byte 0 8 2)); Do (Set_ 6 (Byte 0 8 1)); Do (Set_ 7 (Byte 0 8 0)); Do (Add 8); Do (SizeVar)].
(* src/events/vscp_evt_measurement64.c:358-378 vscp_evt_measurement64_sendRadioactivityAndOtherRandomEvents *)
Definition evt_measurement64_sendRadioactivityAndOtherRandomEvents : Sender := mkSender "vscp_evt_measurement64_sendRadioactivityAndOtherRandomEvents" 60 10 3 [("value", PDouble)]
  [Do (Set_ 0 (Byte 0 8 7)); Do (Set_ 1 (Byte 0 8 6)); Do (Set_ 2 (Byte 0 8 5)); Do (Set_ 3 (Byte 0 8 4)); Do (Set_ 4 (Byte 0 8 3)); Do (Set_ 5 (Byte 0 8 2)); Do (Set_ 6 (Byte 0 8 1)); Do (Set_ 7 (Byte 0 8 0)); Do (Add 8); Do (SizeVar)].
(* src/events/vscp_evt_measurement64.c:387-407 vscp_evt_measurement64_sendForce *)
Definition evt_measurement64_sendForce : Sender := mkSender "vscp_evt_measurement64_sendForce" 60 11 3 [("value", PDouble)]
  [Do (Set_ 0 (Byte 0 8 7)); Do (Set_ 1 (Byte 0 8 6)); Do (Set_ 2 (Byte 0 8 5)); Do (Set_ 3 (Byte 0 8 4)); Do (Set_ 4 (Byte 0 8 3)); Do (Set_ 5 (Byte 0 8 2)); Do (Set_ 6 (Byte 0 8 1)); Do (Set_ 7 (Byte 0 8 0)); Do (Add 8); Do (SizeVar)].
(* src/events/vscp_evt_measurement64.c:416-436 vscp_evt_measurement64_sendPressure *)
Definition evt_measurement64_sendPressure : Sender := mkSender "vscp_evt_measurement64_sendPressure" 60 12 3 [("value", PDouble)]
  [Do (Set_ 0 (Byte 0 8 7)); Do (Set_ 1 (Byte 0 8 6)); Do (Set_ 2 (Byte 0 8 5)); Do (Set_ 3 (Byte 0 8 4)); Do (Set_ 4 (Byte 0 8 3)); Do (Set_ 5 (Byte 0 8 2)); Do (Set_ 6 (Byte 0 8 1)); Do (Set_ 7 (Byte 0 8 0)); Do (Add 8); Do (SizeVar)].
(* src/events/vscp_evt_measurement64.c:445-465 vscp_evt_measurement64_sendEnergy *)
Definition evt_measurement64_sendEnergy : Sender := mkSender "vscp_evt_measurement64_sendEnergy" 60 13 3 [("value", PDouble)]
  [Do (Set_ 0 (Byte 0 8 7)); Do (Set_ 1 (Byte 0 8 6)); Do (Set_ 2 (Byte 0 8 5)); Do (Set_ 3 (Byte 0 8 4)); Do (Set_ 4 (Byte 0 8 3)); Do (Set_ 5 (Byte 0 8 2)); Do (Set_ 6 (Byte 0 8 1)); Do (Set_ 7 (Byte 0 8 0)); Do (Add 8); Do (SizeVar)].
(* src/events/vscp_evt_measurement64.c:474-494 vscp_evt_measurement64_sendPower *)
Definition evt_measurement64_sendPower : Sender := mkSender "vscp_evt_measurement64_sendPower" 60 14 3 [("value", PDouble)]
  [Do (Set_ 0 (Byte 0 8 7)); Do (Set_ 1 (Byte 0 8 6)); Do (Set_ 2 (Byte 0 8 5)); Do (Set_ 3 (Byte 0 8 4)); Do (Set_ 4 (Byte 0 8 3)); Do (Set_ 5 (Byte 0 8 2)); Do (Set_ 6 (Byte 0 8 1)); Do (Set_ 7 (Byte 0 8 0)); Do (Add 8); Do (SizeVar)].
(* src/events/vscp_evt_measurement64.c:503-523 vscp_evt_measurement64_sendElectricalCharge *)
Definition evt_measurement64_sendElectricalCharge : Sender := mkSender "vscp_evt_measurement64_sendElectricalCharge" 60 15 3 [("value", PDouble)]
  [Do (Set_ 0 (Byte 0 8 7)); Do (Set_ 1 (Byte 0 8 6)); Do (Set_ 2 (Byte 0 8 5)); Do (Set_ 3 (Byte 0 8 4)); Do (Set_ 4 (Byte 0 8 3)); Do (Set_ 5 (Byte 0 8 2)); Do (Set_ 6 (Byte 0 8 1)); Do (Set_ 7 (Byte 0 8 0)); Do (Add 8); Do (SizeVar)].
(* src/events/vscp_evt_measurement64.c:532-552 vscp_evt_measurement64_sendElectricalPotentialVoltage *)
Definition evt_measurement64_sendElectricalPotentialVoltage : Sender := mkSender "vscp_evt_measurement64_sendElectricalPotentialVoltage" 60 16 3 [("value", PDouble)]
  [Do (Set_ 0 (Byte 0 8 7)); Do (Set_ 1 (Byte 0 8 6)); Do (Set_ 2 (Byte 0 8 5)); Do (Set_ 3 (Byte 0 8 4)); Do (Set_ 4 (Byte 0 8 3)); Do (Set_ 5 (Byte 0 8 2)); Do (Set_ 6 (Byte 0 8 1)); Do (Set_ 7 (Byte 0 8 0)); Do (Add 8); Do (SizeVar)].
(* src/events/vscp_evt_measurement64.c:561-581 vscp_evt_measurement64_sendElectricalCapacitance *)
Definition evt_measurement64_sendElectricalCapacitance : Sender := mkSender "vscp_evt_measurement64_sendElectricalCapacitance" 60 17 3 [("value", PDouble)]
  [Do (Set_ 0 (Byte 0 8 7)); Do (Set_ 1 (Byte 0 8 6)); Do (Set_ 2 (Byte 0 8 5)); Do (Set_ 3 (Byte 0 8 4)); Do (Set_ 4 (Byte 0 8 3)); Do (Set_ 5 (Byte 0 8 2)); Do (Set_ 6 (Byte 0 8 1)); Do (Set_ 7 (Byte 0 8 0)); Do (Add 8); Do (SizeVar)].
(* src/events/vscp_evt_measurement64.c:590-610 vscp_evt_measurement64_sendElectricalResistance *)
Definition evt_measurement64_sendElectricalResistance : Sender := mkSender "vscp_evt_measurement64_sendElectricalResistance" 60 18 3 [("value", PDouble)]
  [Do (Set_ 0 (Byte 0 8 7)); Do (Set_ 1 (Byte 0 8 6)); Do (Set_ 2 (Byte 0 8 5)); Do (Set_ 3 (Byte 0 8 4)); Do (Set_ 4 (Byte 0 8 3)); Do (Set_ 5 (Byte 0 8 2)); Do (Set_ 6 (Byte 0 8 1)); Do (Set_ 7 (Byte 0 8 0)); Do (Add 8); Do (SizeVar)].
(* src/events/vscp_evt_measurement64.c:619-639 vscp_evt_measurement64_sendElectricalConductance *)
Definition evt_measurement64_sendElectricalConductance : Sender := mkSender "vscp_evt_measurement64_sendElectricalConductance" 60 19 3 [("value", PDouble)]
  [Do (Set_ 0 (Byte 0 8 7)); Do (Set_ 1 (Byte 0 8 6)); Do (Set_ 2 (Byte 0 8 5)); Do (Set_ 3 (Byte 0 8 4)); Do (Set_ 4 (Byte 0 8 3)); Do (Set_ 5 (Byte 0 8 2)); Do (Set_ 6 (Byte 0 8 1)); Do (Set_ 7 (Byte 0 8 0)); Do (Add 8); Do (SizeVar)].
(* src/events/vscp_evt_measurement64.c:648-668 vscp_evt_measurement64_sendMagneticFieldStrength *)
Definition evt_measurement64_sendMagneticFieldStrength : Sender := mkSender "vscp_evt_measurement64_sendMagneticFieldStrength" 60 20 3 [("value", PDouble)]
  [Do (Set_ 0 (Byte 0 8 7)); Do (Set_ 1 (Byte 0 8 6)); Do (Set_ 2 (Byte 0 8 5)); Do (Set_ 3 (Byte 0 8 4)); Do (Set_ 4 (Byte 0 8 3)); Do (Set_ 5 (Byte 0 8 2)); Do (Set_ 6 (Byte 0 8 1)); Do (Set_ 7 (Byte 0 8 0)); Do (Add 8); Do (SizeVar)].
(* src/events/vscp_evt_measurement64.c:677-697 vscp_evt_measurement64_sendMagneticFlux *)
Definition evt_measurement64_sendMagneticFlux : Sender := mkSender "vscp_evt_measurement64_sendMagneticFlux" 60 21 3 [("value", PDouble)]
  [Do (Set_ 0 (Byte 0 8 7)); Do (Set_ 1 (Byte 0 8 6)); Do (Set_ 2 (Byte 0 8 5)); Do (Set_ 3 (Byte 0 8 4)); Do (Set_ 4 (Byte 0 8 3)); Do (Set_ 5 (Byte 0 8 2)); Do (Set_ 6 (Byte 0 8 1)); Do (Set_ 7 (Byte 0 8 0)); Do (Add 8); Do (SizeVar)].
(* src/events/vscp_evt_measurement64.c:706-726 vscp_evt_measurement64_sendMagneticFluxDensity *)
Definition evt_measurement64_sendMagneticFluxDensity : Sender := mkSender "vscp_evt_measurement64_sendMagneticFluxDensity" 60 22 3 [("value", PDouble)]
  [Do (Set_ 0 (Byte 0 8 7)); Do (Set_ 1 (Byte 0 8 6)); Do (Set_ 2 (Byte 0 8 5)); Do (Set_ 3 (Byte 0 8 4)); Do (Set_ 4 (Byte 0 8 3)); Do (Set_ 5 (Byte 0 8 2)); Do (Set_ 6 (Byte 0 8 1)); Do (Set_ 7 (Byte 0 8 0)); Do (Add 8); Do (SizeVar)].
(* src/events/vscp_evt_measurement64.c:735-755 vscp_evt_measurement64_sendInductance *)
Definition evt_measurement64_sendInductance : Sender := mkSender "vscp_evt_measurement64_sendInductance" 60 23 3 [("value", PDouble)]
  [Do (Set_ 0 (Byte 0 8 7)); Do (Set_ 1 (Byte 0 8 6)); Do (Set_ 2 (Byte 0 8 5)); Do (Set_ 3 (Byte 0 8 4)); Do (Set_ 4 (Byte 0 8 3)); Do (Set_ 5 (Byte 0 8 2)); Do (Set_ 6 (Byte 0 8 1)); Do (Set_ 7 (Byte 0 8 0)); Do (Add 8); Do (SizeVar)].
(* src/events/vscp_evt_measurement64.c:764-784 vscp_evt_measurement64_sendLuminousFlux *)
Definition evt_measurement64_sendLuminousFlux : Sender := mkSender "vscp_evt_measurement64_sendLuminousFlux" 60 24 3 [("value", PDouble)]
  [Do (Set_ 0 (Byte 0 8 7)); Do (Set_ 1 (Byte 0 8 6)); Do (Set_ 2 (Byte 0 8 5)); Do (Set_ 3 (Byte 0 8 4)); Do (Set_ 4 (Byte 0 8 3)); Do (Set_ 5 (Byte 0 8 2)); Do (Set_ 6 (Byte 0 8 1)); Do (Set_ 7 (Byte 0 8 0)); Do (Add 8); Do (SizeVar)].
(* src/events/vscp_evt_measurement64.c:793-813 vscp_evt_measurement64_sendIlluminance *)
Definition evt_measurement64_sendIlluminance : Sender := mkSender "vscp_evt_measurement64_sendIlluminance" 60 25 3 [("value", PDouble)]
  [Do (Set_ 0 (Byte 0 8 7)); Do (Set_ 1 (Byte 0 8 6)); Do (Set_ 2 (Byte 0 8 5)); Do (Set_ 3 (Byte 0 8 4)); Do (Set_ 4 (Byte 0 8 3)); Do (Set_ 5 (Byte 0 8 2)); Do (Set_ 6 (Byte 0 8 1)); Do (Set_ 7 (Byte 0 8 0)); Do (Add 8); Do (SizeVar)].
(* src/events/vscp_evt_measurement64.c:822-842 vscp_evt_measurement64_sendRadiationDose *)
Definition evt_measurement64_sendRadiationDose : Sender := mkSender "vscp_evt_measurement64_sendRadiationDose" 60 26 3 [("value", PDouble)]
  [Do (Set_ 0 (Byte 0 8 7)); Do (Set_ 1 (Byte 0 8 6)); Do (Set_ 2 (Byte 0 8 5)); Do (Set_ 3 (Byte 0 8 4)); Do (Set_ 4 (Byte 0 8 3)); Do (Set_ 5 (Byte 0 8 2)); Do (Set_ 6 (Byte 0 8 1)); Do (Set_ 7 (Byte 0 8 0)); Do (Add 8); Do (SizeVar)].
(* src/events/vscp_evt_measurement64.c:851-871 vscp_evt_measurement64_sendCatalyticActivity *)
Definition evt_measurement64_sendCatalyticActivity : Sender := mkSender "vscp_evt_measurement64_sendCatalyticActivity" 60 27 3 [("value", PDouble)]
  [Do (Set_ 0 (Byte 0 8 7)); Do (Set_ 1 (Byte 0 8 6)); Do (Set_ 2 (Byte 0 8 5)); Do (Set_ 3 (Byte 0 8 4)); Do (Set_ 4 (Byte 0 8 3)); Do (Set_ 5 (Byte 0 8 2)); Do (Set_ 6 (Byte 0 8 1)); Do (Set_ 7 (Byte 0 8 0)); Do (Add 8); Do (SizeVar)].
(* src/events/vscp_evt_measurement64.c:880-900 vscp_evt_measurement64_sendVolume *)
Definition evt_measurement64_sendVolume : Sender := mkSender "vscp_evt_measurement64_sendVolume" 60 28 3 [("value", PDouble)]
  [Do (Set_ 0 (Byte 0 8 7)); Do (Set_ 1 (Byte 0 8 6)); Do (Set_ 2 (Byte 0 8 5)); Do (Set_ 3 (Byte 0 8 4)); Do (Set_ 4 (Byte 0 8 3)); Do (Set_ 5 (Byte 0 8 2)); Do (Set_ 6 (Byte 0 8 1)); Do (Set_ 7 (Byte 0 8 0)); Do (Add 8); Do (SizeVar)].
(* src/events/vscp_evt_measurement64.c:909-929 vscp_evt_measurement64_sendSoundIntensity *)
Definition evt_measurement64_sendSoundIntensity : Sender := mkSender "vscp_evt_measurement64_sendSoundIntensity" 60 29 3 [("value", PDouble)]
  [Do (Set_ 0 (Byte 0 8 7)); Do (Set_ 1 (Byte 0 8 6)); Do (Set_ 2 (Byte 0 8 5)); Do (Set_ 3 (Byte 0 8 4)); Do (Set_ 4 (Byte 0 8 3)); Do (Set_ 5 (Byte 0 8 2)); Do (Set_ 6 (Byte 0 8 1)); Do (Set_ 7 (Byte 0 8 0)); Do (Add 8); Do (SizeVar)].
(* src/events/vscp_evt_measurement64.c:938-958 vscp_evt_measurement64_sendAngle *)
Definition evt_measurement64_sendAngle : Sender := mkSender "vscp_evt_measurement64_sendAngle" 60 30 3 [("value", PDouble)]
  [Do (Set_ 0 (Byte 0 8 7)); Do (Set_ 1 (Byte 0 8 6)); Do (Set_ 2 (Byte 0 8 5)); Do (Set_ 3 (Byte 0 8 4)); Do (Set_ 4 (Byte 0 8 3)); Do (Set_ 5 (Byte 0 8 2)); Do (Set_ 6 (Byte 0 8 1)); Do (Set_ 7 (Byte 0 8 0)); Do (Add 8); Do (SizeVar)].
(* src/events/vscp_evt_measurement64.c:967-987 vscp_evt_measurement64_sendPositionWgs84 *)
Definition evt_measurement64_sendPositionWgs84 : Sender := mkSender "vscp_evt_measurement64_sendPositionWgs84" 60 31 3 [("value", PDouble)]
  [Do (Set_ 0 (Byte 0 8 7)); Do (Set_ 1 (Byte 0 8 6)); Do (Set_ 2 (Byte 0 8 5)); Do (Set_ 3 (Byte 0 8 4)); Do (Set_ 4 (Byte 0 8 3)); Do (Set_ 5 (Byte 0 8 2)); Do (Set_ 6 (Byte 0 8 1)); Do (Set_ 7 (Byte 0 8 0)); Do (Add 8); Do (SizeVar)].
(* src/events/vscp_evt_measurement64.c:996-1016 vscp_evt_measurement64_sendSpeed *)
Definition evt_measurement64_sendSpeed : Sender := mkSender "vscp_evt_measurement64_sendSpeed" 60 32 3 [("value", PDouble)]
  [Do (Set_ 0 (Byte 0 8 7)); Do (Set_ 1 (Byte 0 8 6)); Do (Set_ 2 (Byte 0 8 5)); Do (Set_ 3 (Byte 0 8 4)); Do (Set_ 4 (Byte 0 8 3)); Do (Set_ 5 (Byte 0 8 2)); Do (Set_ 6 (Byte 0 8 1)); Do (Set_ 7 (Byte 0 8 0)); Do (Add 8); Do (SizeVar)].
(* src/events/vscp_evt_measurement64.c:1025-1045 vscp_evt_measurement64_sendAcceleration *)
Definition evt_measurement64_sendAcceleration : Sender := mkSender "vscp_evt_measurement64_sendAcceleration" 60 33 3 [("value", PDouble)]
  [Do (Set_ 0 (Byte 0 8 7)); Do (Set_ 1 (Byte 0 8 6)); Do (Set_ 2 (Byte 0 8 5)); Do (Set_ 3 (Byte 0 8 4)); Do (Set_ 4 (Byte 0 8 3)); Do (Set_ 5 (Byte 0 8 2)); Do (Set_ 6 (Byte 0 8 1)); Do (Set_ 7 (Byte 0 8 0)); Do (Add 8); Do (SizeVar)].
(* src/events/vscp_evt_measurement64.c:1054-1074 vscp_evt_measurement64_sendTension *)
Definition evt_measurement64_sendTension : Sender := mkSender "vscp_evt_measurement64_sendTension" 60 34 3 [("value", PDouble)]
  [Do (Set_ 0 (Byte 0 8 7)); Do (Set_ 1 (Byte 0 8 6)); Do (Set_ 2 (Byte 0 8 5)); Do (Set_ 3 (Byte 0 8 4)); Do (Set_ 4 (Byte 0 8 3)); Do (Set_ 5 (Byte 0 8 2)); Do (Set_ 6 (Byte 0 8 1)); Do (Set_ 7 (Byte 0 8 0)); Do (Add 8); Do (SizeVar)].
(* src/events/vscp_evt_measurement64.c:1083-1103 vscp_evt_measurement64_sendDampMoistHygrometerReading *)
Definition evt_measurement64_sendDampMoistHygrometerReading : Sender := mkSender "vscp_evt_measurement64_sendDampMoistHygrometerReading" 60 35 3 [("value", PDouble)]
  [Do (Set_ 0 (Byte 0 8 7)); Do (Set_ 1 (Byte 0 8 6)); Do (Set_ 2 (Byte 0 8 5)); Do (Set_ 3 (Byte 0 8 4)); Do (Set_ 4 (Byte 0 8 3)); Do (Set_ 5 (Byte 0 8 2)); Do (Set_ 6 (Byte 0 8 1)); Do (Set_ 7 (Byte 0 8 0)); Do (Add 8); Do (SizeVar)].
(* src/events/vscp_evt_measurement64.c:1112-1132 vscp_evt_measurement64_sendFlow *)
Definition evt_measurement64_sendFlow : Sender := mkSender "vscp_evt_measurement64_sendFlow" 60 36 3 [("value", PDouble)]
  [Do (Set_ 0 (Byte 0 8 7)); Do (Set_ 1 (Byte 0 8 6)); Do (Set_ 2 (Byte 0 8 5)); Do (Set_ 3 (Byte 0 8 4)); Do (Set_ 4 (Byte 0 8 3)); Do (Set_ 5 (Byte 0 8 2)); Do (Set_ 6 (Byte 0 8 1)); Do (Set_ 7 (Byte 0 8 0)); Do (Add 8); Do (SizeVar)].
(* src/events/vscp_evt_measurement64.c:1141-1161 vscp_evt_measurement64_sendThermalResistance *)
Definition evt_measurement64_sendThermalResistance : Sender := mkSender "vscp_evt_measurement64_sendThermalResistance" 60 37 3 [("value", PDouble)]
  [Do (Set_ 0 (Byte 0 8 7)); Do (Set_ 1 (Byte 0 8 6)); Do (Set_ 2 (Byte 0 8 5)); Do (Set_ 3 (Byte 0 8 4)); Do (Set_ 4 (Byte 0 8 3)); Do (Set_ 5 (Byte 0 8 2)); Do (Set_ 6 (Byte 0 8 1)); Do (Set_ 7 (Byte 0 8 0)); Do (Add 8); Do (SizeVar)].
(* src/events/vscp_evt_measurement64.c:1170-1190 vscp_evt_measurement64_sendRefractiveOpticalPower *)
Definition evt_measurement64_sendRefractiveOpticalPower : Sender := mkSender "vscp_evt_measurement64_sendRefractiveOpticalPower" 60 38 3 [("value", PDouble)]
  [Do (Set_ 0 (Byte 0 8 7)); Do (Set_ 1 (Byte 0 8 6)); Do (Set_ 2 (Byte 0 8 5)); Do (Set_ 3 (Byte 0 8 4)); Do (Set_ 4 (Byte 0 8 3)); Do (Set_ 5 (Byte 0 8 2)); Do (Set_ 6 (Byte 0 8 1)); Do (Set_ 7 (Byte 0 8 0)); Do (Add 8); Do (SizeVar)].
(* src/events/vscp_evt_measurement64.c:1199-1219 vscp_evt_measurement64_sendDynamicViscosity *)
Definition evt_measurement64_sendDynamicViscosity : Sender := mkSender "vscp_evt_measurement64_sendDynamicViscosity" 60 39 3 [("value", PDouble)]
  [Do (Set_ 0 (Byte 0 8 7)); Do (Set_ 1 (Byte 0 8 6)); Do (Set_ 2 (Byte 0 8 5)); Do (Set_ 3 (Byte 0 8 4)); Do (Set_ 4 (Byte 0 8 3)); Do (Set_ 5 (Byte 0 8 2)); Do (Set_ 6 (Byte 0 8 1)); Do (Set_ 7 (Byte 0 8 0)); Do (Add 8); Do (SizeVar)].
(* src/events/vscp_evt_measurement64.c:1228-1248 vscp_evt_measurement64_sendSoundImpedance *)
Definition evt_measurement64_sendSoundImpedance : Sender := mkSender "vscp_evt_measurement64_sendSoundImpedance" 60 40 3 [("value", PDouble)]
  [Do (Set_ 0 (Byte 0 8 7)); Do (Set_ 1 (Byte 0 8 6)); Do (Set_ 2 (Byte 0 8 5)); Do (Set_ 3 (Byte 0 8 4)); Do (Set_ 4 (Byte 0 8 3)); Do (Set_ 5 (Byte 0 8 2)); Do (Set_ 6 (Byte 0 8 1)); Do (Set_ 7 (Byte 0 8 0)); Do (Add 8); Do (SizeVar)].
(* src/events/vscp_evt_measurement64.c:1257-1277 vscp_evt_measurement64_sendSoundResistance *)
Definition evt_measurement64_sendSoundResistance : Sender := mkSender "vscp_evt_measurement64_sendSoundResistance" 60 41 3 [("value", PDouble)]
  [Do (Set_ 0 (Byte 0 8 7)); Do (Set_ 1 (Byte 0 8 6)); Do (Set_ 2 (Byte 0 8 5)); Do (Set_ 3 (Byte 0 8 4)); Do (Set_ 4 (Byte 0 8 3)); Do (Set_ 5 (Byte 0 8 2)); Do (Set_ 6 (Byte 0 8 1)); Do (Set_ 7 (Byte 0 8 0)); Do (Add 8); Do (SizeVar)].
(* src/events/vscp_evt_measurement64.c:1286-1306 vscp_evt_measurement64_sendElectricElastance *)
Definition evt_measurement64_sendElectricElastance : Sender := mkSender "vscp_evt_measurement64_sendElectricElastance" 60 42 3 [("value", PDouble)]
  [Do (Set_ 0 (Byte 0 8 7)); Do (Set_ 1 (Byte 0 8 6)); Do (Set_ 2 (Byte 0 8 5)); Do (Set_ 3 (Byte 0 8 4)); Do (Set_ 4 (Byte 0 8 3)); Do (Set_ 5 (Byte 0 8 2)); Do (Set_ 6 (Byte 0 8 1)); Do (Set_ 7 (Byte 0 8 0)); Do (Add 8); Do (SizeVar)].
(* src/events/vscp_evt_measurement64.c:1315-1335 vscp_evt_measurement64_sendLuminousEnergy *)
Definition evt_measurement64_sendLuminousEnergy : Sender := mkSender "vscp_evt_measurement64_sendLuminousEnergy" 60 43 3 [("value", PDouble)]
  [Do (Set_ 0 (Byte 0 8 7)); Do (Set_ 1 (Byte 0 8 6)); Do (Set_ 2 (Byte 0 8 5)); Do (Set_ 3 (Byte 0 8 4)); Do (Set_ 4 (Byte 0 8 3)); Do (Set_ 5 (Byte 0 8 2)); Do (Set_ 6 (Byte 0 8 1)); Do (Set_ 7 (Byte 0 8 0)); Do (Add 8); Do (SizeVar)].
(* src/events/vscp_evt_measurement64.c:1344-1364 vscp_evt_measurement64_sendLuminance *)
Definition evt_measurement64_sendLuminance : Sender := mkSender "vscp_evt_measurement64_sendLuminance" 60 44 3 [("value", PDouble)]
  [Do (Set_ 0 (Byte 0 8 7)); Do (Set_ 1 (Byte 0 8 6)); Do (Set_ 2 (Byte 0 8 5)); Do (Set_ 3 (Byte 0 8 4)); Do (Set_ 4 (Byte 0 8 3)); Do (Set_ 5 (Byte 0 8 2)); Do (Set_ 6 (Byte 0 8 1)); Do (Set_ 7 (Byte 0 8 0)); Do (Add 8); Do (SizeVar)].
(* src/events/vscp_evt_measurement64.c:1373-1393 vscp_evt_measurement64_sendChemicalConcentration *)
Definition evt_measurement64_sendChemicalConcentration : Sender := mkSender "vscp_evt_measurement64_sendChemicalConcentration" 60 45 3 [("value", PDouble)]
  [Do (Set_ 0 (Byte 0 8 7)); Do (Set_ 1 (Byte 0 8 6)); Do (Set_ 2 (Byte 0 8 5)); Do (Set_ 3 (Byte 0 8 4)); Do (Set_ 4 (Byte 0 8 3)); Do (Set_ 5 (Byte 0 8 2)); Do (Set_ 6 (Byte 0 8 1)); Do (Set_ 7 (Byte 0 8 0)); Do (Add 8); Do (SizeVar)].
(* src/events/vscp_evt_measurement64.c:1404-1424 vscp_evt_measurement64_sendDoseEquivalent *)
Definition evt_measurement64_sendDoseEquivalent : Sender := mkSender "vscp_evt_measurement64_sendDoseEquivalent" 60 47 3 [("value", PDouble)]
  [Do (Set_ 0 (Byte 0 8 7)); Do (Set_ 1 (Byte 0 8 6)); Do (Set_ 2 (Byte 0 8 5)); Do (Set_ 3 (Byte 0 8 4)); Do (Set_ 4 (Byte 0 8 3)); Do (Set_ 5 (Byte 0 8 2)); Do (Set_ 6 (Byte 0 8 1)); Do (Set_ 7 (Byte 0 8 0)); Do (Add 8); Do (SizeVar)].
(* src/events/vscp_evt_measurement64.c:1435-1455 vscp_evt_measurement64_sendDewPoint *)
Definition evt_measurement64_sendDewPoint : Sender := mkSender "vscp_evt_measurement64_sendDewPoint" 60 49 3 [("value", PDouble)]
  [Do (Set_ 0 (Byte 0 8 7)); Do (Set_ 1 (Byte 0 8 6)); Do (Set_ 2 (Byte 0 8 5)); Do (Set_ 3 (Byte 0 8 4)); Do (Set_ 4 (Byte 0 8 3)); Do (Set_ 5 (Byte 0 8 2)); Do (Set_ 6 (Byte 0 8 1)); Do (Set_ 7 (Byte 0 8 0)); Do (Add 8); Do (SizeVar)].
(* src/events/vscp_evt_measurement64.c:1464-1484 vscp_evt_measurement64_sendRelativeLevel *)
Definition evt_measurement64_sendRelativeLevel : Sender := mkSender "vscp_evt_measurement64_sendRelativeLevel" 60 50 3 [("value", PDouble)]
  [Do (Set_ 0 (Byte 0 8 7)); Do (Set_ 1 (Byte 0 8 6)); Do (Set_ 2 (Byte 0 8 5)); Do (Set_ 3 (Byte 0 8 4)); Do (Set_ 4 (Byte 0 8 3)); Do (Set_ 5 (Byte 0 8 2)); Do (Set_ 6 (Byte 0 8 1)); Do (Set_ 7 (Byte 0 8 0)); Do (Add 8); Do (SizeVar)].
(* src/events/vscp_evt_measurement64.c:1493-1513 vscp_evt_measurement64_sendAltitude *)
Definition evt_measurement64_sendAltitude : Sender := mkSender "vscp_evt_measurement64_sendAltitude" 60 51 3 [("value", PDouble)]
  [Do (Set_ 0 (Byte 0 8 7)); Do (Set_ 1 (Byte 0 8 6)); Do (Set_ 2 (Byte 0 8 5)); Do (Set_ 3 (Byte 0 8 4)); Do (Set_ 4 (Byte 0 8 3)); Do (Set_ 5 (Byte 0 8 2)); Do (Set_ 6 (Byte 0 8 1)); Do (Set_ 7 (Byte 0 8 0)); Do (Add 8); Do (SizeVar)].
(* src/events/vscp_evt_measurement64.c:1522-1542 vscp_evt_measurement64_sendArea *)
Definition evt_measurement64_sendArea : Sender := mkSender "vscp_evt_measurement64_sendArea" 60 52 3 [("value", PDouble)]
  [Do (Set_ 0 (Byte 0 8 7)); Do (Set_ 1 (Byte 0 8 6)); Do (Set_ 2 (Byte 0 8 5)); Do (Set_ 3 (Byte 0 8 4)); Do (Set_ 4 (Byte 0 8 3)); Do (Set_ 5 (Byte 0 8 2)); Do (Set_ 6 (Byte 0 8 1)); Do (Set_ 7 (Byte 0 8 0)); Do (Add 8); Do (SizeVar)].
(* src/events/vscp_evt_measurement64.c:1551-1571 vscp_evt_measurement64_sendRadiantIntensity *)
Definition evt_measurement64_sendRadiantIntensity : Sender := mkSender "vscp_evt_measurement64_sendRadiantIntensity" 60 53 3 [("value", PDouble)]
  [Do (Set_ 0 (Byte 0 8 7)); Do (Set_ 1 (Byte 0 8 6)); Do (Set_ 2 (Byte 0 8 5)); Do (Set_ 3 (Byte 0 8 4)); Do (Set_ 4 (Byte 0 8 3)); Do (Set_ 5 (Byte 0 8 2)); Do (Set_ 6 (Byte 0 8 1)); Do (Set_ 7 (Byte 0 8 0)); Do (Add 8); Do (SizeVar)].
(* src/events/vscp_evt_measurement64.c:1580-1600 vscp_evt_measurement64_sendRadiance *)
Definition evt_measurement64_sendRadiance : Sender := mkSender "vscp_evt_measurement64_sendRadiance" 60 54 3 [("value", PDouble)]
  [Do (Set_ 0 (Byte 0 8 7)); Do (Set_ 1 (Byte 0 8 6)); Do (Set_ 2 (Byte 0 8 5)); Do (Set_ 3 (Byte 0 8 4)); Do (Set_ 4 (Byte 0 8 3)); Do (Set_ 5 (Byte 0 8 2)); Do (Set_ 6 (Byte 0 8 1)); Do (Set_ 7 (Byte 0 8 0)); Do (Add 8); Do (SizeVar)].
(* src/events/vscp_evt_measurement64.c:1609-1629 vscp_evt_measurement64_sendIrradianceExitanceRadiosity *)
Definition evt_measurement64_sendIrradianceExitanceRadiosity : Sender := mkSender "vscp_evt_measurement64_sendIrradianceExitanceRadiosity" 60 55 3 [("value", PDouble)]
  [Do (Set_ 0 (Byte 0 8 7)); Do (Set_ 1 (Byte 0 8 6)); Do (Set_ 2 (Byte 0 8 5)); Do (Set_ 3 (Byte 0 8 4)); Do (Set_ 4 (Byte 0 8 3)); Do (Set_ 5 (Byte 0 8 2)); Do (Set_ 6 (Byte 0 8 1)); Do (Set_ 7 (Byte 0 8 0)); Do (Add 8); Do (SizeVar)].
(* src/events/vscp_evt_measurement64.c:1638-1658 vscp_evt_measurement64_sendSpectralRadiance *)
Definition evt_measurement64_sendSpectralRadiance : Sender := mkSender "vscp_evt_measurement64_sendSpectralRadiance" 60 56 3 [("value", PDouble)]
  [Do (Set_ 0 (Byte 0 8 7)); Do (Set_ 1 (Byte 0 8 6)); Do (Set_ 2 (Byte 0 8 5)); Do (Set_ 3 (Byte 0 8 4)); Do (Set_ 4 (Byte 0 8 3)); Do (Set_ 5 (Byte 0 8 2)); Do (Set_ 6 (Byte 0 8 1)); Do (Set_ 7 (Byte 0 8 0)); Do (Add 8); Do (SizeVar)].
(* src/events/vscp_evt_measurement64.c:1667-1687 vscp_evt_measurement64_sendSpectralIrradiance *)
Definition evt_measurement64_sendSpectralIrradiance : Sender := mkSender "vscp_evt_measurement64_sendSpectralIrradiance" 60 57 3 [("value", PDouble)]
  [Do (Set_ 0 (Byte 0 8 7)); Do (Set_ 1 (Byte 0 8 6)); Do (Set_ 2 (Byte 0 8 5)); Do (Set_ 3 (Byte 0 8 4)); Do (Set_ 4 (Byte 0 8 3)); Do (Set_ 5 (Byte 0 8 2)); Do (Set_ 6 (Byte 0 8 1)); Do (Set_ 7 (Byte 0 8 0)); Do (Add 8); Do (SizeVar)].
(* src/events/vscp_evt_measurement64.c:1696-1716 vscp_evt_measurement64_sendSoundPressureAcousticPressure *)
Definition evt_measurement64_sendSoundPressureAcousticPressure : Sender := mkSender "vscp_evt_measurement64_sendSoundPressureAcousticPressure" 60 58 3 [("value", PDouble)]
  [Do (Set_ 0 (Byte 0 8 7)); Do (Set_ 1 (Byte 0 8 6)); Do (Set_ 2 (Byte 0 8 5)); Do (Set_ 3 (Byte 0 8 4)); Do (Set_ 4 (Byte 0 8 3)); Do (Set_ 5 (Byte 0 8 2)); Do (Set_ 6 (Byte 0 8 1)); Do (Set_ 7 (Byte 0 8 0)); Do (Add 8); Do (SizeVar)].
(* src/events/vscp_evt_measurement64.c:1725-1745 vscp_evt_measurement64_sendSoundEnergyDensity *)
Definition evt_measurement64_sendSoundEnergyDensity : Sender := mkSender "vscp_evt_measurement64_sendSoundEnergyDensity" 60 59 3 [("value", PDouble)]
  [Do (Set_ 0 (Byte 0 8 7)); Do (Set_ 1 (Byte 0 8 6)); Do (Set_ 2 (Byte 0 8 5)); Do (Set_ 3 (Byte 0 8 4)); Do (Set_ 4 (Byte 0 8 3)); Do (Set_ 5 (Byte 0 8 2)); Do (Set_ 6 (Byte 0 8 1)); Do (Set_ 7 (Byte 0 8 0)); Do (Add 8); Do (SizeVar)].
(* src/events/vscp_evt_measurement64.c:1754-1774 vscp_evt_measurement64_sendSoundLevel *)
Definition evt_measurement64_sendSoundLevel : Sender := mkSender "vscp_evt_measurement64_sendSoundLevel" 60 60 3 [("value", PDouble)]
  [Do (Set_ 0 (Byte 0 8 7)); Do (Set_ 1 (Byte 0 8 6)); Do (Set_ 2 (Byte 0 8 5)); Do (Set_ 3 (Byte 0 8 4)); Do (Set_ 4 (Byte 0 8 3)); Do (Set_ 5 (Byte 0 8 2)); Do (Set_ 6 (Byte 0 8 1)); Do (Set_ 7 (Byte 0 8 0)); Do (Add 8); Do (SizeVar)].
(* src/events/vscp_evt_measurement64.c:1783-1803 vscp_evt_measurement64_sendRadiationDoseEquivalent *)
Definition evt_measurement64_sendRadiationDoseEquivalent : Sender := mkSender "vscp_evt_measurement64_sendRadiationDoseEquivalent" 60 61 3 [("value", PDouble)]
  [Do (Set_ 0 (Byte 0 8 7)); Do (Set_ 1 (Byte 0 8 6)); Do (Set_ 2 (Byte 0 8 5)); Do (Set_ 3 (Byte 0 8 4)); Do (Set_ 4 (Byte 0 8 3)); Do (Set_ 5 (Byte 0 8 2)); Do (Set_ 6 (Byte 0 8 1)); Do (Set_ 7 (Byte 0 8 0)); Do (Add 8); Do (SizeVar)].
(* src/events/vscp_evt_measurement64.c:1812-1832 vscp_evt_measurement64_sendRadiationDoseExposure *)
Definition evt_measurement64_sendRadiationDoseExposure : Sender := mkSender "vscp_evt_measurement64_sendRadiationDoseExposure" 60 62 3 [("value", PDouble)]
  [Do (Set_ 0 (Byte 0 8 7)); Do (Set_ 1 (Byte 0 8 6)); Do (Set_ 2 (Byte 0 8 5)); Do (Set_ 3 (Byte 0 8 4)); Do (Set_ 4 (Byte 0 8 3)); Do (Set_ 5 (Byte 0 8 2)); Do (Set_ 6 (Byte 0 8 1)); Do (Set_ 7 (Byte 0 8 0)); Do (Add 8); Do (SizeVar)].
(* src/events/vscp_evt_measurement64.c:1841-1861 vscp_evt_measurement64_sendPowerFactor *)
Definition evt_measurement64_sendPowerFactor : Sender := mkSender "vscp_evt_measurement64_sendPowerFactor" 60 63 3 [("value", PDouble)]
  [Do (Set_ 0 (Byte 0 8 7)); Do (Set_ 1 (Byte 0 8 6)); Do (Set_ 2 (Byte 0 8 5)); Do (Set_ 3 (Byte 0 8 4)); Do (Set_ 4 (Byte 0 8 3)); Do (Set_ 5 (Byte 0 8 2)); Do (Set_ 6 (Byte 0 8 1)); Do (Set_ 7 (Byte 0 8 0)); Do (Add 8); Do (SizeVar)].
(* src/events/vscp_evt_measurement64.c:1870-1890 vscp_evt_measurement64_sendReactivePower *)
Definition evt_measurement64_sendReactivePower : Sender := mkSender "vscp_evt_measurement64_sendReactivePower" 60 64 3 [("value", PDouble)]
  [Do (Set_ 0 (Byte 0 8 7)); Do (Set_ 1 (Byte 0 8 6)); Do (Set_ 2 (Byte 0 8 5)); Do (Set_ 3 (Byte 0 8 4)); Do (Set_ 4 (Byte 0 8 3)); Do (Set_ 5 (Byte 0 8 2)); Do (Set_ 6 (Byte 0 8 1)); Do (Set_ 7 (Byte 0 8 0)); Do (Add 8); Do (SizeVar)].
(* src/events/vscp_evt_measurement64.c:1899-1919 vscp_evt_measurement64_sendReactiveEnergy *)
Definition evt_measurement64_sendReactiveEnergy : Sender := mkSender "vscp_evt_measurement64_sendReactiveEnergy" 60 65 3 [("value", PDouble)]
  [Do (Set_ 0 (Byte 0 8 7)); Do (Set_ 1 (Byte 0 8 6)); Do (Set_ 2 (Byte 0 8 5)); Do (Set_ 3 (Byte 0 8 4)); Do (Set_ 4 (Byte 0 8 3)); Do (Set_ 5 (Byte 0 8 2)); Do (Set_ 6 (Byte 0 8 1)); Do (Set_ 7 (Byte 0 8 0)); Do (Add 8); Do (SizeVar)].
(* src/events/vscp_evt_measurezone.c:80-89 vscp_evt_measurezone_sendGeneralEvent *)
Definition evt_measurezone_sendGeneralEvent : Sender := mkSender "vscp_evt_measurezone_sendGeneralEvent" 65 0 3 []
  [Do (SizeIs 0)].
(* src/events/vscp_evt_measurezone.c:102-116 vscp_evt_measurezone_sendCount *)
Definition evt_measurezone_sendCount : Sender := mkSender "vscp_evt_measurezone_sendCount" 65 1 3 [("index", PInt 1); ("zone", PInt 1); ("subZone", PInt 1); ("data", PData); ("exp", PExp)]
  [Do (SizeIs 3); Do (Set_ 0 (Par 0)); Do (Set_ 1 (Par 1)); Do (Set_ 2 (Par 2)); Do (Norm 3 3 4)].
(* src/events/vscp_evt_measurezone.c:129-143 vscp_evt_measurezone_sendLengthDistance *)
Definition evt_measurezone_sendLengthDistance : Sender := mkSender "vscp_evt_measurezone_sendLengthDistance" 65 2 3 [("index", PInt 1); ("zone", PInt 1); ("subZone", PInt 1); ("data", PData); ("exp", PExp)]
  [Do (SizeIs 3); Do (Set_ 0 (Par 0)); Do (Set_ 1 (Par 1)); Do (Set_ 2 (Par 2)); Do (Norm 3 3 4)].
(* src/events/vscp_evt_measurezone.c:156-170 vscp_evt_measurezone_sendMass *)
Definition evt_measurezone_sendMass : Sender := mkSender "vscp_evt_measurezone_sendMass" 65 3 3 [("index", PInt 1); ("zone", PInt 1); ("subZone", PInt 1); ("data", PData); ("exp", PExp)]
  [Do (SizeIs 3); Do (Set_ 0 (Par 0)); Do (Set_ 1 (Par 1)); Do (Set_ 2 (Par 2)); Do (Norm 3 3 4)].
(* src/events/vscp_evt_measurezone.c:183-197 vscp_evt_measurezone_sendTime *)
Definition evt_measurezone_sendTime : Sender := mkSender "vscp_evt_measurezone_sendTime" 65 4 3 [("index", PInt 1); ("zone", PInt 1); ("subZone", PInt 1); ("data", PData); ("exp", PExp)]
  [Do (SizeIs 3); Do (Set_ 0 (Par 0)); Do (Set_ 1 (Par 1)); Do (Set_ 2 (Par 2)); Do (Norm 3 3 4)].
(* src/events/vscp_evt_measurezone.c:210-224 vscp_evt_measurezone_sendElectricCurrent *)
Definition evt_measurezone_sendElectricCurrent : Sender := mkSender "vscp_evt_measurezone_sendElectricCurrent" 65 5 3 [("index", PInt 1); ("zone", PInt 1); ("subZone", PInt 1); ("data", PData); ("exp", PExp)]
  [Do (SizeIs 3); Do (Set_ 0 (Par 0)); Do (Set_ 1 (Par 1)); Do (Set_ 2 (Par 2)); Do (Norm 3 3 4)].
(* src/events/vscp_evt_measurezone.c:237-251 vscp_evt_measurezone_sendTemperature *)
Definition evt_measurezone_sendTemperature : Sender := mkSender "vscp_evt_measurezone_sendTemperature" 65 6 3 [("index", PInt 1); ("zone", PInt 1); ("subZone", PInt 1); ("data", PData); ("exp", PExp)]
  [Do (SizeIs 3); Do (Set_ 0 (Par 0)); Do (Set_ 1 (Par 1)); Do (Set_ 2 (Par 2)); Do (Norm 3 3 4)].
(* src/events/vscp_evt_measurezone.c:264-278 vscp_evt_measurezone_sendAmountOfSubstance *)
Definition evt_measurezone_sendAmountOfSubstance : Sender := mkSender "vscp_evt_measurezone_sendAmountOfSubstance" 65 7 3 [("index", PInt 1); ("zone", PInt 1); ("subZone", PInt 1); ("data", PData); ("exp", PExp)]
  [Do (SizeIs 3); Do (Set_ 0 (Par 0)); Do (Set_ 1 (Par 1)); Do (Set_ 2 (Par 2)); Do (Norm 3 3 4)].
(* src/events/vscp_evt_measurezone.c:291-305 vscp_evt_measurezone_sendLuminousIntensityIntensityOfLight *)
Definition evt_measurezone_sendLuminousIntensityIntensityOfLight : Sender := mkSender "vscp_evt_measurezone_sendLuminousIntensityIntensityOfLight" 65 8 3 [("index", PInt 1); ("zone", PInt 1); ("subZone", PInt 1); ("data", PData); ("exp", PExp)]
  [Do (SizeIs 3); Do (Set_ 0 (Par 0)); Do (Set_ 1 (Par 1)); Do (Set_ 2 (Par 2)); Do (Norm 3 3 4)].
(* src/events/vscp_evt_measurezone.c:318-332 vscp_evt_measurezone_sendFrequency *)
Definition evt_measurezone_sendFrequency : Sender := mkSender "vscp_evt_measurezone_sendFrequency" 65 9 3 [("index", PInt 1); ("zone", PInt 1); ("subZone", PInt 1); ("data", PData); ("exp", PExp)]
  [Do (SizeIs 3); Do (Set_ 0 (Par 0)); Do (Set_ 1 (Par 1)); Do (Set_ 2 (Par 2)); Do (Norm 3 3 4)].
(* src/events/vscp_evt_measurezone.c:345-359 vscp_evt_measurezone_sendRadioactivityAndOtherRandomEvents *)
Definition evt_measurezone_sendRadioactivityAndOtherRandomEvents : Sender := mkSender "vscp_evt_measurezone_sendRadioactivityAndOtherRandomEvents" 65 10 3 [("index", PInt 1); ("zone", PInt 1); ("subZone", PInt 1); ("data", PData); ("exp", PExp)]
  [Do (SizeIs 3); Do (Set_ 0 (Par 0)); Do (Set_ 1 (Par 1)); Do (Set_ 2 (Par 2)); Do (Norm 3 3 4)].
(* src/events/vscp_evt_measurezone.c:372-386 vscp_evt_measurezone_sendForce *)
Definition evt_measurezone_sendForce : Sender := mkSender "vscp_evt_measurezone_sendForce" 65 11 3 [("index", PInt 1); ("zone", PInt 1); ("subZone", PInt 1); ("data", PData); ("exp", PExp)]
  [Do (SizeIs 3); Do (Set_ 0 (Par 0)); Do (Set_ 1 (Par 1)); Do (Set_ 2 (Par 2)); Do (Norm 3 3 4)].
(* src/events/vscp_evt_measurezone.c:399-413 vscp_evt_measurezone_sendPressure *)
Definition evt_measurezone_sendPressure : Sender := mkSender "vscp_evt_measurezone_sendPressure" 65 12 3 [("index", PInt 1); ("zone", PInt 1); ("subZone", PInt 1); ("data", PData); ("exp", PExp)]
  [Do (SizeIs 3); Do (Set_ 0 (Par 0)); Do (Set_ 1 (Par 1)); Do (Set_ 2 (Par 2)); Do (Norm 3 3 4)].
(* src/events/vscp_evt_measurezone.c:426-440 vscp_evt_measurezone_sendEnergy *)
Definition evt_measurezone_sendEnergy : Sender := mkSender "vscp_evt_measurezone_sendEnergy" 65 13 3 [("index", PInt 1); ("zone", PInt 1); ("subZone", PInt 1); ("data", PData); ("exp", PExp)]
  [Do (SizeIs 3); Do (Set_ 0 (Par 0)); Do (Set_ 1 (Par 1)); Do (Set_ 2 (Par 2)); Do (Norm 3 3 4)].
(* src/events/vscp_evt_measurezone.c:453-467 vscp_evt_measurezone_sendPower *)
Definition evt_measurezone_sendPower : Sender := mkSender "vscp_evt_measurezone_sendPower" 65 14 3 [("index", PInt 1); ("zone", PInt 1); ("subZone", PInt 1); ("data", PData); ("exp", PExp)]
  [Do (SizeIs 3); Do (Set_ 0 (Par 0)); Do (Set_ 1 (Par 1)); Do (Set_ 2 (Par 2)); Do (Norm 3 3 4)].
(* src/events/vscp_evt_measurezone.c:480-494 vscp_evt_measurezone_sendElectricalCharge *)
Definition evt_measurezone_sendElectricalCharge : Sender := mkSender "vscp_evt_measurezone_sendElectricalCharge" 65 15 3 [("index", PInt 1); ("zone", PInt 1); ("subZone", PInt 1); ("data", PData); ("exp", PExp)]
  [Do (SizeIs 3); Do (Set_ 0 (Par 0)); Do (Set_ 1 (Par 1)); Do (Set_ 2 (Par 2)); Do (Norm 3 3 4)].
(* src/events/vscp_evt_measurezone.c:507-521 vscp_evt_measurezone_sendElectricalPotentialVoltage *)
Definition evt_measurezone_sendElectricalPotentialVoltage : Sender := mkSender "vscp_evt_measurezone_sendElectricalPotentialVoltage" 65 16 3 [("index", PInt 1); ("zone", PInt 1); ("subZone", PInt 1); ("data", PData); ("exp", PExp)]
  [Do (SizeIs 3); Do (Set_ 0 (Par 0)); Do (Set_ 1 (Par 1)); Do (Set_ 2 (Par 2)); Do (Norm 3 3 4)].
(* src/events/vscp_evt_measurezone.c:534-548 vscp_evt_measurezone_sendElectricalCapacitance *)
Definition evt_measurezone_sendElectricalCapacitance : Sender := mkSender "vscp_evt_measurezone_sendElectricalCapacitance" 65 17 3 [("index", PInt 1); ("zone", PInt 1); ("subZone", PInt 1); ("data", PData); ("exp", PExp)]
  [Do (SizeIs 3); Do (Set_ 0 (Par 0)); Do (Set_ 1 (Par 1)); Do (Set_ 2 (Par 2)); Do (Norm 3 3 4)].
(* src/events/vscp_evt_measurezone.c:561-575 vscp_evt_measurezone_sendElectricalResistance *)
Definition evt_measurezone_sendElectricalResistance : Sender := mkSender "vscp_evt_measurezone_sendElectricalResistance" 65 18 3 [("index", PInt 1); ("zone", PInt 1); ("subZone", PInt 1); ("data", PData); ("exp", PExp)]
  [Do (SizeIs 3); Do (Set_ 0 (Par 0)); Do (Set_ 1 (Par 1)); Do (Set_ 2 (Par 2)); Do (Norm 3 3 4)].
(* src/events/vscp_evt_measurezone.c:588-602 vscp_evt_measurezone_sendElectricalConductance *)
Definition evt_measurezone_sendElectricalConductance : Sender := mkSender "vscp_evt_measurezone_sendElectricalConductance" 65 19 3 [("index", PInt 1); ("zone", PInt 1); ("subZone", PInt 1); ("data", PData); ("exp", PExp)]
  [Do (SizeIs 3); Do (Set_ 0 (Par 0)); Do (Set_ 1 (Par 1)); Do (Set_ 2 (Par 2)); Do (Norm 3 3 4)].
(* src/events/vscp_evt_measurezone.c:615-629 vscp_evt_measurezone_sendMagneticFieldStrength *)
Definition evt_measurezone_sendMagneticFieldStrength : Sender := mkSender "vscp_evt_measurezone_sendMagneticFieldStrength" 65 20 3 [("index", PInt 1); ("zone", PInt 1); ("subZone", PInt 1); ("data", PData); ("exp", PExp)]
  [Do (SizeIs 3); Do (Set_ 0 (Par 0)); Do (Set_ 1 (Par 1)); Do (Set_ 2 (Par 2)); Do (Norm 3 3 4)].
(* src/events/vscp_evt_measurezone.c:642-656 vscp_evt_measurezone_sendMagneticFlux *)
Definition evt_measurezone_sendMagneticFlux : Sender := mkSender "vscp_evt_measurezone_sendMagneticFlux" 65 21 3 [("index", PInt 1); ("zone", PInt 1); ("subZone", PInt 1); ("data", PData); ("exp", PExp)]
  [Do (SizeIs 3); Do (Set_ 0 (Par 0)); Do (Set_ 1 (Par 1)); Do (Set_ 2 (Par 2)); Do (Norm 3 3 4)].
(* src/events/vscp_evt_measurezone.c:669-683 vscp_evt_measurezone_sendMagneticFluxDensity *)
Definition evt_measurezone_sendMagneticFluxDensity : Sender := mkSender "vscp_evt_measurezone_sendMagneticFluxDensity" 65 22 3 [("index", PInt 1); ("zone", PInt 1); ("subZone", PInt 1); ("data", PData); ("exp", PExp)]
  [Do (SizeIs 3); Do (Set_ 0 (Par 0)); Do (Set_ 1 (Par 1)); Do (Set_ 2 (Par 2)); Do (Norm 3 3 4)].
(* src/events/vscp_evt_measurezone.c:696-710 vscp_evt_measurezone_sendInductance *)
Definition evt_measurezone_sendInductance : Sender := mkSender "vscp_evt_measurezone_sendInductance" 65 23 3 [("index", PInt 1); ("zone", PInt 1); ("subZone", PInt 1); ("data", PData); ("exp", PExp)]
  [Do (SizeIs 3); Do (Set_ 0 (Par 0)); Do (Set_ 1 (Par 1)); Do (Set_ 2 (Par 2)); Do (Norm 3 3 4)].
(* src/events/vscp_evt_measurezone.c:723-737 vscp_evt_measurezone_sendLuminousFlux *)
Definition evt_measurezone_sendLuminousFlux : Sender := mkSender "vscp_evt_measurezone_sendLuminousFlux" 65 24 3 [("index", PInt 1); ("zone", PInt 1); ("subZone", PInt 1); ("data", PData); ("exp", PExp)]
  [Do (SizeIs 3); Do (Set_ 0 (Par 0)); Do (Set_ 1 (Par 1)); Do (Set_ 2 (Par 2)); Do (Norm 3 3 4)].
(* src/events/vscp_evt_measurezone.c:750-764 vscp_evt_measurezone_sendIlluminance *)
Definition evt_measurezone_sendIlluminance : Sender := mkSender "vscp_evt_measurezone_sendIlluminance" 65 25 3 [("index", PInt 1); ("zone", PInt 1); ("subZone", PInt 1); ("data", PData); ("exp", PExp)]
  [Do (SizeIs 3); Do (Set_ 0 (Par 0)); Do (Set_ 1 (Par 1)); Do (Set_ 2 (Par 2)); Do (Norm 3 3 4)].
(* src/events/vscp_evt_measurezone.c:777-791 vscp_evt_measurezone_sendRadiationDose *)
Definition evt_measurezone_sendRadiationDose : Sender := mkSender "vscp_evt_measurezone_sendRadiationDose" 65 26 3 [("index", PInt 1); ("zone", PInt 1); ("subZone", PInt 1); ("data", PData); ("exp", PExp)]
  [Do (SizeIs 3); Do (Set_ 0 (Par 0)); Do (Set_ 1 (Par 1)); Do (Set_ 2 (Par 2)); Do (Norm 3 3 4)].
(* src/events/vscp_evt_measurezone.c:804-818 vscp_evt_measurezone_sendCatalyticActivity *)
Definition evt_measurezone_sendCatalyticActivity : Sender := mkSender "vscp_evt_measurezone_sendCatalyticActivity" 65 27 3 [("index", PInt 1); ("zone", PInt 1); ("subZone", PInt 1); ("data", PData); ("exp", PExp)]
  [Do (SizeIs 3); Do (Set_ 0 (Par 0)); Do (Set_ 1 (Par 1)); Do (Set_ 2 (Par 2)); Do (Norm 3 3 4)].
(* src/events/vscp_evt_measurezone.c:831-845 vscp_evt_measurezone_sendVolume *)
Definition evt_measurezone_sendVolume : Sender := mkSender "vscp_evt_measurezone_sendVolume" 65 28 3 [("index", PInt 1); ("zone", PInt 1); ("subZone", PInt 1); ("data", PData); ("exp", PExp)]
  [Do (SizeIs 3); Do (Set_ 0 (Par 0)); Do (Set_ 1 (Par 1)); Do (Set_ 2 (Par 2)); Do (Norm 3 3 4)].
(* src/events/vscp_evt_measurezone.c:858-872 vscp_evt_measurezone_sendSoundIntensity *)
Definition evt_measurezone_sendSoundIntensity : Sender := mkSender "vscp_evt_measurezone_sendSoundIntensity" 65 29 3 [("index", PInt 1); ("zone", PInt 1); ("subZone", PInt 1); ("data", PData); ("exp", PExp)]
  [Do (SizeIs 3); Do (Set_ 0 (Par 0)); Do (Set_ 1 (Par 1)); Do (Set_ 2 (Par 2)); Do (Norm 3 3 4)].
(* src/events/vscp_evt_measurezone.c:885-899 vscp_evt_measurezone_sendAngle *)
Definition evt_measurezone_sendAngle : Sender := mkSender "vscp_evt_measurezone_sendAngle" 65 30 3 [("index", PInt 1); ("zone", PInt 1); ("subZone", PInt 1); ("data", PData); ("exp", PExp)]
  [Do (SizeIs 3); Do (Set_ 0 (Par 0)); Do (Set_ 1 (Par 1)); Do (Set_ 2 (Par 2)); Do (Norm 3 3 4)].
(* src/events/vscp_evt_measurezone.c:912-926 vscp_evt_measurezone_sendPositionWgs84 *)
Definition evt_measurezone_sendPositionWgs84 : Sender := mkSender "vscp_evt_measurezone_sendPositionWgs84" 65 31 3 [("index", PInt 1); ("zone", PInt 1); ("subZone", PInt 1); ("data", PData); ("exp", PExp)]
  [Do (SizeIs 3); Do (Set_ 0 (Par 0)); Do (Set_ 1 (Par 1)); Do (Set_ 2 (Par 2)); Do (Norm 3 3 4)].
(* src/events/vscp_evt_measurezone.c:939-953 vscp_evt_measurezone_sendSpeed *)
Definition evt_measurezone_sendSpeed : Sender := mkSender "vscp_evt_measurezone_sendSpeed" 65 32 3 [("index", PInt 1); ("zone", PInt 1); ("subZone", PInt 1); ("data", PData); ("exp", PExp)]
  [Do (SizeIs 3); Do (Set_ 0 (Par 0)); Do (Set_ 1 (Par 1)); Do (Set_ 2 (Par 2)); Do (Norm 3 3 4)].
(* src/events/vscp_evt_measurezone.c:966-980 vscp_evt_measurezone_sendAcceleration *)
Definition evt_measurezone_sendAcceleration : Sender := mkSender "vscp_evt_measurezone_sendAcceleration" 65 33 3 [("index", PInt 1); ("zone", PInt 1); ("subZone", PInt 1); ("data", PData); ("exp", PExp)]
  [Do (SizeIs 3); Do (Set_ 0 (Par 0)); Do (Set_ 1 (Par 1)); Do (Set_ 2 (Par 2)); Do (Norm 3 3 4)].
(* src/events/vscp_evt_measurezone.c:993-1007 vscp_evt_measurezone_sendTension *)
Definition evt_measurezone_sendTension : Sender := mkSender "vscp_evt_measurezone_sendTension" 65 34 3 [("index", PInt 1); ("zone", PInt 1); ("subZone", PInt 1); ("data", PData); ("exp", PExp)]
  [Do (SizeIs 3); Do (Set_ 0 (Par 0)); Do (Set_ 1 (Par 1)); Do (Set_ 2 (Par 2)); Do (Norm 3 3 4)].
(* src/events/vscp_evt_measurezone.c:1020-1034 vscp_evt_measurezone_sendDampMoistHygrometerReading *)
Definition evt_measurezone_sendDampMoistHygrometerReading : Sender := mkSender "vscp_evt_measurezone_sendDampMoistHygrometerReading" 65 35 3 [("index", PInt 1); ("zone", PInt 1); ("subZone", PInt 1); ("data", PData); ("exp", PExp)]
  [Do (SizeIs 3); Do (Set_ 0 (Par 0)); Do (Set_ 1 (Par 1)); Do (Set_ 2 (Par 2)); Do (Norm 3 3 4)].
(* src/events/vscp_evt_measurezone.c:1047-1061 vscp_evt_measurezone_sendFlow *)
Definition evt_measurezone_sendFlow : Sender := mkSender "vscp_evt_measurezone_sendFlow" 65 36 3 [("index", PInt 1); ("zone", PInt 1); ("subZone", PInt 1); ("data", PData); ("exp", PExp)]
  [Do (SizeIs 3); Do (Set_ 0 (Par 0)); Do (Set_ 1 (Par 1)); Do (Set_ 2 (Par 2)); Do (Norm 3 3 4)].
(* src/events/vscp_evt_measurezone.c:1074-1088 vscp_evt_measurezone_sendThermalResistance *)
Definition evt_measurezone_sendThermalResistance : Sender := mkSender "vscp_evt_measurezone_sendThermalResistance" 65 37 3 [("index", PInt 1); ("zone", PInt 1); ("subZone", PInt 1); ("data", PData); ("exp", PExp)]
  [Do (SizeIs 3); Do (Set_ 0 (Par 0)); Do (Set_ 1 (Par 1)); Do (Set_ 2 (Par 2)); Do (Norm 3 3 4)].
(* src/events/vscp_evt_measurezone.c:1101-1115 vscp_evt_measurezone_sendRefractiveOpticalPower *)
Definition evt_measurezone_sendRefractiveOpticalPower : Sender := mkSender "vscp_evt_measurezone_sendRefractiveOpticalPower" 65 38 3 [("index", PInt 1); ("zone", PInt 1); ("subZone", PInt 1); ("data", PData); ("exp", PExp)]
  [Do (SizeIs 3); Do (Set_ 0 (Par 0)); Do (Set_ 1 (Par 1)); Do (Set_ 2 (Par 2)); Do (Norm 3 3 4)].
(* src/events/vscp_evt_measurezone.c:1128-1142 vscp_evt_measurezone_sendDynamicViscosity *)
Definition evt_measurezone_sendDynamicViscosity : Sender := mkSender "vscp_evt_measurezone_sendDynamicViscosity" 65 39 3 [("index", PInt 1); ("zone", PInt 1); ("subZone", PInt 1); ("data", PData); ("exp", PExp)]
  [Do (SizeIs 3); Do (Set_ 0 (Par 0)); Do (Set_ 1 (Par 1)); Do (Set_ 2 (Par 2)); Do (Norm 3 3 4)].
(* src/events/vscp_evt_measurezone.c:1155-1169 vscp_evt_measurezone_sendSoundImpedance *)
Definition evt_measurezone_sendSoundImpedance : Sender := mkSender "vscp_evt_measurezone_sendSoundImpedance" 65 40 3 [("index", PInt 1); ("zone", PInt 1); ("subZone", PInt 1); ("data", PData); ("exp", PExp)]
  [Do (SizeIs 3); Do (Set_ 0 (Par 0)); Do (Set_ 1 (Par 1)); Do (Set_ 2 (Par 2)); Do (Norm 3 3 4)].
(* src/events/vscp_evt_measurezone.c:1182-1196 vscp_evt_measurezone_sendSoundResistance *)
Definition evt_measurezone_sendSoundResistance : Sender := mkSender "vscp_evt_measurezone_sendSoundResistance" 65 41 3 [("index", PInt 1); ("zone", PInt 1); ("subZone", PInt 1); ("data", PData); ("exp", PExp)]
  [Do (SizeIs 3); Do (Set_ 0 (Par 0)); Do (Set_ 1 (Par 1)); Do (Set_ 2 (Par 2)); Do (Norm 3 3 4)].
(* src/events/vscp_evt_measurezone.c:1209-1223 vscp_evt_measurezone_sendElectricElastance *)
Definition evt_measurezone_sendElectricElastance : Sender := mkSender "vscp_evt_measurezone_sendElectricElastance" 65 42 3 [("index", PInt 1); ("zone", PInt 1); ("subZone", PInt 1); ("data", PData); ("exp", PExp)]
  [Do (SizeIs 3); Do (Set_ 0 (Par 0)); Do (Set_ 1 (Par 1)); Do (Set_ 2 (Par 2)); Do (Norm 3 3 4)].
(* src/events/vscp_evt_measurezone.c:1236-1250 vscp_evt_measurezone_sendLuminousEnergy *)
Definition evt_measurezone_sendLuminousEnergy : Sender := mkSender "vscp_evt_measurezone_sendLuminousEnergy" 65 43 3 [("index", PInt 1); ("zone", PInt 1); ("subZone", PInt 1); ("data", PData); ("exp", PExp)]
  [Do (SizeIs 3); Do (Set_ 0 (Par 0)); Do (Set_ 1 (Par 1)); Do (Set_ 2 (Par 2)); Do (Norm 3 3 4)].
(* src/events/vscp_evt_measurezone.c:1263-1277 vscp_evt_measurezone_sendLuminance *)
Definition evt_measurezone_sendLuminance : Sender := mkSender "vscp_evt_measurezone_sendLuminance" 65 44 3 [("index", PInt 1); ("zone", PInt 1); ("subZone", PInt 1); ("data", PData); ("exp", PExp)]
  [Do (SizeIs 3); Do (Set_ 0 (Par 0)); Do (Set_ 1 (Par 1)); Do (Set_ 2 (Par 2)); Do (Norm 3 3 4)].
(* src/events/vscp_evt_measurezone.c:1290-1304 vscp_evt_measurezone_sendChemicalConcentration *)
Definition evt_measurezone_sendChemicalConcentration : Sender := mkSender "vscp_evt_measurezone_sendChemicalConcentration" 65 45 3 [("index", PInt 1); ("zone", PInt 1); ("subZone", PInt 1); ("data", PData); ("exp", PExp)]
  [Do (SizeIs 3); Do (Set_ 0 (Par 0)); Do (Set_ 1 (Par 1)); Do (Set_ 2 (Par 2)); Do (Norm 3 3 4)].
(* src/events/vscp_evt_measurezone.c:1319-1333 vscp_evt_measurezone_sendDoseEquivalent *)
Definition evt_measurezone_sendDoseEquivalent : Sender := mkSender "vscp_evt_measurezone_sendDoseEquivalent" 65 47 3 [("index", PInt 1); ("zone", PInt 1); ("subZone", PInt 1); ("data", PData); ("exp", PExp)]
  [Do (SizeIs 3); Do (Set_ 0 (Par 0)); Do (Set_ 1 (Par 1)); Do (Set_ 2 (Par 2)); Do (Norm 3 3 4)].
(* src/events/vscp_evt_measurezone.c:1348-1362 vscp_evt_measurezone_sendDewPoint *)
Definition evt_measurezone_sendDewPoint : Sender := mkSender "vscp_evt_measurezone_sendDewPoint" 65 49 3 [("index", PInt 1); ("zone", PInt 1); ("subZone", PInt 1); ("data", PData); ("exp", PExp)]
  [Do (SizeIs 3); Do (Set_ 0 (Par 0)); Do (Set_ 1 (Par 1)); Do (Set_ 2 (Par 2)); Do (Norm 3 3 4)].
(* src/events/vscp_evt_measurezone.c:1375-1389 vscp_evt_measurezone_sendRelativeLevel *)
Definition evt_measurezone_sendRelativeLevel : Sender := mkSender "vscp_evt_measurezone_sendRelativeLevel" 65 50 3 [("index", PInt 1); ("zone", PInt 1); ("subZone", PInt 1); ("data", PData); ("exp", PExp)]
  [Do (SizeIs 3); Do (Set_ 0 (Par 0)); Do (Set_ 1 (Par 1)); Do (Set_ 2 (Par 2)); Do (Norm 3 3 4)].
(* src/events/vscp_evt_measurezone.c:1402-1416 vscp_evt_measurezone_sendAltitude *)
Definition evt_measurezone_sendAltitude : Sender := mkSender "vscp_evt_measurezone_sendAltitude" 65 51 3 [("index", PInt 1); ("zone", PInt 1); ("subZone", PInt 1); ("data", PData); ("exp", PExp)]
  [Do (SizeIs 3); Do (Set_ 0 (Par 0)); Do (Set_ 1 (Par 1)); Do (Set_ 2 (Par 2)); Do (Norm 3 3 4)].
(* src/events/vscp_evt_measurezone.c:1429-1443 vscp_evt_measurezone_sendArea *)
Definition evt_measurezone_sendArea : Sender := mkSender "vscp_evt_measurezone_sendArea" 65 52 3 [("index", PInt 1); ("zone", PInt 1); ("subZone", PInt 1); ("data", PData); ("exp", PExp)]
  [Do (SizeIs 3); Do (Set_ 0 (Par 0)); Do (Set_ 1 (Par 1)); Do (Set_ 2 (Par 2)); Do (Norm 3 3 4)].
(* src/events/vscp_evt_measurezone.c:1456-1470 vscp_evt_measurezone_sendRadiantIntensity *)
Definition evt_measurezone_sendRadiantIntensity : Sender := mkSender "vscp_evt_measurezone_sendRadiantIntensity" 65 53 3 [("index", PInt 1); ("zone", PInt 1); ("subZone", PInt 1); ("data", PData); ("exp", PExp)]
  [Do (SizeIs 3); Do (Set_ 0 (Par 0)); Do (Set_ 1 (Par 1)); Do (Set_ 2 (Par 2)); Do (Norm 3 3 4)].
(* src/events/vscp_evt_measurezone.c:1483-1497 vscp_evt_measurezone_sendRadiance *)
Definition evt_measurezone_sendRadiance : Sender := mkSender "vscp_evt_measurezone_sendRadiance" 65 54 3 [("index", PInt 1); ("zone", PInt 1); ("subZone", PInt 1); ("data", PData); ("exp", PExp)]
  [Do (SizeIs 3); Do (Set_ 0 (Par 0)); Do (Set_ 1 (Par 1)); Do (Set_ 2 (Par 2)); Do (Norm 3 3 4)].
(* src/events/vscp_evt_measurezone.c:1510-1524 vscp_evt_measurezone_sendIrradianceExitanceRadiosity *)
Definition evt_measurezone_sendIrradianceExitanceRadiosity : Sender := mkSender "vscp_evt_measurezone_sendIrradianceExitanceRadiosity" 65 55 3 [("index", PInt 1); ("zone", PInt 1); ("subZone", PInt 1); ("data", PData); ("exp", PExp)]
  [Do (SizeIs 3); Do (Set_ 0 (Par 0)); Do (Set_ 1 (Par 1)); Do (Set_ 2 (Par 2)); Do (Norm 3 3 4)].
(* src/events/vscp_evt_measurezone.c:1537-1551 vscp_evt_measurezone_sendSpectralRadiance *)
Definition evt_measurezone_sendSpectralRadiance : Sender := mkSender "vscp_evt_measurezone_sendSpectralRadiance" 65 56 3 [("index", PInt 1); ("zone", PInt 1); ("subZone", PInt 1); ("data", PData); ("exp", PExp)]
  [Do (SizeIs 3); Do (Set_ 0 (Par 0)); Do (Set_ 1 (Par 1)); Do (Set_ 2 (Par 2)); Do (Norm 3 3 4)].
(* src/events/vscp_evt_measurezone.c:1564-1578 vscp_evt_measurezone_sendSpectralIrradiance *)
Definition evt_measurezone_sendSpectralIrradiance : Sender := mkSender "vscp_evt_measurezone_sendSpectralIrradiance" 65 57 3 [("index", PInt 1); ("zone", PInt 1); ("subZone", PInt 1); ("data", PData); ("exp", PExp)]
  [Do (SizeIs 3); Do (Set_ 0 (Par 0)); Do (Set_ 1 (Par 1)); Do (Set_ 2 (Par 2)); Do (Norm 3 3 4)].
(* src/events/vscp_evt_measurezone.c:1591-1605 vscp_evt_measurezone_sendSoundPressureAcousticPressure *)
Definition evt_measurezone_sendSoundPressureAcousticPressure : Sender := mkSender "vscp_evt_measurezone_sendSoundPressureAcousticPressure" 65 58 3 [("index", PInt 1); ("zone", PInt 1); ("subZone", PInt 1); ("data", PData); ("exp", PExp)]
  [Do (SizeIs 3); Do (Set_ 0 (Par 0)); Do (Set_ 1 (Par 1)); Do (Set_ 2 (Par 2)); Do (Norm 3 3 4)].
(* src/events/vscp_evt_measurezone.c:1618-1632 vscp_evt_measurezone_sendSoundEnergyDensity *)
Definition evt_measurezone_sendSoundEnergyDensity : Sender := mkSender "vscp_evt_measurezone_sendSoundEnergyDensity" 65 59 3 [("index", PInt 1); ("zone", PInt 1); ("subZone", PInt 1); ("data", PData); ("exp", PExp)]
  [Do (SizeIs 3); Do (Set_ 0 (Par 0)); Do (Set_ 1 (Par 1)); Do (Set_ 2 (Par 2)); Do (Norm 3 3 4)].
(* src/events/vscp_evt_measurezone.c:1645-1659 vscp_evt_measurezone_sendSoundLevel *)
Definition evt_measurezone_sendSoundLevel : Sender := mkSender "vscp_evt_measurezone_sendSoundLevel" 65 60 3 [("index", PInt 1); ("zone", PInt 1); ("subZone", PInt 1); ("data", PData); ("exp", PExp)]
  [Do (SizeIs 3); Do (Set_ 0 (Par 0)); Do (Set_ 1 (Par 1)); Do (Set_ 2 (Par 2)); Do (Norm 3 3 4)].
(* src/events/vscp_evt_measurezone.c:1672-1686 vscp_evt_measurezone_sendRadiationDoseEquivalent *)
Definition evt_measurezone_sendRadiationDoseEquivalent : Sender := mkSender "vscp_evt_measurezone_sendRadiationDoseEquivalent" 65 61 3 [("index", PInt 1); ("zone", PInt 1); ("subZone", PInt 1); ("data", PData); ("exp", PExp)]
  [Do (SizeIs 3); Do (Set_ 0 (Par 0)); Do (Set_ 1 (Par 1)); Do (Set_ 2 (Par 2)); Do (Norm 3 3 4)].
(* src/events/vscp_evt_measurezone.c:1699-1713 vscp_evt_measurezone_sendRadiationDoseExposure *)
Definition evt_measurezone_sendRadiationDoseExposure : Sender := mkSender "vscp_evt_measurezone_sendRadiationDoseExposure" 65 62 3 [("index", PInt 1); ("zone", PInt 1); ("subZone", PInt 1); ("data", PData); ("exp", PExp)]
  [Do (SizeIs 3); Do (Set_ 0 (Par 0)); Do (Set_ 1 (Par 1)); Do (Set_ 2 (Par 2)); Do (Norm 3 3 4)].
(* src/events/vscp_evt_measurezone.c:1726-1740 vscp_evt_measurezone_sendPowerFactor *)
Definition evt_measurezone_sendPowerFactor : Sender := mkSender "vscp_evt_measurezone_sendPowerFactor" 65 63 3 [("index", PInt 1); ("zone", PInt 1); ("subZone", PInt 1); ("data", PData); ("exp", PExp)]
  [Do (SizeIs 3); Do (Set_ 0 (Par 0)); Do (Set_ 1 (Par 1)); Do (Set_ 2 (Par 2)); Do (Norm 3 3 4)].
(* src/events/vscp_evt_measurezone.c:1753-1767 vscp_evt_measurezone_sendReactivePower *)
Definition evt_measurezone_sendReactivePower : Sender := mkSender "vscp_evt_measurezone_sendReactivePower" 65 64 3 [("index", PInt 1); ("zone", PInt 1); ("subZone", PInt 1); ("data", PData); ("exp", PExp)]
  [Do (SizeIs 3); Do (Set_ 0 (Par 0)); Do (Set_ 1 (Par 1)); Do (Set_ 2 (Par 2)); Do (Norm 3 3 4)].
(* src/events/vscp_evt_measurezone.c:1780-1794 vscp_evt_measurezone_sendReactiveEnergy *)
Definition evt_measurezone_sendReactiveEnergy : Sender := mkSender "vscp_evt_measurezone_sendReactiveEnergy" 65 65 3 [("index", PInt 1); ("zone", PInt 1); ("subZone", PInt 1); ("data", PData); ("exp", PExp)]
  [Do (SizeIs 3); Do (Set_ 0 (Par 0)); Do (Set_ 1 (Par 1)); Do (Set_ 2 (Par 2)); Do (Norm 3 3 4)].
(* src/events/vscp_evt_multimedia.c:79-88 vscp_evt_multimedia_sendGeneralEvent *)
Definition evt_multimedia_sendGeneralEvent : Sender := mkSender "vscp_evt_multimedia_sendGeneralEvent" 40 0 3 []
  [Do (SizeIs 0)].
(* src/events/vscp_evt_multimedia.c:99-118 vscp_evt_multimedia_sendPlayback *)
Definition evt_multimedia_sendPlayback : Sender := mkSender "vscp_evt_multimedia_sendPlayback" 40 1 3 [("function", PInt 1); ("zone", PInt 1); ("subZone", PInt 1)]
  [Do (Set_ 0 (Par 0)); Do (Add 1); Do (Set_ 1 (Par 1)); Do (Add 1); Do (Set_ 2 (Par 2)); Do (Add 1); Do (SizeVar)].
(* src/events/vscp_evt_multimedia.c:129-148 vscp_evt_multimedia_sendNavigatorkeyEnglish *)
Definition evt_multimedia_sendNavigatorkeyEnglish : Sender := mkSender "vscp_evt_multimedia_sendNavigatorkeyEnglish" 40 2 3 [("function", PInt 1); ("zone", PInt 1); ("subZone", PInt 1)]
  [Do (Set_ 0 (Par 0)); Do (Add 1); Do (Set_ 1 (Par 1)); Do (Add 1); Do (Set_ 2 (Par 2)); Do (Add 1); Do (SizeVar)].
(* src/events/vscp_evt_multimedia.c:162-181 vscp_evt_multimedia_sendAdjustContrast *)
Definition evt_multimedia_sendAdjustContrast : Sender := mkSender "vscp_evt_multimedia_sendAdjustContrast" 40 3 3 [("contrast", PInt 1); ("zone", PInt 1); ("subZone", PInt 1)]
  [Do (Set_ 0 (Par 0)); Do (Add 1); Do (Set_ 1 (Par 1)); Do (Add 1); Do (Set_ 2 (Par 2)); Do (Add 1); Do (SizeVar)].
(* src/events/vscp_evt_multimedia.c:195-214 vscp_evt_multimedia_sendAdjustFocus *)
Definition evt_multimedia_sendAdjustFocus : Sender := mkSender "vscp_evt_multimedia_sendAdjustFocus" 40 4 3 [("focus", PInt 1); ("zone", PInt 1); ("subZone", PInt 1)]
  [Do (Set_ 0 (Par 0)); Do (Add 1); Do (Set_ 1 (Par 1)); Do (Add 1); Do (Set_ 2 (Par 2)); Do (Add 1); Do (SizeVar)].
(* src/events/vscp_evt_multimedia.c:228-247 vscp_evt_multimedia_sendAdjustTint *)
Definition evt_multimedia_sendAdjustTint : Sender := mkSender "vscp_evt_multimedia_sendAdjustTint" 40 5 3 [("tint", PInt 1); ("zone", PInt 1); ("subZone", PInt 1)]
  [Do (Set_ 0 (Par 0)); Do (Add 1); Do (Set_ 1 (Par 1)); Do (Add 1); Do (Set_ 2 (Par 2)); Do (Add 1); Do (SizeVar)].
(* src/events/vscp_evt_multimedia.c:258-277 vscp_evt_multimedia_sendAdjustColorBalance *)
Definition evt_multimedia_sendAdjustColorBalance : Sender := mkSender "vscp_evt_multimedia_sendAdjustColorBalance" 40 6 3 [("reserved", PInt 1); ("zone", PInt 1); ("subZone", PInt 1)]
  [Do (Set_ 0 (Par 0)); Do (Add 1); Do (Set_ 1 (Par 1)); Do (Add 1); Do (Set_ 2 (Par 2)); Do (Add 1); Do (SizeVar)].
(* src/events/vscp_evt_multimedia.c:291-310 vscp_evt_multimedia_sendAdjustBrightness *)
Definition evt_multimedia_sendAdjustBrightness : Sender := mkSender "vscp_evt_multimedia_sendAdjustBrightness" 40 7 3 [("brightness", PInt 1); ("zone", PInt 1); ("subZone", PInt 1)]
  [Do (Set_ 0 (Par 0)); Do (Add 1); Do (Set_ 1 (Par 1)); Do (Add 1); Do (Set_ 2 (Par 2)); Do (Add 1); Do (SizeVar)].
(* src/events/vscp_evt_multimedia.c:324-343 vscp_evt_multimedia_sendAdjustHue *)
Definition evt_multimedia_sendAdjustHue : Sender := mkSender "vscp_evt_multimedia_sendAdjustHue" 40 8 3 [("hue", PInt 1); ("zone", PInt 1); ("subZone", PInt 1)]
  [Do (Set_ 0 (Par 0)); Do (Add 1); Do (Set_ 1 (Par 1)); Do (Add 1); Do (Set_ 2 (Par 2)); Do (Add 1); Do (SizeVar)].
(* src/events/vscp_evt_multimedia.c:357-376 vscp_evt_multimedia_sendAdjustBass *)
Definition evt_multimedia_sendAdjustBass : Sender := mkSender "vscp_evt_multimedia_sendAdjustBass" 40 9 3 [("bass", PInt 1); ("zone", PInt 1); ("subZone", PInt 1)]
  [Do (Set_ 0 (Par 0)); Do (Add 1); Do (Set_ 1 (Par 1)); Do (Add 1); Do (Set_ 2 (Par 2)); Do (Add 1); Do (SizeVar)].
(* src/events/vscp_evt_multimedia.c:390-409 vscp_evt_multimedia_sendAdjustTreble *)
Definition evt_multimedia_sendAdjustTreble : Sender := mkSender "vscp_evt_multimedia_sendAdjustTreble" 40 10 3 [("treble", PInt 1); ("zone", PInt 1); ("subZone", PInt 1)]
  [Do (Set_ 0 (Par 0)); Do (Add 1); Do (Set_ 1 (Par 1)); Do (Add 1); Do (Set_ 2 (Par 2)); Do (Add 1); Do (SizeVar)].
(* src/events/vscp_evt_multimedia.c:423-442 vscp_evt_multimedia_sendAdjustMasterVolume *)
Definition evt_multimedia_sendAdjustMasterVolume : Sender := mkSender "vscp_evt_multimedia_sendAdjustMasterVolume" 40 11 3 [("volume", PInt 1); ("zone", PInt 1); ("subZone", PInt 1)]
  [Do (Set_ 0 (Par 0)); Do (Add 1); Do (Set_ 1 (Par 1)); Do (Add 1); Do (Set_ 2 (Par 2)); Do (Add 1); Do (SizeVar)].
(* src/events/vscp_evt_multimedia.c:456-475 vscp_evt_multimedia_sendAdjustFrontVolume *)
Definition evt_multimedia_sendAdjustFrontVolume : Sender := mkSender "vscp_evt_multimedia_sendAdjustFrontVolume" 40 12 3 [("volume", PInt 1); ("zone", PInt 1); ("subZone", PInt 1)]
  [Do (Set_ 0 (Par 0)); Do (Add 1); Do (Set_ 1 (Par 1)); Do (Add 1); Do (Set_ 2 (Par 2)); Do (Add 1); Do (SizeVar)].
(* src/events/vscp_evt_multimedia.c:489-508 vscp_evt_multimedia_sendAdjustCenterVolume *)
Definition evt_multimedia_sendAdjustCenterVolume : Sender := mkSender "vscp_evt_multimedia_sendAdjustCenterVolume" 40 13 3 [("volume", PInt 1); ("zone", PInt 1); ("subZone", PInt 1)]
  [Do (Set_ 0 (Par 0)); Do (Add 1); Do (Set_ 1 (Par 1)); Do (Add 1); Do (Set_ 2 (Par 2)); Do (Add 1); Do (SizeVar)].
(* src/events/vscp_evt_multimedia.c:522-541 vscp_evt_multimedia_sendAdjustRearVolume *)
Definition evt_multimedia_sendAdjustRearVolume : Sender := mkSender "vscp_evt_multimedia_sendAdjustRearVolume" 40 14 3 [("volume", PInt 1); ("zone", PInt 1); ("subZone", PInt 1)]
  [Do (Set_ 0 (Par 0)); Do (Add 1); Do (Set_ 1 (Par 1)); Do (Add 1); Do (Set_ 2 (Par 2)); Do (Add 1); Do (SizeVar)].
(* src/events/vscp_evt_multimedia.c:555-574 vscp_evt_multimedia_sendAdjustSideVolume *)
Definition evt_multimedia_sendAdjustSideVolume : Sender := mkSender "vscp_evt_multimedia_sendAdjustSideVolume" 40 15 3 [("volume", PInt 1); ("zone", PInt 1); ("subZone", PInt 1)]
  [Do (Set_ 0 (Par 0)); Do (Add 1); Do (Set_ 1 (Par 1)); Do (Add 1); Do (Set_ 2 (Par 2)); Do (Add 1); Do (SizeVar)].
(* src/events/vscp_evt_multimedia.c:596-615 vscp_evt_multimedia_sendSelectDisk *)
Definition evt_multimedia_sendSelectDisk : Sender := mkSender "vscp_evt_multimedia_sendSelectDisk" 40 20 3 [("discNo", PInt 1); ("zone", PInt 1); ("subZone", PInt 1)]
  [Do (Set_ 0 (Par 0)); Do (Add 1); Do (Set_ 1 (Par 1)); Do (Add 1); Do (Set_ 2 (Par 2)); Do (Add 1); Do (SizeVar)].
(* src/events/vscp_evt_multimedia.c:629-648 vscp_evt_multimedia_sendSelectTrack *)
Definition evt_multimedia_sendSelectTrack : Sender := mkSender "vscp_evt_multimedia_sendSelectTrack" 40 21 3 [("track", PInt 1); ("zone", PInt 1); ("subZone", PInt 1)]
  [Do (Set_ 0 (Par 0)); Do (Add 1); Do (Set_ 1 (Par 1)); Do (Add 1); Do (Set_ 2 (Par 2)); Do (Add 1); Do (SizeVar)].
(* src/events/vscp_evt_multimedia.c:663-682 vscp_evt_multimedia_sendSelectAlbumPlayList *)
Definition evt_multimedia_sendSelectAlbumPlayList : Sender := mkSender "vscp_evt_multimedia_sendSelectAlbumPlayList" 40 22 3 [("album", PInt 1); ("zone", PInt 1); ("subZone", PInt 1)]
  [Do (Set_ 0 (Par 0)); Do (Add 1); Do (Set_ 1 (Par 1)); Do (Add 1); Do (Set_ 2 (Par 2)); Do (Add 1); Do (SizeVar)].
(* src/events/vscp_evt_multimedia.c:696-715 vscp_evt_multimedia_sendSelectChannel *)
Definition evt_multimedia_sendSelectChannel : Sender := mkSender "vscp_evt_multimedia_sendSelectChannel" 40 23 3 [("channel", PInt 1); ("zone", PInt 1); ("subZone", PInt 1)]
  [Do (Set_ 0 (Par 0)); Do (Add 1); Do (Set_ 1 (Par 1)); Do (Add 1); Do (Set_ 2 (Par 2)); Do (Add 1); Do (SizeVar)].
(* src/events/vscp_evt_multimedia.c:729-748 vscp_evt_multimedia_sendSelectPage *)
Definition evt_multimedia_sendSelectPage : Sender := mkSender "vscp_evt_multimedia_sendSelectPage" 40 24 3 [("page", PInt 1); ("zone", PInt 1); ("subZone", PInt 1)]
  [Do (Set_ 0 (Par 0)); Do (Add 1); Do (Set_ 1 (Par 1)); Do (Add 1); Do (Set_ 2 (Par 2)); Do (Add 1); Do (SizeVar)].
(* src/events/vscp_evt_multimedia.c:762-781 vscp_evt_multimedia_sendSelectChapter *)
Definition evt_multimedia_sendSelectChapter : Sender := mkSender "vscp_evt_multimedia_sendSelectChapter" 40 25 3 [("chapter", PInt 1); ("zone", PInt 1); ("subZone", PInt 1)]
  [Do (Set_ 0 (Par 0)); Do (Add 1); Do (Set_ 1 (Par 1)); Do (Add 1); Do (Set_ 2 (Par 2)); Do (Add 1); Do (SizeVar)].
(* src/events/vscp_evt_multimedia.c:792-811 vscp_evt_multimedia_sendSelectScreenFormat *)
Definition evt_multimedia_sendSelectScreenFormat : Sender := mkSender "vscp_evt_multimedia_sendSelectScreenFormat" 40 26 3 [("format", PInt 1); ("zone", PInt 1); ("subZone", PInt 1)]
  [Do (Set_ 0 (Par 0)); Do (Add 1); Do (Set_ 1 (Par 1)); Do (Add 1); Do (Set_ 2 (Par 2)); Do (Add 1); Do (SizeVar)].
(* src/events/vscp_evt_multimedia.c:822-841 vscp_evt_multimedia_sendSelectInputSource *)
Definition evt_multimedia_sendSelectInputSource : Sender := mkSender "vscp_evt_multimedia_sendSelectInputSource" 40 27 3 [("source", PInt 1); ("zone", PInt 1); ("subZone", PInt 1)]
  [Do (Set_ 0 (Par 0)); Do (Add 1); Do (Set_ 1 (Par 1)); Do (Add 1); Do (Set_ 2 (Par 2)); Do (Add 1); Do (SizeVar)].
(* src/events/vscp_evt_multimedia.c:852-871 vscp_evt_multimedia_sendSelectOutput *)
Definition evt_multimedia_sendSelectOutput : Sender := mkSender "vscp_evt_multimedia_sendSelectOutput" 40 28 3 [("output", PInt 1); ("zone", PInt 1); ("subZone", PInt 1)]
  [Do (Set_ 0 (Par 0)); Do (Add 1); Do (Set_ 1 (Par 1)); Do (Add 1); Do (Set_ 2 (Par 2)); Do (Add 1); Do (SizeVar)].
(* src/events/vscp_evt_multimedia.c:882-901 vscp_evt_multimedia_sendRecord *)
Definition evt_multimedia_sendRecord : Sender := mkSender "vscp_evt_multimedia_sendRecord" 40 29 3 [("function", PInt 1); ("zone", PInt 1); ("subZone", PInt 1)]
  [Do (Set_ 0 (Par 0)); Do (Add 1); Do (Set_ 1 (Par 1)); Do (Add 1); Do (Set_ 2 (Par 2)); Do (Add 1); Do (SizeVar)].
(* src/events/vscp_evt_multimedia.c:915-934 vscp_evt_multimedia_sendSetRecordingVolume *)
Definition evt_multimedia_sendSetRecordingVolume : Sender := mkSender "vscp_evt_multimedia_sendSetRecordingVolume" 40 30 3 [("volume", PInt 1); ("zone", PInt 1); ("subZone", PInt 1)]
  [Do (Set_ 0 (Par 0)); Do (Add 1); Do (Set_ 1 (Par 1)); Do (Add 1); Do (Set_ 2 (Par 2)); Do (Add 1); Do (SizeVar)].
(* src/events/vscp_evt_multimedia.c:945-964 vscp_evt_multimedia_sendTivoFunction *)
Definition evt_multimedia_sendTivoFunction : Sender := mkSender "vscp_evt_multimedia_sendTivoFunction" 40 40 3 [("tivoCode", PInt 1); ("zone", PInt 1); ("subZone", PInt 1)]
  [Do (Set_ 0 (Par 0)); Do (Add 1); Do (Set_ 1 (Par 1)); Do (Add 1); Do (Set_ 2 (Par 2)); Do (Add 1); Do (SizeVar)].
(* src/events/vscp_evt_multimedia.c:975-994 vscp_evt_multimedia_sendGetCurrentTitle *)
Definition evt_multimedia_sendGetCurrentTitle : Sender := mkSender "vscp_evt_multimedia_sendGetCurrentTitle" 40 50 3 [("reserved", PInt 1); ("zone", PInt 1); ("subZone", PInt 1)]
  [Do (Set_ 0 (Par 0)); Do (Add 1); Do (Set_ 1 (Par 1)); Do (Add 1); Do (Set_ 2 (Par 2)); Do (Add 1); Do (SizeVar)].
(* src/events/vscp_evt_multimedia.c:1009-1045 vscp_evt_multimedia_sendSetMediaPositionInMilliseconds *)
Definition evt_multimedia_sendSetMediaPositionInMilliseconds : Sender := mkSender "vscp_evt_multimedia_sendSetMediaPositionInMilliseconds" 40 51 3 [("reserved", PInt 1); ("zone", PInt 1); ("subZone", PInt 1); ("pos", PBuf true); ("posSize", PSize)]
  [Guard 3 4; Do (Set_ 0 (Par 0)); Do (Add 1); Do (Set_ 1 (Par 1)); Do (Add 1); Do (Set_ 2 (Par 2)); Do (Add 1); Do (Loop 3 3 4); Do (SizeVar)].
(* src/events/vscp_evt_multimedia.c:1057-1076 vscp_evt_multimedia_sendGetMediaInformation *)
Definition evt_multimedia_sendGetMediaInformation : Sender := mkSender "vscp_evt_multimedia_sendGetMediaInformation" 40 52 3 [("type", PInt 1); ("zone", PInt 1); ("subZone", PInt 1)]
  [Do (Set_ 0 (Par 0)); Do (Add 1); Do (Set_ 1 (Par 1)); Do (Add 1); Do (Set_ 2 (Par 2)); Do (Add 1); Do (SizeVar)].
(* src/events/vscp_evt_multimedia.c:1088-1107 vscp_evt_multimedia_sendRemoveItemFromAlbum *)
Definition evt_multimedia_sendRemoveItemFromAlbum : Sender := mkSender "vscp_evt_multimedia_sendRemoveItemFromAlbum" 40 53 3 [("item", PInt 1); ("zone", PInt 1); ("subZone", PInt 1)]
  [Do (Set_ 0 (Par 0)); Do (Add 1); Do (Set_ 1 (Par 1)); Do (Add 1); Do (Set_ 2 (Par 2)); Do (Add 1); Do (SizeVar)].
(* src/events/vscp_evt_multimedia.c:1118-1137 vscp_evt_multimedia_sendRemoveAllItemsFromAlbum *)
Definition evt_multimedia_sendRemoveAllItemsFromAlbum : Sender := mkSender "vscp_evt_multimedia_sendRemoveAllItemsFromAlbum" 40 54 3 [("reserved", PInt 1); ("zone", PInt 1); ("subZone", PInt 1)]
  [Do (Set_ 0 (Par 0)); Do (Add 1); Do (Set_ 1 (Par 1)); Do (Add 1); Do (Set_ 2 (Par 2)); Do (Add 1); Do (SizeVar)].
(* src/events/vscp_evt_multimedia.c:1148-1167 vscp_evt_multimedia_sendSaveAlbumPlayList *)
Definition evt_multimedia_sendSaveAlbumPlayList : Sender := mkSender "vscp_evt_multimedia_sendSaveAlbumPlayList" 40 55 3 [("function", PInt 1); ("zone", PInt 1); ("subZone", PInt 1)]
  [Do (Set_ 0 (Par 0)); Do (Add 1); Do (Set_ 1 (Par 1)); Do (Add 1); Do (Set_ 2 (Par 2)); Do (Add 1); Do (SizeVar)].
(* src/events/vscp_evt_multimedia.c:1181-1220 vscp_evt_multimedia_sendMultimediaControl *)
Definition evt_multimedia_sendMultimediaControl : Sender := mkSender "vscp_evt_multimedia_sendMultimediaControl" 40 60 3 [("control", PInt 1); ("zone", PInt 1); ("subZone", PInt 1); ("index", PInt 1); ("data", PBuf true); ("dataSize", PSize)]
  [Guard 4 5; Do (Set_ 0 (Par 0)); Do (Add 1); Do (Set_ 1 (Par 1)); Do (Add 1); Do (Set_ 2 (Par 2)); Do (Add 1); Do (Set_ 3 (Par 3)); Do (Add 1); Do (Loop 4 4 5); Do (SizeVar)].
(* src/events/vscp_evt_phone.c:79-88 vscp_evt_phone_sendGeneralEvent *)
Definition evt_phone_sendGeneralEvent : Sender := mkSender "vscp_evt_phone_sendGeneralEvent" 100 0 3 []
  [Do (SizeIs 0)].
(* src/events/vscp_evt_phone.c:102-138 vscp_evt_phone_sendIncomingCall *)
Definition evt_phone_sendIncomingCall : Sender := mkSender "vscp_evt_phone_sendIncomingCall" 100 1 3 [("id", PInt 1); ("index", PInt 1); ("total", PInt 1); ("info", PBuf true); ("infoSize", PSize)]
  [Guard 3 4; Do (Set_ 0 (Par 0)); Do (Add 1); Do (Set_ 1 (Par 1)); Do (Add 1); Do (Set_ 2 (Par 2)); Do (Add 1); Do (Loop 3 3 4); Do (SizeVar)].
(* src/events/vscp_evt_phone.c:152-188 vscp_evt_phone_sendOutgoingCall *)
Definition evt_phone_sendOutgoingCall : Sender := mkSender "vscp_evt_phone_sendOutgoingCall" 100 2 3 [("id", PInt 1); ("index", PInt 1); ("total", PInt 1); ("info", PBuf true); ("infoSize", PSize)]
  [Guard 3 4; Do (Set_ 0 (Par 0)); Do (Add 1); Do (Set_ 1 (Par 1)); Do (Add 1); Do (Set_ 2 (Par 2)); Do (Add 1); Do (Loop 3 3 4); Do (SizeVar)].
(* src/events/vscp_evt_phone.c:197-210 vscp_evt_phone_sendRing *)
Definition evt_phone_sendRing : Sender := mkSender "vscp_evt_phone_sendRing" 100 3 3 [("id", PInt 1)]
  [Do (Set_ 0 (Par 0)); Do (Add 1); Do (SizeVar)].
(* src/events/vscp_evt_phone.c:224-260 vscp_evt_phone_sendAnswer *)
Definition evt_phone_sendAnswer : Sender := mkSender "vscp_evt_phone_sendAnswer" 100 4 3 [("id", PInt 1); ("index", PInt 1); ("total", PInt 1); ("info", PBuf true); ("infoSize", PSize)]
  [Guard 3 4; Do (Set_ 0 (Par 0)); Do (Add 1); Do (Set_ 1 (Par 1)); Do (Add 1); Do (Set_ 2 (Par 2)); Do (Add 1); Do (Loop 3 3 4); Do (SizeVar)].
(* src/events/vscp_evt_phone.c:269-282 vscp_evt_phone_sendHangup *)
Definition evt_phone_sendHangup : Sender := mkSender "vscp_evt_phone_sendHangup" 100 5 3 [("id", PInt 1)]
  [Do (Set_ 0 (Par 0)); Do (Add 1); Do (SizeVar)].
(* src/events/vscp_evt_phone.c:291-304 vscp_evt_phone_sendGiveup *)
Definition evt_phone_sendGiveup : Sender := mkSender "vscp_evt_phone_sendGiveup" 100 6 3 [("id", PInt 1)]
  [Do (Set_ 0 (Par 0)); Do (Add 1); Do (SizeVar)].
(* src/events/vscp_evt_phone.c:313-326 vscp_evt_phone_sendTransfer *)
Definition evt_phone_sendTransfer : Sender := mkSender "vscp_evt_phone_sendTransfer" 100 7 3 [("id", PInt 1)]
  [Do (Set_ 0 (Par 0)); Do (Add 1); Do (SizeVar)].
(* src/events/vscp_evt_phone.c:340-376 vscp_evt_phone_sendDatabaseInfo *)
Definition evt_phone_sendDatabaseInfo : Sender := mkSender "vscp_evt_phone_sendDatabaseInfo" 100 8 3 [("id", PInt 1); ("index", PInt 1); ("total", PInt 1); ("info", PBuf true); ("infoSize", PSize)]
  [Guard 3 4; Do (Set_ 0 (Par 0)); Do (Add 1); Do (Set_ 1 (Par 1)); Do (Add 1); Do (Set_ 2 (Par 2)); Do (Add 1); Do (Loop 3 3 4); Do (SizeVar)].
(* src/events/vscp_evt_protocol.c:79-88 vscp_evt_protocol_sendGeneralEvent *)
Definition evt_protocol_sendGeneralEvent : Sender := mkSender "vscp_evt_protocol_sendGeneralEvent" 0 0 3 []
  [Do (SizeIs 0)].
(* src/events/vscp_evt_protocol.c:98-120 vscp_evt_protocol_sendSegmentControllerHeartbeat *)
Definition evt_protocol_sendSegmentControllerHeartbeat : Sender := mkSender "vscp_evt_protocol_sendSegmentControllerHeartbeat" 0 1 3 [("crc", PInt 1); ("time", PRef 4)]
  [Do (Set_ 0 (Par 0)); Do (Add 1); IfPtr 1 [Set_ 1 (Shift 1 24); Set_ 2 (Shift 1 16); Set_ 3 (Shift 1 8); Set_ 4 (Shift 1 0); Add 4]; Do (SizeVar)].
(* src/events/vscp_evt_protocol.c:132-145 vscp_evt_protocol_sendNewNodeOnLineProbe *)
Definition evt_protocol_sendNewNodeOnLineProbe : Sender := mkSender "vscp_evt_protocol_sendNewNodeOnLineProbe" 0 2 3 [("targetAddress", PInt 1)]
  [Do (Set_ 0 (Par 0)); Do (Add 1); Do (SizeVar)].
(* src/events/vscp_evt_protocol.c:152-161 vscp_evt_protocol_sendProbeAck *)
Definition evt_protocol_sendProbeAck : Sender := mkSender "vscp_evt_protocol_sendProbeAck" 0 3 3 []
  [Do (SizeIs 0)].
(* src/events/vscp_evt_protocol.c:175-191 vscp_evt_protocol_sendSetNicknameIdForNode *)
Definition evt_protocol_sendSetNicknameIdForNode : Sender := mkSender "vscp_evt_protocol_sendSetNicknameIdForNode" 0 6 3 [("oldNickname", PInt 1); ("newNickname", PInt 1)]
  [Do (Set_ 0 (Par 0)); Do (Add 1); Do (Set_ 1 (Par 1)); Do (Add 1); Do (SizeVar)].
(* src/events/vscp_evt_protocol.c:198-207 vscp_evt_protocol_sendNicknameIdAccepted *)
Definition evt_protocol_sendNicknameIdAccepted : Sender := mkSender "vscp_evt_protocol_sendNicknameIdAccepted" 0 7 3 []
  [Do (SizeIs 0)].
(* src/events/vscp_evt_protocol.c:219-244 vscp_evt_protocol_sendDropNicknameIdResetDevice *)
Definition evt_protocol_sendDropNicknameIdResetDevice : Sender := mkSender "vscp_evt_protocol_sendDropNicknameIdResetDevice" 0 8 3 [("nickname", PInt 1); ("flags", PRef 1); ("time", PRef 1)]
  [Do (Set_ 0 (Par 0)); Do (Add 1); IfPtr 1 [Set_ 1 (Par 1); Add 1]; IfPtr 2 [Set_ 2 (Par 2); Add 1]; Do (SizeVar)].
(* src/events/vscp_evt_protocol.c:254-270 vscp_evt_protocol_sendReadRegister *)
Definition evt_protocol_sendReadRegister : Sender := mkSender "vscp_evt_protocol_sendReadRegister" 0 9 3 [("nodeAddress", PInt 1); ("registerAddress", PInt 1)]
  [Do (Set_ 0 (Par 0)); Do (Add 1); Do (Set_ 1 (Par 1)); Do (Add 1); Do (SizeVar)].
(* src/events/vscp_evt_protocol.c:280-296 vscp_evt_protocol_sendReadWriteResponse *)
Definition evt_protocol_sendReadWriteResponse : Sender := mkSender "vscp_evt_protocol_sendReadWriteResponse" 0 10 3 [("registerAddress", PInt 1); ("registerValue", PInt 1)]
  [Do (Set_ 0 (Par 0)); Do (Add 1); Do (Set_ 1 (Par 1)); Do (Add 1); Do (SizeVar)].
(* src/events/vscp_evt_protocol.c:307-326 vscp_evt_protocol_sendWriteRegister *)
Definition evt_protocol_sendWriteRegister : Sender := mkSender "vscp_evt_protocol_sendWriteRegister" 0 11 3 [("nodeAddress", PInt 1); ("registerAddress", PInt 1); ("registerValue", PInt 1)]
  [Do (Set_ 0 (Par 0)); Do (Add 1); Do (Set_ 1 (Par 1)); Do (Add 1); Do (Set_ 2 (Par 2)); Do (Add 1); Do (SizeVar)].
(* src/events/vscp_evt_protocol.c:341-373 vscp_evt_protocol_sendEnterBootLoaderMode *)
Definition evt_protocol_sendEnterBootLoaderMode : Sender := mkSender "vscp_evt_protocol_sendEnterBootLoaderMode" 0 12 3 [("nodeAddress", PInt 1); ("bootloaderAlgorithm", PInt 1); ("guidByte0", PInt 1); ("guidByte3", PInt 1); ("guidByte5", PInt 1); ("guidByte7", PInt 1); ("pageSelect", PInt 2)]
  [Do (Set_ 0 (Par 0)); Do (Add 1); Do (Set_ 1 (Par 1)); Do (Add 1); Do (Set_ 2 (Par 2)); Do (Add 1); Do (Set_ 3 (Par 3)); Do (Add 1); Do (Set_ 4 (Par 4)); Do (Add 1); Do (Set_ 5 (Par 5)); Do (Add 1); Do (Set_ 6 (Shift 6 8)); Do (Set_ 7 (Shift 6 0)); Do (Add 2); Do (SizeVar)].
(* src/events/vscp_evt_protocol.c:383-405 vscp_evt_protocol_sendAckBootLoaderMode *)
Definition evt_protocol_sendAckBootLoaderMode : Sender := mkSender "vscp_evt_protocol_sendAckBootLoaderMode" 0 13 3 [("flashBlockSize", PInt 4); ("numberOfBlocks", PInt 4)]
  [Do (Set_ 0 (Shift 0 24)); Do (Set_ 1 (Shift 0 16)); Do (Set_ 2 (Shift 0 8)); Do (Set_ 3 (Shift 0 0)); Do (Add 4); Do (Set_ 4 (Shift 1 24)); Do (Set_ 5 (Shift 1 16)); Do (Set_ 6 (Shift 1 8)); Do (Set_ 7 (Shift 1 0)); Do (Add 4); Do (SizeVar)].
(* src/events/vscp_evt_protocol.c:414-433 vscp_evt_protocol_sendNackBootLoaderMode *)
Definition evt_protocol_sendNackBootLoaderMode : Sender := mkSender "vscp_evt_protocol_sendNackBootLoaderMode" 0 14 3 [("errorCode", PRef 4)]
  [IfPtr 0 [Set_ 0 (Shift 0 24); Set_ 1 (Shift 0 16); Set_ 2 (Shift 0 8); Set_ 3 (Shift 0 0); Add 4]; Do (SizeVar)].
(* src/events/vscp_evt_protocol.c:443-465 vscp_evt_protocol_sendStartBlockDataTransfer *)
Definition evt_protocol_sendStartBlockDataTransfer : Sender := mkSender "vscp_evt_protocol_sendStartBlockDataTransfer" 0 15 3 [("blockNumber", PInt 4); ("memoryType", PRef 1)]
  [Do (Set_ 0 (Shift 0 24)); Do (Set_ 1 (Shift 0 16)); Do (Set_ 2 (Shift 0 8)); Do (Set_ 3 (Shift 0 0)); Do (Add 4); IfPtr 1 [Set_ 4 (Par 1); Add 1]; Do (SizeVar)].
(* src/events/vscp_evt_protocol.c:475-502 vscp_evt_protocol_sendBlockData *)
Definition evt_protocol_sendBlockData : Sender := mkSender "vscp_evt_protocol_sendBlockData" 0 16 3 [("data", PBuf true); ("dataSize", PSize)]
  [Guard 0 1; Do (Loop 0 0 1); Do (SizeVar)].
(* src/events/vscp_evt_protocol.c:512-532 vscp_evt_protocol_sendAckDataBlock *)
Definition evt_protocol_sendAckDataBlock : Sender := mkSender "vscp_evt_protocol_sendAckDataBlock" 0 17 3 [("blockCrc", PInt 2); ("writePointer", PInt 4)]
  [Do (Set_ 0 (Shift 0 8)); Do (Set_ 1 (Shift 0 0)); Do (Add 2); Do (Set_ 2 (Shift 1 24)); Do (Set_ 3 (Shift 1 16)); Do (Set_ 4 (Shift 1 8)); Do (Set_ 5 (Shift 1 0)); Do (Add 4); Do (SizeVar)].
(* src/events/vscp_evt_protocol.c:542-561 vscp_evt_protocol_sendNackDataBlock *)
Definition evt_protocol_sendNackDataBlock : Sender := mkSender "vscp_evt_protocol_sendNackDataBlock" 0 18 3 [("errorCode", PInt 1); ("writePointer", PInt 4)]
  [Do (Set_ 0 (Par 0)); Do (Add 1); Do (Set_ 1 (Shift 1 24)); Do (Set_ 2 (Shift 1 16)); Do (Set_ 3 (Shift 1 8)); Do (Set_ 4 (Shift 1 0)); Do (Add 4); Do (SizeVar)].
(* src/events/vscp_evt_protocol.c:570-586 vscp_evt_protocol_sendProgramDataBlock *)
Definition evt_protocol_sendProgramDataBlock : Sender := mkSender "vscp_evt_protocol_sendProgramDataBlock" 0 19 3 [("blockNumber", PInt 4)]
  [Do (Set_ 0 (Shift 0 24)); Do (Set_ 1 (Shift 0 16)); Do (Set_ 2 (Shift 0 8)); Do (Set_ 3 (Shift 0 0)); Do (Add 4); Do (SizeVar)].
(* src/events/vscp_evt_protocol.c:595-611 vscp_evt_protocol_sendAckProgramDataBlock *)
Definition evt_protocol_sendAckProgramDataBlock : Sender := mkSender "vscp_evt_protocol_sendAckProgramDataBlock" 0 20 3 [("blockNumber", PInt 4)]
  [Do (Set_ 0 (Shift 0 24)); Do (Set_ 1 (Shift 0 16)); Do (Set_ 2 (Shift 0 8)); Do (Set_ 3 (Shift 0 0)); Do (Add 4); Do (SizeVar)].
(* src/events/vscp_evt_protocol.c:621-640 vscp_evt_protocol_sendNackProgramDataBlock *)
Definition evt_protocol_sendNackProgramDataBlock : Sender := mkSender "vscp_evt_protocol_sendNackProgramDataBlock" 0 21 3 [("errorCode", PInt 1); ("blockNumber", PInt 4)]
  [Do (Set_ 0 (Par 0)); Do (Add 1); Do (Set_ 1 (Shift 1 24)); Do (Set_ 2 (Shift 1 16)); Do (Set_ 3 (Shift 1 8)); Do (Set_ 4 (Shift 1 0)); Do (Add 4); Do (SizeVar)].
(* src/events/vscp_evt_protocol.c:649-663 vscp_evt_protocol_sendActivateNewImage *)
Definition evt_protocol_sendActivateNewImage : Sender := mkSender "vscp_evt_protocol_sendActivateNewImage" 0 22 3 [("crc", PInt 2)]
  [Do (Set_ 0 (Shift 0 8)); Do (Set_ 1 (Shift 0 0)); Do (Add 2); Do (SizeVar)].
(* src/events/vscp_evt_protocol.c:676-695 vscp_evt_protocol_sendPageRead *)
Definition evt_protocol_sendPageRead : Sender := mkSender "vscp_evt_protocol_sendPageRead" 0 24 3 [("nodeId", PInt 1); ("index", PInt 1); ("numberOfBytes", PInt 1)]
  [Do (Set_ 0 (Par 0)); Do (Add 1); Do (Set_ 1 (Par 1)); Do (Add 1); Do (Set_ 2 (Par 2)); Do (Add 1); Do (SizeVar)].
(* src/events/vscp_evt_protocol.c:707-740 vscp_evt_protocol_sendPageWrite *)
Definition evt_protocol_sendPageWrite : Sender := mkSender "vscp_evt_protocol_sendPageWrite" 0 25 3 [("nodeId", PInt 1); ("registerStart", PInt 1); ("data", PBuf true); ("dataSize", PSize)]
  [Guard 2 3; Do (Set_ 0 (Par 0)); Do (Add 1); Do (Set_ 1 (Par 1)); Do (Add 1); Do (Loop 2 2 3); Do (SizeVar)].
(* src/events/vscp_evt_protocol.c:751-781 vscp_evt_protocol_sendReadWritePageResponse *)
Definition evt_protocol_sendReadWritePageResponse : Sender := mkSender "vscp_evt_protocol_sendReadWritePageResponse" 0 26 3 [("sequenceNumber", PInt 1); ("data", PBuf true); ("dataSize", PSize)]
  [Guard 1 2; Do (Set_ 0 (Par 0)); Do (Add 1); Do (Loop 2 1 2); Do (SizeVar)].
(* src/events/vscp_evt_protocol.c:788-797 vscp_evt_protocol_sendHighEndServerServiceProbe *)
Definition evt_protocol_sendHighEndServerServiceProbe : Sender := mkSender "vscp_evt_protocol_sendHighEndServerServiceProbe" 0 27 3 []
  [Do (SizeIs 0)].
(* src/events/vscp_evt_protocol.c:809-844 vscp_evt_protocol_sendHighEndServerServiceResponse *)
Definition evt_protocol_sendHighEndServerServiceResponse : Sender := mkSender "vscp_evt_protocol_sendHighEndServerServiceResponse" 0 28 3 [("capabilityCode", PInt 2); ("serverIp", PBuf true); ("serverIpSize", PSize); ("serverPort", PInt 2)]
  [Guard 1 2; Do (Set_ 0 (Shift 0 8)); Do (Set_ 1 (Shift 0 0)); Do (Add 2); Do (Loop 2 1 2); Do (Set_ 6 (Shift 3 8)); Do (Set_ 7 (Shift 3 0)); Do (Add 2); Do (SizeVar)].
(* src/events/vscp_evt_protocol.c:855-885 vscp_evt_protocol_sendIncrementRegister *)
Definition evt_protocol_sendIncrementRegister : Sender := mkSender "vscp_evt_protocol_sendIncrementRegister" 0 29 3 [("nodeId", PInt 1); ("registerAddress", PBuf true); ("registerAddressSize", PSize)]
  [Guard 1 2; Do (Set_ 0 (Par 0)); Do (Add 1); Do (Loop 1 1 2); Do (SizeVar)].
(* src/events/vscp_evt_protocol.c:896-926 vscp_evt_protocol_sendDecrementRegister *)
Definition evt_protocol_sendDecrementRegister : Sender := mkSender "vscp_evt_protocol_sendDecrementRegister" 0 30 3 [("nodeId", PInt 1); ("registerAddress", PBuf true); ("registerAddressSize", PSize)]
  [Guard 1 2; Do (Set_ 0 (Par 0)); Do (Add 1); Do (Loop 1 1 2); Do (SizeVar)].
(* src/events/vscp_evt_protocol.c:935-948 vscp_evt_protocol_sendWhoIsThere *)
Definition evt_protocol_sendWhoIsThere : Sender := mkSender "vscp_evt_protocol_sendWhoIsThere" 0 31 3 [("nodeId", PInt 1)]
  [Do (Set_ 0 (Par 0)); Do (Add 1); Do (SizeVar)].
(* src/events/vscp_evt_protocol.c:959-972 vscp_evt_protocol_sendGetDecisionMatrixInfo *)
Definition evt_protocol_sendGetDecisionMatrixInfo : Sender := mkSender "vscp_evt_protocol_sendGetDecisionMatrixInfo" 0 33 3 [("nodeAddress", PInt 1)]
  [Do (Set_ 0 (Par 0)); Do (Add 1); Do (SizeVar)].
(* src/events/vscp_evt_protocol.c:983-1006 vscp_evt_protocol_sendDecisionMatrixInfoResponse *)
Definition evt_protocol_sendDecisionMatrixInfoResponse : Sender := mkSender "vscp_evt_protocol_sendDecisionMatrixInfoResponse" 0 34 3 [("matrixSize", PInt 1); ("offset", PInt 1); ("pageStart", PRef 2)]
  [Do (Set_ 0 (Par 0)); Do (Add 1); Do (Set_ 1 (Par 1)); Do (Add 1); IfPtr 2 [Set_ 2 (Shift 2 8); Set_ 3 (Shift 2 0); Add 2]; Do (SizeVar)].
(* src/events/vscp_evt_protocol.c:1015-1028 vscp_evt_protocol_sendGetEmbeddedMdf *)
Definition evt_protocol_sendGetEmbeddedMdf : Sender := mkSender "vscp_evt_protocol_sendGetEmbeddedMdf" 0 35 3 [("nodeAddress", PInt 1)]
  [Do (Set_ 0 (Par 0)); Do (Add 1); Do (SizeVar)].
(* src/events/vscp_evt_protocol.c:1038-1055 vscp_evt_protocol_sendEmbeddedMdfResponse *)
Definition evt_protocol_sendEmbeddedMdfResponse : Sender := mkSender "vscp_evt_protocol_sendEmbeddedMdfResponse" 0 36 3 [("mdfDescriptionIndex", PInt 2); ("mdfData", PInt 1)]
  [Do (Set_ 0 (Shift 0 8)); Do (Set_ 1 (Shift 0 0)); Do (Add 2); Do (Set_ 2 (Par 1)); Do (Add 1); Do (SizeVar)].
(* src/events/vscp_evt_protocol.c:1067-1093 vscp_evt_protocol_sendExtendedPageReadRegister *)
Definition evt_protocol_sendExtendedPageReadRegister : Sender := mkSender "vscp_evt_protocol_sendExtendedPageReadRegister" 0 37 3 [("nodeAddress", PInt 1); ("page", PInt 2); ("offset", PInt 1); ("number", PRef 1)]
  [Do (Set_ 0 (Par 0)); Do (Add 1); Do (Set_ 1 (Shift 1 8)); Do (Set_ 2 (Shift 1 0)); Do (Add 2); Do (Set_ 3 (Par 2)); Do (Add 1); IfPtr 3 [Set_ 4 (Par 3); Add 1]; Do (SizeVar)].
(* src/events/vscp_evt_protocol.c:1106-1143 vscp_evt_protocol_sendExtendedPageWriteRegister *)
Definition evt_protocol_sendExtendedPageWriteRegister : Sender := mkSender "vscp_evt_protocol_sendExtendedPageWriteRegister" 0 38 3 [("nodeAddress", PInt 1); ("page", PInt 2); ("offset", PInt 1); ("value", PBuf true); ("valueSize", PSize)]
  [Guard 3 4; Do (Set_ 0 (Par 0)); Do (Add 1); Do (Set_ 1 (Shift 1 8)); Do (Set_ 2 (Shift 1 0)); Do (Add 2); Do (Set_ 3 (Par 2)); Do (Add 1); Do (Loop 4 3 4); Do (SizeVar)].
(* src/events/vscp_evt_protocol.c:1156-1193 vscp_evt_protocol_sendExtendedPageReadWriteResponse *)
Definition evt_protocol_sendExtendedPageReadWriteResponse : Sender := mkSender "vscp_evt_protocol_sendExtendedPageReadWriteResponse" 0 39 3 [("index", PInt 1); ("page", PInt 2); ("offset", PInt 1); ("value", PBuf true); ("valueSize", PSize)]
  [Guard 3 4; Do (Set_ 0 (Par 0)); Do (Add 1); Do (Set_ 1 (Shift 1 8)); Do (Set_ 2 (Shift 1 0)); Do (Add 2); Do (Set_ 3 (Par 2)); Do (Add 1); Do (Loop 4 3 4); Do (SizeVar)].
(* src/events/vscp_evt_protocol.c:1200-1209 vscp_evt_protocol_sendGetEventInterest *)
Definition evt_protocol_sendGetEventInterest : Sender := mkSender "vscp_evt_protocol_sendGetEventInterest" 0 40 3 []
  [Do (SizeIs 0)].
(* src/events/vscp_evt_protocol.c:1228-1303 vscp_evt_protocol_sendGetEventInterestResponse *)
Definition evt_protocol_sendGetEventInterestResponse : Sender := mkSender "vscp_evt_protocol_sendGetEventInterestResponse" 0 41 3 [("index", PInt 1); ("classBit9", PInt 2); ("class1", PInt 1); ("type1", PBuf true); ("type1Size", PSize); ("class2", PInt 1); ("type2", PBuf true); ("type2Size", PSize); ("class3", PInt 1); ("type3", PBuf true); ("type3Size", PSize)]
  [Guard 3 4; Guard 6 7; Guard 9 10; Do (Set_ 0 (Par 0)); Do (Add 1); Do (Set_ 1 (Shift 1 8)); Do (Set_ 2 (Shift 1 0)); Do (Add 2); Do (Set_ 2 (Par 2)); Do (Add 1); Do (Loop 3 3 4); Do (Set_ 4 (Par 5)); Do (Add 1); Do (Loop 5 6 7); Do (Set_ 6 (Par 8)); Do (Add 1); Do (Loop 7 9 10); Do (SizeVar)].
(* src/events/vscp_evt_protocol.c:1310-1319 vscp_evt_protocol_sendActivateNewImageAck *)
Definition evt_protocol_sendActivateNewImageAck : Sender := mkSender "vscp_evt_protocol_sendActivateNewImageAck" 0 48 3 []
  [Do (SizeIs 0)].
(* src/events/vscp_evt_protocol.c:1326-1335 vscp_evt_protocol_sendActivateNewImageNack *)
Definition evt_protocol_sendActivateNewImageNack : Sender := mkSender "vscp_evt_protocol_sendActivateNewImageNack" 0 49 3 []
  [Do (SizeIs 0)].
(* src/events/vscp_evt_protocol.c:1342-1351 vscp_evt_protocol_sendBlockDataTransferAck *)
Definition evt_protocol_sendBlockDataTransferAck : Sender := mkSender "vscp_evt_protocol_sendBlockDataTransferAck" 0 50 3 []
  [Do (SizeIs 0)].
(* src/events/vscp_evt_protocol.c:1358-1367 vscp_evt_protocol_sendBlockDataTransferNack *)
Definition evt_protocol_sendBlockDataTransferNack : Sender := mkSender "vscp_evt_protocol_sendBlockDataTransferNack" 0 51 3 []
  [Do (SizeIs 0)].
(* src/events/vscp_evt_security.c:79-88 vscp_evt_security_sendGeneralEvent *)
Definition evt_security_sendGeneralEvent : Sender := mkSender "vscp_evt_security_sendGeneralEvent" 2 0 3 []
  [Do (SizeIs 0)].
(* src/events/vscp_evt_security.c:100-125 vscp_evt_security_sendMotionDetect *)
Definition evt_security_sendMotionDetect : Sender := mkSender "vscp_evt_security_sendMotionDetect" 2 1 3 [("userData", PInt 1); ("zone", PInt 1); ("subZone", PInt 1); ("status", PRef 1)]
  [Do (Set_ 0 (Par 0)); Do (Add 1); Do (Set_ 1 (Par 1)); Do (Add 1); Do (Set_ 2 (Par 2)); Do (Add 1); IfPtr 3 [Set_ 3 (Par 3); Add 1]; Do (SizeVar)].
(* src/events/vscp_evt_security.c:136-155 vscp_evt_security_sendGlassBreak *)
Definition evt_security_sendGlassBreak : Sender := mkSender "vscp_evt_security_sendGlassBreak" 2 2 3 [("userData", PInt 1); ("zone", PInt 1); ("subZone", PInt 1)]
  [Do (Set_ 0 (Par 0)); Do (Add 1); Do (Set_ 1 (Par 1)); Do (Add 1); Do (Set_ 2 (Par 2)); Do (Add 1); Do (SizeVar)].
(* src/events/vscp_evt_security.c:166-185 vscp_evt_security_sendBeamBreak *)
Definition evt_security_sendBeamBreak : Sender := mkSender "vscp_evt_security_sendBeamBreak" 2 3 3 [("userData", PInt 1); ("zone", PInt 1); ("subZone", PInt 1)]
  [Do (Set_ 0 (Par 0)); Do (Add 1); Do (Set_ 1 (Par 1)); Do (Add 1); Do (Set_ 2 (Par 2)); Do (Add 1); Do (SizeVar)].
(* src/events/vscp_evt_security.c:196-215 vscp_evt_security_sendSensorTamper *)
Definition evt_security_sendSensorTamper : Sender := mkSender "vscp_evt_security_sendSensorTamper" 2 4 3 [("userData", PInt 1); ("zone", PInt 1); ("subZone", PInt 1)]
  [Do (Set_ 0 (Par 0)); Do (Add 1); Do (Set_ 1 (Par 1)); Do (Add 1); Do (Set_ 2 (Par 2)); Do (Add 1); Do (SizeVar)].
(* src/events/vscp_evt_security.c:226-245 vscp_evt_security_sendShockSensor *)
Definition evt_security_sendShockSensor : Sender := mkSender "vscp_evt_security_sendShockSensor" 2 5 3 [("userData", PInt 1); ("zone", PInt 1); ("subZone", PInt 1)]
  [Do (Set_ 0 (Par 0)); Do (Add 1); Do (Set_ 1 (Par 1)); Do (Add 1); Do (Set_ 2 (Par 2)); Do (Add 1); Do (SizeVar)].
(* src/events/vscp_evt_security.c:256-275 vscp_evt_security_sendSmokeSensor *)
Definition evt_security_sendSmokeSensor : Sender := mkSender "vscp_evt_security_sendSmokeSensor" 2 6 3 [("userData", PInt 1); ("zone", PInt 1); ("subZone", PInt 1)]
  [Do (Set_ 0 (Par 0)); Do (Add 1); Do (Set_ 1 (Par 1)); Do (Add 1); Do (Set_ 2 (Par 2)); Do (Add 1); Do (SizeVar)].
(* src/events/vscp_evt_security.c:286-305 vscp_evt_security_sendHeatSensor *)
Definition evt_security_sendHeatSensor : Sender := mkSender "vscp_evt_security_sendHeatSensor" 2 7 3 [("userData", PInt 1); ("zone", PInt 1); ("subZone", PInt 1)]
  [Do (Set_ 0 (Par 0)); Do (Add 1); Do (Set_ 1 (Par 1)); Do (Add 1); Do (Set_ 2 (Par 2)); Do (Add 1); Do (SizeVar)].
(* src/events/vscp_evt_security.c:316-335 vscp_evt_security_sendPanicSwitch *)
Definition evt_security_sendPanicSwitch : Sender := mkSender "vscp_evt_security_sendPanicSwitch" 2 8 3 [("userData", PInt 1); ("zone", PInt 1); ("subZone", PInt 1)]
  [Do (Set_ 0 (Par 0)); Do (Add 1); Do (Set_ 1 (Par 1)); Do (Add 1); Do (Set_ 2 (Par 2)); Do (Add 1); Do (SizeVar)].
(* src/events/vscp_evt_security.c:346-365 vscp_evt_security_sendDoorContact *)
Definition evt_security_sendDoorContact : Sender := mkSender "vscp_evt_security_sendDoorContact" 2 9 3 [("userData", PInt 1); ("zone", PInt 1); ("subZone", PInt 1)]
  [Do (Set_ 0 (Par 0)); Do (Add 1); Do (Set_ 1 (Par 1)); Do (Add 1); Do (Set_ 2 (Par 2)); Do (Add 1); Do (SizeVar)].
(* src/events/vscp_evt_security.c:376-395 vscp_evt_security_sendWindowContact *)
Definition evt_security_sendWindowContact : Sender := mkSender "vscp_evt_security_sendWindowContact" 2 10 3 [("userData", PInt 1); ("zone", PInt 1); ("subZone", PInt 1)]
  [Do (Set_ 0 (Par 0)); Do (Add 1); Do (Set_ 1 (Par 1)); Do (Add 1); Do (Set_ 2 (Par 2)); Do (Add 1); Do (SizeVar)].
(* src/events/vscp_evt_security.c:406-425 vscp_evt_security_sendCoSensor *)
Definition evt_security_sendCoSensor : Sender := mkSender "vscp_evt_security_sendCoSensor" 2 11 3 [("userData", PInt 1); ("zone", PInt 1); ("subZone", PInt 1)]
  [Do (Set_ 0 (Par 0)); Do (Add 1); Do (Set_ 1 (Par 1)); Do (Add 1); Do (Set_ 2 (Par 2)); Do (Add 1); Do (SizeVar)].
(* src/events/vscp_evt_security.c:436-455 vscp_evt_security_sendFrostDetected *)
Definition evt_security_sendFrostDetected : Sender := mkSender "vscp_evt_security_sendFrostDetected" 2 12 3 [("userData", PInt 1); ("zone", PInt 1); ("subZone", PInt 1)]
  [Do (Set_ 0 (Par 0)); Do (Add 1); Do (Set_ 1 (Par 1)); Do (Add 1); Do (Set_ 2 (Par 2)); Do (Add 1); Do (SizeVar)].
(* src/events/vscp_evt_security.c:466-485 vscp_evt_security_sendFlameDetected *)
Definition evt_security_sendFlameDetected : Sender := mkSender "vscp_evt_security_sendFlameDetected" 2 13 3 [("userData", PInt 1); ("zone", PInt 1); ("subZone", PInt 1)]
  [Do (Set_ 0 (Par 0)); Do (Add 1); Do (Set_ 1 (Par 1)); Do (Add 1); Do (Set_ 2 (Par 2)); Do (Add 1); Do (SizeVar)].
(* src/events/vscp_evt_security.c:496-515 vscp_evt_security_sendOxygenLow *)
Definition evt_security_sendOxygenLow : Sender := mkSender "vscp_evt_security_sendOxygenLow" 2 14 3 [("userData", PInt 1); ("zone", PInt 1); ("subZone", PInt 1)]
  [Do (Set_ 0 (Par 0)); Do (Add 1); Do (Set_ 1 (Par 1)); Do (Add 1); Do (Set_ 2 (Par 2)); Do (Add 1); Do (SizeVar)].
(* src/events/vscp_evt_security.c:526-545 vscp_evt_security_sendWeightDetected *)
Definition evt_security_sendWeightDetected : Sender := mkSender "vscp_evt_security_sendWeightDetected" 2 15 3 [("userData", PInt 1); ("zone", PInt 1); ("subZone", PInt 1)]
  [Do (Set_ 0 (Par 0)); Do (Add 1); Do (Set_ 1 (Par 1)); Do (Add 1); Do (Set_ 2 (Par 2)); Do (Add 1); Do (SizeVar)].
(* src/events/vscp_evt_security.c:556-575 vscp_evt_security_sendWaterDetected *)
Definition evt_security_sendWaterDetected : Sender := mkSender "vscp_evt_security_sendWaterDetected" 2 16 3 [("userData", PInt 1); ("zone", PInt 1); ("subZone", PInt 1)]
  [Do (Set_ 0 (Par 0)); Do (Add 1); Do (Set_ 1 (Par 1)); Do (Add 1); Do (Set_ 2 (Par 2)); Do (Add 1); Do (SizeVar)].
(* src/events/vscp_evt_security.c:586-605 vscp_evt_security_sendCondensationDetected *)
Definition evt_security_sendCondensationDetected : Sender := mkSender "vscp_evt_security_sendCondensationDetected" 2 17 3 [("userData", PInt 1); ("zone", PInt 1); ("subZone", PInt 1)]
  [Do (Set_ 0 (Par 0)); Do (Add 1); Do (Set_ 1 (Par 1)); Do (Add 1); Do (Set_ 2 (Par 2)); Do (Add 1); Do (SizeVar)].
(* src/events/vscp_evt_security.c:616-635 vscp_evt_security_sendNoiseSoundDetected *)
Definition evt_security_sendNoiseSoundDetected : Sender := mkSender "vscp_evt_security_sendNoiseSoundDetected" 2 18 3 [("userData", PInt 1); ("zone", PInt 1); ("subZone", PInt 1)]
  [Do (Set_ 0 (Par 0)); Do (Add 1); Do (Set_ 1 (Par 1)); Do (Add 1); Do (Set_ 2 (Par 2)); Do (Add 1); Do (SizeVar)].
(* src/events/vscp_evt_security.c:646-665 vscp_evt_security_sendHarmfulSoundLevelsDetected *)
Definition evt_security_sendHarmfulSoundLevelsDetected : Sender := mkSender "vscp_evt_security_sendHarmfulSoundLevelsDetected" 2 19 3 [("userData", PInt 1); ("zone", PInt 1); ("subZone", PInt 1)]
  [Do (Set_ 0 (Par 0)); Do (Add 1); Do (Set_ 1 (Par 1)); Do (Add 1); Do (Set_ 2 (Par 2)); Do (Add 1); Do (SizeVar)].
(* src/events/vscp_evt_security.c:676-695 vscp_evt_security_sendTamperDetected *)
Definition evt_security_sendTamperDetected : Sender := mkSender "vscp_evt_security_sendTamperDetected" 2 20 3 [("userData", PInt 1); ("zone", PInt 1); ("subZone", PInt 1)]
  [Do (Set_ 0 (Par 0)); Do (Add 1); Do (Set_ 1 (Par 1)); Do (Add 1); Do (Set_ 2 (Par 2)); Do (Add 1); Do (SizeVar)].
(* src/events/vscp_evt_security.c:706-725 vscp_evt_security_sendAuthenticated *)
Definition evt_security_sendAuthenticated : Sender := mkSender "vscp_evt_security_sendAuthenticated" 2 21 3 [("data0", PInt 1); ("zone", PInt 1); ("subZone", PInt 1)]
  [Do (Set_ 0 (Par 0)); Do (Add 1); Do (Set_ 1 (Par 1)); Do (Add 1); Do (Set_ 2 (Par 2)); Do (Add 1); Do (SizeVar)].
(* src/events/vscp_evt_security.c:736-755 vscp_evt_security_sendUnauthenticated *)
Definition evt_security_sendUnauthenticated : Sender := mkSender "vscp_evt_security_sendUnauthenticated" 2 22 3 [("data0", PInt 1); ("zone", PInt 1); ("subZone", PInt 1)]
  [Do (Set_ 0 (Par 0)); Do (Add 1); Do (Set_ 1 (Par 1)); Do (Add 1); Do (Set_ 2 (Par 2)); Do (Add 1); Do (SizeVar)].
(* src/events/vscp_evt_security.c:766-785 vscp_evt_security_sendAuthorized *)
Definition evt_security_sendAuthorized : Sender := mkSender "vscp_evt_security_sendAuthorized" 2 23 3 [("data0", PInt 1); ("zone", PInt 1); ("subZone", PInt 1)]
  [Do (Set_ 0 (Par 0)); Do (Add 1); Do (Set_ 1 (Par 1)); Do (Add 1); Do (Set_ 2 (Par 2)); Do (Add 1); Do (SizeVar)].
(* src/events/vscp_evt_security.c:796-815 vscp_evt_security_sendUnauthorized *)
Definition evt_security_sendUnauthorized : Sender := mkSender "vscp_evt_security_sendUnauthorized" 2 24 3 [("data0", PInt 1); ("zone", PInt 1); ("subZone", PInt 1)]
  [Do (Set_ 0 (Par 0)); Do (Add 1); Do (Set_ 1 (Par 1)); Do (Add 1); Do (Set_ 2 (Par 2)); Do (Add 1); Do (SizeVar)].
(* src/events/vscp_evt_security.c:826-845 vscp_evt_security_sendIdCheck *)
Definition evt_security_sendIdCheck : Sender := mkSender "vscp_evt_security_sendIdCheck" 2 25 3 [("data0", PInt 1); ("zone", PInt 1); ("subZone", PInt 1)]
  [Do (Set_ 0 (Par 0)); Do (Add 1); Do (Set_ 1 (Par 1)); Do (Add 1); Do (Set_ 2 (Par 2)); Do (Add 1); Do (SizeVar)].
(* src/events/vscp_evt_security.c:856-875 vscp_evt_security_sendValidPin *)
Definition evt_security_sendValidPin : Sender := mkSender "vscp_evt_security_sendValidPin" 2 26 3 [("data0", PInt 1); ("zone", PInt 1); ("subZone", PInt 1)]
  [Do (Set_ 0 (Par 0)); Do (Add 1); Do (Set_ 1 (Par 1)); Do (Add 1); Do (Set_ 2 (Par 2)); Do (Add 1); Do (SizeVar)].
(* src/events/vscp_evt_security.c:886-905 vscp_evt_security_sendInvalidPin *)
Definition evt_security_sendInvalidPin : Sender := mkSender "vscp_evt_security_sendInvalidPin" 2 27 3 [("data0", PInt 1); ("zone", PInt 1); ("subZone", PInt 1)]
  [Do (Set_ 0 (Par 0)); Do (Add 1); Do (Set_ 1 (Par 1)); Do (Add 1); Do (Set_ 2 (Par 2)); Do (Add 1); Do (SizeVar)].
(* src/events/vscp_evt_security.c:916-935 vscp_evt_security_sendPinWarning *)
Definition evt_security_sendPinWarning : Sender := mkSender "vscp_evt_security_sendPinWarning" 2 28 3 [("data0", PInt 1); ("zone", PInt 1); ("subZone", PInt 1)]
  [Do (Set_ 0 (Par 0)); Do (Add 1); Do (Set_ 1 (Par 1)); Do (Add 1); Do (Set_ 2 (Par 2)); Do (Add 1); Do (SizeVar)].
(* src/events/vscp_evt_security.c:946-965 vscp_evt_security_sendPinError *)
Definition evt_security_sendPinError : Sender := mkSender "vscp_evt_security_sendPinError" 2 29 3 [("data0", PInt 1); ("zone", PInt 1); ("subZone", PInt 1)]
  [Do (Set_ 0 (Par 0)); Do (Add 1); Do (Set_ 1 (Par 1)); Do (Add 1); Do (Set_ 2 (Par 2)); Do (Add 1); Do (SizeVar)].
(* src/events/vscp_evt_security.c:976-995 vscp_evt_security_sendValidPassword *)
Definition evt_security_sendValidPassword : Sender := mkSender "vscp_evt_security_sendValidPassword" 2 30 3 [("data0", PInt 1); ("zone", PInt 1); ("subZone", PInt 1)]
  [Do (Set_ 0 (Par 0)); Do (Add 1); Do (Set_ 1 (Par 1)); Do (Add 1); Do (Set_ 2 (Par 2)); Do (Add 1); Do (SizeVar)].
(* src/events/vscp_evt_security.c:1006-1025 vscp_evt_security_sendInvalidPassword *)
Definition evt_security_sendInvalidPassword : Sender := mkSender "vscp_evt_security_sendInvalidPassword" 2 31 3 [("data0", PInt 1); ("zone", PInt 1); ("subZone", PInt 1)]
  [Do (Set_ 0 (Par 0)); Do (Add 1); Do (Set_ 1 (Par 1)); Do (Add 1); Do (Set_ 2 (Par 2)); Do (Add 1); Do (SizeVar)].
(* src/events/vscp_evt_security.c:1036-1055 vscp_evt_security_sendPasswordWarning *)
Definition evt_security_sendPasswordWarning : Sender := mkSender "vscp_evt_security_sendPasswordWarning" 2 32 3 [("data0", PInt 1); ("zone", PInt 1); ("subZone", PInt 1)]
  [Do (Set_ 0 (Par 0)); Do (Add 1); Do (Set_ 1 (Par 1)); Do (Add 1); Do (Set_ 2 (Par 2)); Do (Add 1); Do (SizeVar)].
(* src/events/vscp_evt_security.c:1066-1085 vscp_evt_security_sendPasswordError *)
Definition evt_security_sendPasswordError : Sender := mkSender "vscp_evt_security_sendPasswordError" 2 33 3 [("data0", PInt 1); ("zone", PInt 1); ("subZone", PInt 1)]
  [Do (Set_ 0 (Par 0)); Do (Add 1); Do (Set_ 1 (Par 1)); Do (Add 1); Do (Set_ 2 (Par 2)); Do (Add 1); Do (SizeVar)].
(* src/events/vscp_evt_security.c:1096-1115 vscp_evt_security_sendGas *)
Definition evt_security_sendGas : Sender := mkSender "vscp_evt_security_sendGas" 2 34 3 [("data0", PInt 1); ("zone", PInt 1); ("subZone", PInt 1)]
  [Do (Set_ 0 (Par 0)); Do (Add 1); Do (Set_ 1 (Par 1)); Do (Add 1); Do (Set_ 2 (Par 2)); Do (Add 1); Do (SizeVar)].
(* src/events/vscp_evt_security.c:1126-1145 vscp_evt_security_sendInMotion *)
Definition evt_security_sendInMotion : Sender := mkSender "vscp_evt_security_sendInMotion" 2 35 3 [("data0", PInt 1); ("zone", PInt 1); ("subZone", PInt 1)]
  [Do (Set_ 0 (Par 0)); Do (Add 1); Do (Set_ 1 (Par 1)); Do (Add 1); Do (Set_ 2 (Par 2)); Do (Add 1); Do (SizeVar)].
(* src/events/vscp_evt_security.c:1156-1175 vscp_evt_security_sendNotInMotion *)
Definition evt_security_sendNotInMotion : Sender := mkSender "vscp_evt_security_sendNotInMotion" 2 36 3 [("data0", PInt 1); ("zone", PInt 1); ("subZone", PInt 1)]
  [Do (Set_ 0 (Par 0)); Do (Add 1); Do (Set_ 1 (Par 1)); Do (Add 1); Do (Set_ 2 (Par 2)); Do (Add 1); Do (SizeVar)].
(* src/events/vscp_evt_security.c:1186-1205 vscp_evt_security_sendVibration *)
Definition evt_security_sendVibration : Sender := mkSender "vscp_evt_security_sendVibration" 2 37 3 [("data0", PInt 1); ("zone", PInt 1); ("subZone", PInt 1)]
  [Do (Set_ 0 (Par 0)); Do (Add 1); Do (Set_ 1 (Par 1)); Do (Add 1); Do (Set_ 2 (Par 2)); Do (Add 1); Do (SizeVar)].
(* src/events/vscp_evt_setvaluezone.c:79-88 vscp_evt_setvaluezone_sendGeneralEvent *)
Definition evt_setvaluezone_sendGeneralEvent : Sender := mkSender "vscp_evt_setvaluezone_sendGeneralEvent" 85 0 3 []
  [Do (SizeIs 0)].
(* src/events/vscp_evt_setvaluezone.c:102-141 vscp_evt_setvaluezone_sendCount *)
Definition evt_setvaluezone_sendCount : Sender := mkSender "vscp_evt_setvaluezone_sendCount" 85 1 3 [("index", PInt 1); ("zone", PInt 1); ("subZone", PInt 1); ("dataCoding", PInt 1); ("data", PBuf true); ("dataSize", PSize)]
  [Guard 4 5; Do (Set_ 0 (Par 0)); Do (Add 1); Do (Set_ 1 (Par 1)); Do (Add 1); Do (Set_ 2 (Par 2)); Do (Add 1); Do (Set_ 3 (Par 3)); Do (Add 1); Do (Loop 4 4 5); Do (SizeVar)].
(* src/events/vscp_evt_setvaluezone.c:155-194 vscp_evt_setvaluezone_sendLengthDistance *)
Definition evt_setvaluezone_sendLengthDistance : Sender := mkSender "vscp_evt_setvaluezone_sendLengthDistance" 85 2 3 [("index", PInt 1); ("zone", PInt 1); ("subZone", PInt 1); ("dataCoding", PInt 1); ("data", PBuf true); ("dataSize", PSize)]
  [Guard 4 5; Do (Set_ 0 (Par 0)); Do (Add 1); Do (Set_ 1 (Par 1)); Do (Add 1); Do (Set_ 2 (Par 2)); Do (Add 1); Do (Set_ 3 (Par 3)); Do (Add 1); Do (Loop 4 4 5); Do (SizeVar)].
(* src/events/vscp_evt_setvaluezone.c:208-247 vscp_evt_setvaluezone_sendMass *)
Definition evt_setvaluezone_sendMass : Sender := mkSender "vscp_evt_setvaluezone_sendMass" 85 3 3 [("index", PInt 1); ("zone", PInt 1); ("subZone", PInt 1); ("dataCoding", PInt 1); ("data", PBuf true); ("dataSize", PSize)]
  [Guard 4 5; Do (Set_ 0 (Par 0)); Do (Add 1); Do (Set_ 1 (Par 1)); Do (Add 1); Do (Set_ 2 (Par 2)); Do (Add 1); Do (Set_ 3 (Par 3)); Do (Add 1); Do (Loop 4 4 5); Do (SizeVar)].
(* src/events/vscp_evt_setvaluezone.c:261-300 vscp_evt_setvaluezone_sendTime *)
Definition evt_setvaluezone_sendTime : Sender := mkSender "vscp_evt_setvaluezone_sendTime" 85 4 3 [("index", PInt 1); ("zone", PInt 1); ("subZone", PInt 1); ("dataCoding", PInt 1); ("data", PBuf true); ("dataSize", PSize)]
  [Guard 4 5; Do (Set_ 0 (Par 0)); Do (Add 1); Do (Set_ 1 (Par 1)); Do (Add 1); Do (Set_ 2 (Par 2)); Do (Add 1); Do (Set_ 3 (Par 3)); Do (Add 1); Do (Loop 4 4 5); Do (SizeVar)].
(* src/events/vscp_evt_setvaluezone.c:314-353 vscp_evt_setvaluezone_sendElectricCurrent *)
Definition evt_setvaluezone_sendElectricCurrent : Sender := mkSender "vscp_evt_setvaluezone_sendElectricCurrent" 85 5 3 [("index", PInt 1); ("zone", PInt 1); ("subZone", PInt 1); ("dataCoding", PInt 1); ("data", PBuf true); ("dataSize", PSize)]
  [Guard 4 5; Do (Set_ 0 (Par 0)); Do (Add 1); Do (Set_ 1 (Par 1)); Do (Add 1); Do (Set_ 2 (Par 2)); Do (Add 1); Do (Set_ 3 (Par 3)); Do (Add 1); Do (Loop 4 4 5); Do (SizeVar)].
(* src/events/vscp_evt_setvaluezone.c:367-406 vscp_evt_setvaluezone_sendTemperature *)
Definition evt_setvaluezone_sendTemperature : Sender := mkSender "vscp_evt_setvaluezone_sendTemperature" 85 6 3 [("index", PInt 1); ("zone", PInt 1); ("subZone", PInt 1); ("dataCoding", PInt 1); ("data", PBuf true); ("dataSize", PSize)]
  [Guard 4 5; Do (Set_ 0 (Par 0)); Do (Add 1); Do (Set_ 1 (Par 1)); Do (Add 1); Do (Set_ 2 (Par 2)); Do (Add 1); Do (Set_ 3 (Par 3)); Do (Add 1); Do (Loop 4 4 5); Do (SizeVar)].
(* src/events/vscp_evt_setvaluezone.c:420-459 vscp_evt_setvaluezone_sendAmountOfSubstance *)
Definition evt_setvaluezone_sendAmountOfSubstance : Sender := mkSender "vscp_evt_setvaluezone_sendAmountOfSubstance" 85 7 3 [("index", PInt 1); ("zone", PInt 1); ("subZone", PInt 1); ("dataCoding", PInt 1); ("data", PBuf true); ("dataSize", PSize)]
  [Guard 4 5; Do (Set_ 0 (Par 0)); Do (Add 1); Do (Set_ 1 (Par 1)); Do (Add 1); Do (Set_ 2 (Par 2)); Do (Add 1); Do (Set_ 3 (Par 3)); Do (Add 1); Do (Loop 4 4 5); Do (SizeVar)].
(* src/events/vscp_evt_setvaluezone.c:473-512 vscp_evt_setvaluezone_sendLuminousIntensityIntensityOfLight *)
Definition evt_setvaluezone_sendLuminousIntensityIntensityOfLight : Sender := mkSender "vscp_evt_setvaluezone_sendLuminousIntensityIntensityOfLight" 85 8 3 [("index", PInt 1); ("zone", PInt 1); ("subZone", PInt 1); ("dataCoding", PInt 1); ("data", PBuf true); ("dataSize", PSize)]
  [Guard 4 5; Do (Set_ 0 (Par 0)); Do (Add 1); Do (Set_ 1 (Par 1)); Do (Add 1); Do (Set_ 2 (Par 2)); Do (Add 1); Do (Set_ 3 (Par 3)); Do (Add 1); Do (Loop 4 4 5); Do (SizeVar)].
(* src/events/vscp_evt_setvaluezone.c:526-565 vscp_evt_setvaluezone_sendFrequency *)
Definition evt_setvaluezone_sendFrequency : Sender := mkSender "vscp_evt_setvaluezone_sendFrequency" 85 9 3 [("index", PInt 1); ("zone", PInt 1); ("subZone", PInt 1); ("dataCoding", PInt 1); ("data", PBuf true); ("dataSize", PSize)]
  [Guard 4 5; Do (Set_ 0 (Par 0)); Do (Add 1); Do (Set_ 1 (Par 1)); Do (Add 1); Do (Set_ 2 (Par 2)); Do (Add 1); Do (Set_ 3 (Par 3)); Do (Add 1); Do (Loop 4 4 5); Do (SizeVar)].
(* src/events/vscp_evt_setvaluezone.c:579-618 vscp_evt_setvaluezone_sendRadioactivityAndOtherRandomEvents *)
Definition evt_setvaluezone_sendRadioactivityAndOtherRandomEvents : Sender := mkSender "vscp_evt_setvaluezone_sendRadioactivityAndOtherRandomEvents" 85 10 3 [("index", PInt 1); ("zone", PInt 1); ("subZone", PInt 1); ("dataCoding", PInt 1); ("data", PBuf true); ("dataSize", PSize)]
  [Guard 4 5; Do (Set_ 0 (Par 0)); Do (Add 1); Do (Set_ 1 (Par 1)); Do (Add 1); Do (Set_ 2 (Par 2)); Do (Add 1); Do (Set_ 3 (Par 3)); Do (Add 1); Do (Loop 4 4 5); Do (SizeVar)].
(* src/events/vscp_evt_setvaluezone.c:632-671 vscp_evt_setvaluezone_sendForce *)
Definition evt_setvaluezone_sendForce : Sender := mkSender "vscp_evt_setvaluezone_sendForce" 85 11 3 [("index", PInt 1); ("zone", PInt 1); ("subZone", PInt 1); ("dataCoding", PInt 1); ("data", PBuf true); ("dataSize", PSize)]
  [Guard 4 5; Do (Set_ 0 (Par 0)); Do (Add 1); Do (Set_ 1 (Par 1)); Do (Add 1); Do (Set_ 2 (Par 2)); Do (Add 1); Do (Set_ 3 (Par 3)); Do (Add 1); Do (Loop 4 4 5); Do (SizeVar)].
(* src/events/vscp_evt_setvaluezone.c:685-724 vscp_evt_setvaluezone_sendPressure *)
Definition evt_setvaluezone_sendPressure : Sender := mkSender "vscp_evt_setvaluezone_sendPressure" 85 12 3 [("index", PInt 1); ("zone", PInt 1); ("subZone", PInt 1); ("dataCoding", PInt 1); ("data", PBuf true); ("dataSize", PSize)]
  [Guard 4 5; Do (Set_ 0 (Par 0)); Do (Add 1); Do (Set_ 1 (Par 1)); Do (Add 1); Do (Set_ 2 (Par 2)); Do (Add 1); Do (Set_ 3 (Par 3)); Do (Add 1); Do (Loop 4 4 5); Do (SizeVar)].
(* src/events/vscp_evt_setvaluezone.c:738-777 vscp_evt_setvaluezone_sendEnergy *)
Definition evt_setvaluezone_sendEnergy : Sender := mkSender "vscp_evt_setvaluezone_sendEnergy" 85 13 3 [("index", PInt 1); ("zone", PInt 1); ("subZone", PInt 1); ("dataCoding", PInt 1); ("data", PBuf true); ("dataSize", PSize)]
  [Guard 4 5; Do (Set_ 0 (Par 0)); Do (Add 1); Do (Set_ 1 (Par 1)); Do (Add 1); Do (Set_ 2 (Par 2)); Do (Add 1); Do (Set_ 3 (Par 3)); Do (Add 1); Do (Loop 4 4 5); Do (SizeVar)].
(* src/events/vscp_evt_setvaluezone.c:791-830 vscp_evt_setvaluezone_sendPower *)
Definition evt_setvaluezone_sendPower : Sender := mkSender "vscp_evt_setvaluezone_sendPower" 85 14 3 [("index", PInt 1); ("zone", PInt 1); ("subZone", PInt 1); ("dataCoding", PInt 1); ("data", PBuf true); ("dataSize", PSize)]
  [Guard 4 5; Do (Set_ 0 (Par 0)); Do (Add 1); Do (Set_ 1 (Par 1)); Do (Add 1); Do (Set_ 2 (Par 2)); Do (Add 1); Do (Set_ 3 (Par 3)); Do (Add 1); Do (Loop 4 4 5); Do (SizeVar)].
(* src/events/vscp_evt_setvaluezone.c:844-883 vscp_evt_setvaluezone_sendElectricalCharge *)
Definition evt_setvaluezone_sendElectricalCharge : Sender := mkSender "vscp_evt_setvaluezone_sendElectricalCharge" 85 15 3 [("index", PInt 1); ("zone", PInt 1); ("subZone", PInt 1); ("dataCoding", PInt 1); ("data", PBuf true); ("dataSize", PSize)]
  [Guard 4 5; Do (Set_ 0 (Par 0)); Do (Add 1); Do (Set_ 1 (Par 1)); Do (Add 1); Do (Set_ 2 (Par 2)); Do (Add 1); Do (Set_ 3 (Par 3)); Do (Add 1); Do (Loop 4 4 5); Do (SizeVar)].
(* src/events/vscp_evt_setvaluezone.c:897-936 vscp_evt_setvaluezone_sendElectricalPotentialVoltage *)
Definition evt_setvaluezone_sendElectricalPotentialVoltage : Sender := mkSender "vscp_evt_setvaluezone_sendElectricalPotentialVoltage" 85 16 3 [("index", PInt 1); ("zone", PInt 1); ("subZone", PInt 1); ("dataCoding", PInt 1); ("data", PBuf true); ("dataSize", PSize)]
  [Guard 4 5; Do (Set_ 0 (Par 0)); Do (Add 1); Do (Set_ 1 (Par 1)); Do (Add 1); Do (Set_ 2 (Par 2)); Do (Add 1); Do (Set_ 3 (Par 3)); Do (Add 1); Do (Loop 4 4 5); Do (SizeVar)].
(* src/events/vscp_evt_setvaluezone.c:950-989 vscp_evt_setvaluezone_sendElectricalCapacitance *)
Definition evt_setvaluezone_sendElectricalCapacitance : Sender := mkSender "vscp_evt_setvaluezone_sendElectricalCapacitance" 85 17 3 [("index", PInt 1); ("zone", PInt 1); ("subZone", PInt 1); ("dataCoding", PInt 1); ("data", PBuf true); ("dataSize", PSize)]
  [Guard 4 5; Do (Set_ 0 (Par 0)); Do (Add 1); Do (Set_ 1 (Par 1)); Do (Add 1); Do (Set_ 2 (Par 2)); Do (Add 1); Do (Set_ 3 (Par 3)); Do (Add 1); Do (Loop 4 4 5); Do (SizeVar)].
(* src/events/vscp_evt_setvaluezone.c:1003-1042 vscp_evt_setvaluezone_sendElectricalResistance *)
Definition evt_setvaluezone_sendElectricalResistance : Sender := mkSender "vscp_evt_setvaluezone_sendElectricalResistance" 85 18 3 [("index", PInt 1); ("zone", PInt 1); ("subZone", PInt 1); ("dataCoding", PInt 1); ("data", PBuf true); ("dataSize", PSize)]
  [Guard 4 5; Do (Set_ 0 (Par 0)); Do (Add 1); Do (Set_ 1 (Par 1)); Do (Add 1); Do (Set_ 2 (Par 2)); Do (Add 1); Do (Set_ 3 (Par 3)); Do (Add 1); Do (Loop 4 4 5); Do (SizeVar)].
(* src/events/vscp_evt_setvaluezone.c:1056-1095 vscp_evt_setvaluezone_sendElectricalConductance *)
Definition evt_setvaluezone_sendElectricalConductance : Sender := mkSender "vscp_evt_setvaluezone_sendElectricalConductance" 85 19 3 [("index", PInt 1); ("zone", PInt 1); ("subZone", PInt 1); ("dataCoding", PInt 1); ("data", PBuf true); ("dataSize", PSize)]
  [Guard 4 5; Do (Set_ 0 (Par 0)); Do (Add 1); Do (Set_ 1 (Par 1)); Do (Add 1); Do (Set_ 2 (Par 2)); Do (Add 1); Do (Set_ 3 (Par 3)); Do (Add 1); Do (Loop 4 4 5); Do (SizeVar)].
(* src/events/vscp_evt_setvaluezone.c:1109-1148 vscp_evt_setvaluezone_sendMagneticFieldStrength *)
Definition evt_setvaluezone_sendMagneticFieldStrength : Sender := mkSender "vscp_evt_setvaluezone_sendMagneticFieldStrength" 85 20 3 [("index", PInt 1); ("zone", PInt 1); ("subZone", PInt 1); ("dataCoding", PInt 1); ("data", PBuf true); ("dataSize", PSize)]
  [Guard 4 5; Do (Set_ 0 (Par 0)); Do (Add 1); Do (Set_ 1 (Par 1)); Do (Add 1); Do (Set_ 2 (Par 2)); Do (Add 1); Do (Set_ 3 (Par 3)); Do (Add 1); Do (Loop 4 4 5); Do (SizeVar)].
(* src/events/vscp_evt_setvaluezone.c:1162-1201 vscp_evt_setvaluezone_sendMagneticFlux *)
Definition evt_setvaluezone_sendMagneticFlux : Sender := mkSender "vscp_evt_setvaluezone_sendMagneticFlux" 85 21 3 [("index", PInt 1); ("zone", PInt 1); ("subZone", PInt 1); ("dataCoding", PInt 1); ("data", PBuf true); ("dataSize", PSize)]
  [Guard 4 5; Do (Set_ 0 (Par 0)); Do (Add 1); Do (Set_ 1 (Par 1)); Do (Add 1); Do (Set_ 2 (Par 2)); Do (Add 1); Do (Set_ 3 (Par 3)); Do (Add 1); Do (Loop 4 4 5); Do (SizeVar)].
(* src/events/vscp_evt_setvaluezone.c:1215-1254 vscp_evt_setvaluezone_sendMagneticFluxDensity *)
Definition evt_setvaluezone_sendMagneticFluxDensity : Sender := mkSender "vscp_evt_setvaluezone_sendMagneticFluxDensity" 85 22 3 [("index", PInt 1); ("zone", PInt 1); ("subZone", PInt 1); ("dataCoding", PInt 1); ("data", PBuf true); ("dataSize", PSize)]
  [Guard 4 5; Do (Set_ 0 (Par 0)); Do (Add 1); Do (Set_ 1 (Par 1)); Do (Add 1); Do (Set_ 2 (Par 2)); Do (Add 1); Do (Set_ 3 (Par 3)); Do (Add 1); Do (Loop 4 4 5); Do (SizeVar)].
(* src/events/vscp_evt_setvaluezone.c:1268-1307 vscp_evt_setvaluezone_sendInductance *)
Definition evt_setvaluezone_sendInductance : Sender := mkSender "vscp_evt_setvaluezone_sendInductance" 85 23 3 [("index", PInt 1); ("zone", PInt 1); ("subZone", PInt 1); ("dataCoding", PInt 1); ("data", PBuf true); ("dataSize", PSize)]
  [Guard 4 5; Do (Set_ 0 (Par 0)); Do (Add 1); Do (Set_ 1 (Par 1)); Do (Add 1); Do (Set_ 2 (Par 2)); Do (Add 1); Do (Set_ 3 (Par 3)); Do (Add 1); Do (Loop 4 4 5); Do (SizeVar)].
(* src/events/vscp_evt_setvaluezone.c:1321-1360 vscp_evt_setvaluezone_sendLuminousFlux *)
Definition evt_setvaluezone_sendLuminousFlux : Sender := mkSender "vscp_evt_setvaluezone_sendLuminousFlux" 85 24 3 [("index", PInt 1); ("zone", PInt 1); ("subZone", PInt 1); ("dataCoding", PInt 1); ("data", PBuf true); ("dataSize", PSize)]
  [Guard 4 5; Do (Set_ 0 (Par 0)); Do (Add 1); Do (Set_ 1 (Par 1)); Do (Add 1); Do (Set_ 2 (Par 2)); Do (Add 1); Do (Set_ 3 (Par 3)); Do (Add 1); Do (Loop 4 4 5); Do (SizeVar)].
(* src/events/vscp_evt_setvaluezone.c:1374-1413 vscp_evt_setvaluezone_sendIlluminance *)
Definition evt_setvaluezone_sendIlluminance : Sender := mkSender "vscp_evt_setvaluezone_sendIlluminance" 85 25 3 [("index", PInt 1); ("zone", PInt 1); ("subZone", PInt 1); ("dataCoding", PInt 1); ("data", PBuf true); ("dataSize", PSize)]
  [Guard 4 5; Do (Set_ 0 (Par 0)); Do (Add 1); Do (Set_ 1 (Par 1)); Do (Add 1); Do (Set_ 2 (Par 2)); Do (Add 1); Do (Set_ 3 (Par 3)); Do (Add 1); Do (Loop 4 4 5); Do (SizeVar)].
(* src/events/vscp_evt_setvaluezone.c:1427-1466 vscp_evt_setvaluezone_sendRadiationDose *)
Definition evt_setvaluezone_sendRadiationDose : Sender := mkSender "vscp_evt_setvaluezone_sendRadiationDose" 85 26 3 [("index", PInt 1); ("zone", PInt 1); ("subZone", PInt 1); ("dataCoding", PInt 1); ("data", PBuf true); ("dataSize", PSize)]
  [Guard 4 5; Do (Set_ 0 (Par 0)); Do (Add 1); Do (Set_ 1 (Par 1)); Do (Add 1); Do (Set_ 2 (Par 2)); Do (Add 1); Do (Set_ 3 (Par 3)); Do (Add 1); Do (Loop 4 4 5); Do (SizeVar)].
(* src/events/vscp_evt_setvaluezone.c:1480-1519 vscp_evt_setvaluezone_sendCatalyticActivity *)
Definition evt_setvaluezone_sendCatalyticActivity : Sender := mkSender "vscp_evt_setvaluezone_sendCatalyticActivity" 85 27 3 [("index", PInt 1); ("zone", PInt 1); ("subZone", PInt 1); ("dataCoding", PInt 1); ("data", PBuf true); ("dataSize", PSize)]
  [Guard 4 5; Do (Set_ 0 (Par 0)); Do (Add 1); Do (Set_ 1 (Par 1)); Do (Add 1); Do (Set_ 2 (Par 2)); Do (Add 1); Do (Set_ 3 (Par 3)); Do (Add 1); Do (Loop 4 4 5); Do (SizeVar)].
(* src/events/vscp_evt_setvaluezone.c:1533-1572 vscp_evt_setvaluezone_sendVolume *)
Definition evt_setvaluezone_sendVolume : Sender := mkSender "vscp_evt_setvaluezone_sendVolume" 85 28 3 [("index", PInt 1); ("zone", PInt 1); ("subZone", PInt 1); ("dataCoding", PInt 1); ("data", PBuf true); ("dataSize", PSize)]
  [Guard 4 5; Do (Set_ 0 (Par 0)); Do (Add 1); Do (Set_ 1 (Par 1)); Do (Add 1); Do (Set_ 2 (Par 2)); Do (Add 1); Do (Set_ 3 (Par 3)); Do (Add 1); Do (Loop 4 4 5); Do (SizeVar)].
(* src/events/vscp_evt_setvaluezone.c:1586-1625 vscp_evt_setvaluezone_sendSoundIntensity *)
Definition evt_setvaluezone_sendSoundIntensity : Sender := mkSender "vscp_evt_setvaluezone_sendSoundIntensity" 85 29 3 [("index", PInt 1); ("zone", PInt 1); ("subZone", PInt 1); ("dataCoding", PInt 1); ("data", PBuf true); ("dataSize", PSize)]
  [Guard 4 5; Do (Set_ 0 (Par 0)); Do (Add 1); Do (Set_ 1 (Par 1)); Do (Add 1); Do (Set_ 2 (Par 2)); Do (Add 1); Do (Set_ 3 (Par 3)); Do (Add 1); Do (Loop 4 4 5); Do (SizeVar)].
(* src/events/vscp_evt_setvaluezone.c:1639-1678 vscp_evt_setvaluezone_sendAngle *)
Definition evt_setvaluezone_sendAngle : Sender := mkSender "vscp_evt_setvaluezone_sendAngle" 85 30 3 [("index", PInt 1); ("zone", PInt 1); ("subZone", PInt 1); ("dataCoding", PInt 1); ("data", PBuf true); ("dataSize", PSize)]
  [Guard 4 5; Do (Set_ 0 (Par 0)); Do (Add 1); Do (Set_ 1 (Par 1)); Do (Add 1); Do (Set_ 2 (Par 2)); Do (Add 1); Do (Set_ 3 (Par 3)); Do (Add 1); Do (Loop 4 4 5); Do (SizeVar)].
(* src/events/vscp_evt_setvaluezone.c:1692-1731 vscp_evt_setvaluezone_sendPositionWgs84 *)
Definition evt_setvaluezone_sendPositionWgs84 : Sender := mkSender "vscp_evt_setvaluezone_sendPositionWgs84" 85 31 3 [("index", PInt 1); ("zone", PInt 1); ("subZone", PInt 1); ("dataCoding", PInt 1); ("data", PBuf true); ("dataSize", PSize)]
  [Guard 4 5; Do (Set_ 0 (Par 0)); Do (Add 1); Do (Set_ 1 (Par 1)); Do (Add 1); Do (Set_ 2 (Par 2)); Do (Add 1); Do (Set_ 3 (Par 3)); Do (Add 1); Do (Loop 4 4 5); Do (SizeVar)].
(* src/events/vscp_evt_setvaluezone.c:1745-1784 vscp_evt_setvaluezone_sendSpeed *)
Definition evt_setvaluezone_sendSpeed : Sender := mkSender "vscp_evt_setvaluezone_sendSpeed" 85 32 3 [("index", PInt 1); ("zone", PInt 1); ("subZone", PInt 1); ("dataCoding", PInt 1); ("data", PBuf true); ("dataSize", PSize)]
  [Guard 4 5; Do (Set_ 0 (Par 0)); Do (Add 1); Do (Set_ 1 (Par 1)); Do (Add 1); Do (Set_ 2 (Par 2)); Do (Add 1); Do (Set_ 3 (Par 3)); Do (Add 1); Do (Loop 4 4 5); Do (SizeVar)].
(* src/events/vscp_evt_setvaluezone.c:1798-1837 vscp_evt_setvaluezone_sendAcceleration *)
Definition evt_setvaluezone_sendAcceleration : Sender := mkSender "vscp_evt_setvaluezone_sendAcceleration" 85 33 3 [("index", PInt 1); ("zone", PInt 1); ("subZone", PInt 1); ("dataCoding", PInt 1); ("data", PBuf true); ("dataSize", PSize)]
  [Guard 4 5; Do (Set_ 0 (Par 0)); Do (Add 1); Do (Set_ 1 (Par 1)); Do (Add 1); Do (Set_ 2 (Par 2)); Do (Add 1); Do (Set_ 3 (Par 3)); Do (Add 1); Do (Loop 4 4 5); Do (SizeVar)].
(* src/events/vscp_evt_setvaluezone.c:1851-1890 vscp_evt_setvaluezone_sendTension *)
Definition evt_setvaluezone_sendTension : Sender := mkSender "vscp_evt_setvaluezone_sendTension" 85 34 3 [("index", PInt 1); ("zone", PInt 1); ("subZone", PInt 1); ("dataCoding", PInt 1); ("data", PBuf true); ("dataSize", PSize)]
  [Guard 4 5; Do (Set_ 0 (Par 0)); Do (Add 1); Do (Set_ 1 (Par 1)); Do (Add 1); Do (Set_ 2 (Par 2)); Do (Add 1); Do (Set_ 3 (Par 3)); Do (Add 1); Do (Loop 4 4 5); Do (SizeVar)].
(* src/events/vscp_evt_setvaluezone.c:1904-1943 vscp_evt_setvaluezone_sendDampMoistHygrometerReading *)
Definition evt_setvaluezone_sendDampMoistHygrometerReading : Sender := mkSender "vscp_evt_setvaluezone_sendDampMoistHygrometerReading" 85 35 3 [("index", PInt 1); ("zone", PInt 1); ("subZone", PInt 1); ("dataCoding", PInt 1); ("data", PBuf true); ("dataSize", PSize)]
  [Guard 4 5; Do (Set_ 0 (Par 0)); Do (Add 1); Do (Set_ 1 (Par 1)); Do (Add 1); Do (Set_ 2 (Par 2)); Do (Add 1); Do (Set_ 3 (Par 3)); Do (Add 1); Do (Loop 4 4 5); Do (SizeVar)].
(* src/events/vscp_evt_setvaluezone.c:1957-1996 vscp_evt_setvaluezone_sendFlow *)
Definition evt_setvaluezone_sendFlow : Sender := mkSender "vscp_evt_setvaluezone_sendFlow" 85 36 3 [("index", PInt 1); ("zone", PInt 1); ("subZone", PInt 1); ("dataCoding", PInt 1); ("data", PBuf true); ("dataSize", PSize)]
  [Guard 4 5; Do (Set_ 0 (Par 0)); Do (Add 1); Do (Set_ 1 (Par 1)); Do (Add 1); Do (Set_ 2 (Par 2)); Do (Add 1); Do (Set_ 3 (Par 3)); Do (Add 1); Do (Loop 4 4 5); Do (SizeVar)].
(* src/events/vscp_evt_setvaluezone.c:2010-2049 vscp_evt_setvaluezone_sendThermalResistance *)
Definition evt_setvaluezone_sendThermalResistance : Sender := mkSender "vscp_evt_setvaluezone_sendThermalResistance" 85 37 3 [("index", PInt 1); ("zone", PInt 1); ("subZone", PInt 1); ("dataCoding", PInt 1); ("data", PBuf true); ("dataSize", PSize)]
  [Guard 4 5; Do (Set_ 0 (Par 0)); Do (Add 1); Do (Set_ 1 (Par 1)); Do (Add 1); Do (Set_ 2 (Par 2)); Do (Add 1); Do (Set_ 3 (Par 3)); Do (Add 1); Do (Loop 4 4 5); Do (SizeVar)].
(* src/events/vscp_evt_setvaluezone.c:2063-2102 vscp_evt_setvaluezone_sendRefractiveOpticalPower *)
Definition evt_setvaluezone_sendRefractiveOpticalPower : Sender := mkSender "vscp_evt_setvaluezone_sendRefractiveOpticalPower" 85 38 3 [("index", PInt 1); ("zone", PInt 1); ("subZone", PInt 1); ("dataCoding", PInt 1); ("data", PBuf true); ("dataSize", PSize)]
  [Guard 4 5; Do (Set_ 0 (Par 0)); Do (Add 1); Do (Set_ 1 (Par 1)); Do (Add 1); Do (Set_ 2 (Par 2)); Do (Add 1); Do (Set_ 3 (Par 3)); Do (Add 1); Do (Loop 4 4 5); Do (SizeVar)].
(* src/events/vscp_evt_setvaluezone.c:2116-2155 vscp_evt_setvaluezone_sendDynamicViscosity *)
Definition evt_setvaluezone_sendDynamicViscosity : Sender := mkSender "vscp_evt_setvaluezone_sendDynamicViscosity" 85 39 3 [("index", PInt 1); ("zone", PInt 1); ("subZone", PInt 1); ("dataCoding", PInt 1); ("data", PBuf true); ("dataSize", PSize)]
  [Guard 4 5; Do (Set_ 0 (Par 0)); Do (Add 1); Do (Set_ 1 (Par 1)); Do (Add 1); Do (Set_ 2 (Par 2)); Do (Add 1); Do (Set_ 3 (Par 3)); Do (Add 1); Do (Loop 4 4 5); Do (SizeVar)].
(* src/events/vscp_evt_setvaluezone.c:2169-2208 vscp_evt_setvaluezone_sendSoundImpedance *)
Definition evt_setvaluezone_sendSoundImpedance : Sender := mkSender "vscp_evt_setvaluezone_sendSoundImpedance" 85 40 3 [("index", PInt 1); ("zone", PInt 1); ("subZone", PInt 1); ("dataCoding", PInt 1); ("data", PBuf true); ("dataSize", PSize)]
  [Guard 4 5; Do (Set_ 0 (Par 0)); Do (Add 1); Do (Set_ 1 (Par 1)); Do (Add 1); Do (Set_ 2 (Par 2)); Do (Add 1); Do (Set_ 3 (Par 3)); Do (Add 1); Do (Loop 4 4 5); Do (SizeVar)].
(* src/events/vscp_evt_setvaluezone.c:2222-2261 vscp_evt_setvaluezone_sendSoundResistance *)
Definition evt_setvaluezone_sendSoundResistance : Sender := mkSender "vscp_evt_setvaluezone_sendSoundResistance" 85 41 3 [("index", PInt 1); ("zone", PInt 1); ("subZone", PInt 1); ("dataCoding", PInt 1); ("data", PBuf true); ("dataSize", PSize)]
  [Guard 4 5; Do (Set_ 0 (Par 0)); Do (Add 1); Do (Set_ 1 (Par 1)); Do (Add 1); Do (Set_ 2 (Par 2)); Do (Add 1); Do (Set_ 3 (Par 3)); Do (Add 1); Do (Loop 4 4 5); Do (SizeVar)].
(* src/events/vscp_evt_setvaluezone.c:2275-2314 vscp_evt_setvaluezone_sendElectricElastance *)
Definition evt_setvaluezone_sendElectricElastance : Sender := mkSender "vscp_evt_setvaluezone_sendElectricElastance" 85 42 3 [("index", PInt 1); ("zone", PInt 1); ("subZone", PInt 1); ("dataCoding", PInt 1); ("data", PBuf true); ("dataSize", PSize)]
  [Guard 4 5; Do (Set_ 0 (Par 0)); Do (Add 1); Do (Set_ 1 (Par 1)); Do (Add 1); Do (Set_ 2 (Par 2)); Do (Add 1); Do (Set_ 3 (Par 3)); Do (Add 1); Do (Loop 4 4 5); Do (SizeVar)].
(* src/events/vscp_evt_setvaluezone.c:2328-2367 vscp_evt_setvaluezone_sendLuminousEnergy *)
Definition evt_setvaluezone_sendLuminousEnergy : Sender := mkSender "vscp_evt_setvaluezone_sendLuminousEnergy" 85 43 3 [("index", PInt 1); ("zone", PInt 1); ("subZone", PInt 1); ("dataCoding", PInt 1); ("data", PBuf true); ("dataSize", PSize)]
  [Guard 4 5; Do (Set_ 0 (Par 0)); Do (Add 1); Do (Set_ 1 (Par 1)); Do (Add 1); Do (Set_ 2 (Par 2)); Do (Add 1); Do (Set_ 3 (Par 3)); Do (Add 1); Do (Loop 4 4 5); Do (SizeVar)].
(* src/events/vscp_evt_setvaluezone.c:2381-2420 vscp_evt_setvaluezone_sendLuminance *)
Definition evt_setvaluezone_sendLuminance : Sender := mkSender "vscp_evt_setvaluezone_sendLuminance" 85 44 3 [("index", PInt 1); ("zone", PInt 1); ("subZone", PInt 1); ("dataCoding", PInt 1); ("data", PBuf true); ("dataSize", PSize)]
  [Guard 4 5; Do (Set_ 0 (Par 0)); Do (Add 1); Do (Set_ 1 (Par 1)); Do (Add 1); Do (Set_ 2 (Par 2)); Do (Add 1); Do (Set_ 3 (Par 3)); Do (Add 1); Do (Loop 4 4 5); Do (SizeVar)].
(* src/events/vscp_evt_setvaluezone.c:2434-2473 vscp_evt_setvaluezone_sendChemicalConcentration *)
Definition evt_setvaluezone_sendChemicalConcentration : Sender := mkSender "vscp_evt_setvaluezone_sendChemicalConcentration" 85 45 3 [("index", PInt 1); ("zone", PInt 1); ("subZone", PInt 1); ("dataCoding", PInt 1); ("data", PBuf true); ("dataSize", PSize)]
  [Guard 4 5; Do (Set_ 0 (Par 0)); Do (Add 1); Do (Set_ 1 (Par 1)); Do (Add 1); Do (Set_ 2 (Par 2)); Do (Add 1); Do (Set_ 3 (Par 3)); Do (Add 1); Do (Loop 4 4 5); Do (SizeVar)].
(* src/events/vscp_evt_setvaluezone.c:2489-2528 vscp_evt_setvaluezone_sendDoseEquivalent *)
Definition evt_setvaluezone_sendDoseEquivalent : Sender := mkSender "vscp_evt_setvaluezone_sendDoseEquivalent" 85 47 3 [("index", PInt 1); ("zone", PInt 1); ("subZone", PInt 1); ("dataCoding", PInt 1); ("data", PBuf true); ("dataSize", PSize)]
  [Guard 4 5; Do (Set_ 0 (Par 0)); Do (Add 1); Do (Set_ 1 (Par 1)); Do (Add 1); Do (Set_ 2 (Par 2)); Do (Add 1); Do (Set_ 3 (Par 3)); Do (Add 1); Do (Loop 4 4 5); Do (SizeVar)].
(* src/events/vscp_evt_setvaluezone.c:2544-2583 vscp_evt_setvaluezone_sendDewPoint *)
Definition evt_setvaluezone_sendDewPoint : Sender := mkSender "vscp_evt_setvaluezone_sendDewPoint" 85 49 3 [("index", PInt 1); ("zone", PInt 1); ("subZone", PInt 1); ("dataCoding", PInt 1); ("data", PBuf true); ("dataSize", PSize)]
  [Guard 4 5; Do (Set_ 0 (Par 0)); Do (Add 1); Do (Set_ 1 (Par 1)); Do (Add 1); Do (Set_ 2 (Par 2)); Do (Add 1); Do (Set_ 3 (Par 3)); Do (Add 1); Do (Loop 4 4 5); Do (SizeVar)].
(* src/events/vscp_evt_setvaluezone.c:2597-2636 vscp_evt_setvaluezone_sendRelativeLevel *)
Definition evt_setvaluezone_sendRelativeLevel : Sender := mkSender "vscp_evt_setvaluezone_sendRelativeLevel" 85 50 3 [("index", PInt 1); ("zone", PInt 1); ("subZone", PInt 1); ("dataCoding", PInt 1); ("data", PBuf true); ("dataSize", PSize)]
  [Guard 4 5; Do (Set_ 0 (Par 0)); Do (Add 1); Do (Set_ 1 (Par 1)); Do (Add 1); Do (Set_ 2 (Par 2)); Do (Add 1); Do (Set_ 3 (Par 3)); Do (Add 1); Do (Loop 4 4 5); Do (SizeVar)].
(* src/events/vscp_evt_setvaluezone.c:2650-2689 vscp_evt_setvaluezone_sendAltitude *)
Definition evt_setvaluezone_sendAltitude : Sender := mkSender "vscp_evt_setvaluezone_sendAltitude" 85 51 3 [("index", PInt 1); ("zone", PInt 1); ("subZone", PInt 1); ("dataCoding", PInt 1); ("data", PBuf true); ("dataSize", PSize)]
  [Guard 4 5; Do (Set_ 0 (Par 0)); Do (Add 1); Do (Set_ 1 (Par 1)); Do (Add 1); Do (Set_ 2 (Par 2)); Do (Add 1); Do (Set_ 3 (Par 3)); Do (Add 1); Do (Loop 4 4 5); Do (SizeVar)].
(* src/events/vscp_evt_setvaluezone.c:2703-2742 vscp_evt_setvaluezone_sendArea *)
Definition evt_setvaluezone_sendArea : Sender := mkSender "vscp_evt_setvaluezone_sendArea" 85 52 3 [("index", PInt 1); ("zone", PInt 1); ("subZone", PInt 1); ("dataCoding", PInt 1); ("data", PBuf true); ("dataSize", PSize)]
  [Guard 4 5; Do (Set_ 0 (Par 0)); Do (Add 1); Do (Set_ 1 (Par 1)); Do (Add 1); Do (Set_ 2 (Par 2)); Do (Add 1); Do (Set_ 3 (Par 3)); Do (Add 1); Do (Loop 4 4 5); Do (SizeVar)].
(* src/events/vscp_evt_setvaluezone.c:2756-2795 vscp_evt_setvaluezone_sendRadiantIntensity *)
Definition evt_setvaluezone_sendRadiantIntensity : Sender := mkSender "vscp_evt_setvaluezone_sendRadiantIntensity" 85 53 3 [("index", PInt 1); ("zone", PInt 1); ("subZone", PInt 1); ("dataCoding", PInt 1); ("data", PBuf true); ("dataSize", PSize)]
  [Guard 4 5; Do (Set_ 0 (Par 0)); Do (Add 1); Do (Set_ 1 (Par 1)); Do (Add 1); Do (Set_ 2 (Par 2)); Do (Add 1); Do (Set_ 3 (Par 3)); Do (Add 1); Do (Loop 4 4 5); Do (SizeVar)].
(* src/events/vscp_evt_setvaluezone.c:2809-2848 vscp_evt_setvaluezone_sendRadiance *)
Definition evt_setvaluezone_sendRadiance : Sender := mkSender "vscp_evt_setvaluezone_sendRadiance" 85 54 3 [("index", PInt 1); ("zone", PInt 1); ("subZone", PInt 1); ("dataCoding", PInt 1); ("data", PBuf true); ("dataSize", PSize)]
  [Guard 4 5; Do (Set_ 0 (Par 0)); Do (Add 1); Do (Set_ 1 (Par 1)); Do (Add 1); Do (Set_ 2 (Par 2)); Do (Add 1); Do (Set_ 3 (Par 3)); Do (Add 1); Do (Loop 4 4 5); Do (SizeVar)].
(* src/events/vscp_evt_setvaluezone.c:2862-2901 vscp_evt_setvaluezone_sendIrradianceExitanceRadiosity *)
Definition evt_setvaluezone_sendIrradianceExitanceRadiosity : Sender := mkSender "vscp_evt_setvaluezone_sendIrradianceExitanceRadiosity" 85 55 3 [("index", PInt 1); ("zone", PInt 1); ("subZone", PInt 1); ("dataCoding", PInt 1); ("data", PBuf true); ("dataSize", PSize)]
  [Guard 4 5; Do (Set_ 0 (Par 0)); Do (Add 1); Do (Set_ 1 (Par 1)); Do (Add 1); Do (Set_ 2 (Par 2)); Do (Add 1); Do (Set_ 3 (Par 3)); Do (Add 1); Do (Loop 4 4 5); Do (SizeVar)].
(* src/events/vscp_evt_setvaluezone.c:2915-2954 vscp_evt_setvaluezone_sendSpectralRadiance *)
Definition evt_setvaluezone_sendSpectralRadiance : Sender := mkSender "vscp_evt_setvaluezone_sendSpectralRadiance" 85 56 3 [("index", PInt 1); ("zone", PInt 1); ("subZone", PInt 1); ("dataCoding", PInt 1); ("data", PBuf true); ("dataSize", PSize)]
  [Guard 4 5; Do (Set_ 0 (Par 0)); Do (Add 1); Do (Set_ 1 (Par 1)); Do (Add 1); Do (Set_ 2 (Par 2)); Do (Add 1); Do (Set_ 3 (Par 3)); Do (Add 1); Do (Loop 4 4 5); Do (SizeVar)].
(* src/events/vscp_evt_setvaluezone.c:2968-3007 vscp_evt_setvaluezone_sendSpectralIrradiance *)
Definition evt_setvaluezone_sendSpectralIrradiance : Sender := mkSender "vscp_evt_setvaluezone_sendSpectralIrradiance" 85 57 3 [("index", PInt 1); ("zone", PInt 1); ("subZone", PInt 1); ("dataCoding", PInt 1); ("data", PBuf true); ("dataSize", PSize)]
  [Guard 4 5; Do (Set_ 0 (Par 0)); Do (Add 1); Do (Set_ 1 (Par 1)); Do (Add 1); Do (Set_ 2 (Par 2)); Do (Add 1); Do (Set_ 3 (Par 3)); Do (Add 1); Do (Loop 4 4 5); Do (SizeVar)].
(* src/events/vscp_evt_setvaluezone.c:3021-3060 vscp_evt_setvaluezone_sendSoundPressureAcousticPressure *)
Definition evt_setvaluezone_sendSoundPressureAcousticPressure : Sender := mkSender "vscp_evt_setvaluezone_sendSoundPressureAcousticPressure" 85 58 3 [("index", PInt 1); ("zone", PInt 1); ("subZone", PInt 1); ("dataCoding", PInt 1); ("data", PBuf true); ("dataSize", PSize)]
  [Guard 4 5; Do (Set_ 0 (Par 0)); Do (Add 1); Do (Set_ 1 (Par 1)); Do (Add 1); Do (Set_ 2 (Par 2)); Do (Add 1); Do (Set_ 3 (Par 3)); Do (Add 1); Do (Loop 4 4 5); Do (SizeVar)].
(* src/events/vscp_evt_setvaluezone.c:3074-3113 vscp_evt_setvaluezone_sendSoundEnergyDensity *)
Definition evt_setvaluezone_sendSoundEnergyDensity : Sender := mkSender "vscp_evt_setvaluezone_sendSoundEnergyDensity" 85 59 3 [("index", PInt 1); ("zone", PInt 1); ("subZone", PInt 1); ("dataCoding", PInt 1); ("data", PBuf true); ("dataSize", PSize)]
  [Guard 4 5; Do (Set_ 0 (Par 0)); Do (Add 1); Do (Set_ 1 (Par 1)); Do (Add 1); Do (Set_ 2 (Par 2)); Do (Add 1); Do (Set_ 3 (Par 3)); Do (Add 1); Do (Loop 4 4 5); Do (SizeVar)].
(* src/events/vscp_evt_setvaluezone.c:3127-3166 vscp_evt_setvaluezone_sendSoundLevel *)
Definition evt_setvaluezone_sendSoundLevel : Sender := mkSender "vscp_evt_setvaluezone_sendSoundLevel" 85 60 3 [("index", PInt 1); ("zone", PInt 1); ("subZone", PInt 1); ("dataCoding", PInt 1); ("data", PBuf true); ("dataSize", PSize)]
  [Guard 4 5; Do (Set_ 0 (Par 0)); Do (Add 1); Do (Set_ 1 (Par 1)); Do (Add 1); Do (Set_ 2 (Par 2)); Do (Add 1); Do (Set_ 3 (Par 3)); Do (Add 1); Do (Loop 4 4 5); Do (SizeVar)].
(* src/events/vscp_evt_weather.c:79-88 vscp_evt_weather_sendGeneralEvent *)
Definition evt_weather_sendGeneralEvent : Sender := mkSender "vscp_evt_weather_sendGeneralEvent" 90 0 3 []
  [Do (SizeIs 0)].
(* src/events/vscp_evt_weather.c:99-118 vscp_evt_weather_sendSeasonWinter *)
Definition evt_weather_sendSeasonWinter : Sender := mkSender "vscp_evt_weather_sendSeasonWinter" 90 1 3 [("index", PInt 1); ("zone", PInt 1); ("subZone", PInt 1)]
  [Do (Set_ 0 (Par 0)); Do (Add 1); Do (Set_ 1 (Par 1)); Do (Add 1); Do (Set_ 2 (Par 2)); Do (Add 1); Do (SizeVar)].
(* src/events/vscp_evt_weather.c:129-148 vscp_evt_weather_sendSeasonSpring *)
Definition evt_weather_sendSeasonSpring : Sender := mkSender "vscp_evt_weather_sendSeasonSpring" 90 2 3 [("index", PInt 1); ("zone", PInt 1); ("subZone", PInt 1)]
  [Do (Set_ 0 (Par 0)); Do (Add 1); Do (Set_ 1 (Par 1)); Do (Add 1); Do (Set_ 2 (Par 2)); Do (Add 1); Do (SizeVar)].
(* src/events/vscp_evt_weather.c:159-178 vscp_evt_weather_sendSeasonSummer *)
Definition evt_weather_sendSeasonSummer : Sender := mkSender "vscp_evt_weather_sendSeasonSummer" 90 3 3 [("index", PInt 1); ("zone", PInt 1); ("subZone", PInt 1)]
  [Do (Set_ 0 (Par 0)); Do (Add 1); Do (Set_ 1 (Par 1)); Do (Add 1); Do (Set_ 2 (Par 2)); Do (Add 1); Do (SizeVar)].
(* src/events/vscp_evt_weather.c:189-208 vscp_evt_weather_sendAutumnSummer *)
Definition evt_weather_sendAutumnSummer : Sender := mkSender "vscp_evt_weather_sendAutumnSummer" 90 4 3 [("index", PInt 1); ("zone", PInt 1); ("subZone", PInt 1)]
  [Do (Set_ 0 (Par 0)); Do (Add 1); Do (Set_ 1 (Par 1)); Do (Add 1); Do (Set_ 2 (Par 2)); Do (Add 1); Do (SizeVar)].
(* src/events/vscp_evt_weather.c:219-238 vscp_evt_weather_sendNoWind *)
Definition evt_weather_sendNoWind : Sender := mkSender "vscp_evt_weather_sendNoWind" 90 5 3 [("index", PInt 1); ("zone", PInt 1); ("subZone", PInt 1)]
  [Do (Set_ 0 (Par 0)); Do (Add 1); Do (Set_ 1 (Par 1)); Do (Add 1); Do (Set_ 2 (Par 2)); Do (Add 1); Do (SizeVar)].
(* src/events/vscp_evt_weather.c:249-268 vscp_evt_weather_sendLowWind *)
Definition evt_weather_sendLowWind : Sender := mkSender "vscp_evt_weather_sendLowWind" 90 6 3 [("index", PInt 1); ("zone", PInt 1); ("subZone", PInt 1)]
  [Do (Set_ 0 (Par 0)); Do (Add 1); Do (Set_ 1 (Par 1)); Do (Add 1); Do (Set_ 2 (Par 2)); Do (Add 1); Do (SizeVar)].
(* src/events/vscp_evt_weather.c:279-298 vscp_evt_weather_sendMediumWind *)
Definition evt_weather_sendMediumWind : Sender := mkSender "vscp_evt_weather_sendMediumWind" 90 7 3 [("index", PInt 1); ("zone", PInt 1); ("subZone", PInt 1)]
  [Do (Set_ 0 (Par 0)); Do (Add 1); Do (Set_ 1 (Par 1)); Do (Add 1); Do (Set_ 2 (Par 2)); Do (Add 1); Do (SizeVar)].
(* src/events/vscp_evt_weather.c:309-328 vscp_evt_weather_sendHighWind *)
Definition evt_weather_sendHighWind : Sender := mkSender "vscp_evt_weather_sendHighWind" 90 8 3 [("index", PInt 1); ("zone", PInt 1); ("subZone", PInt 1)]
  [Do (Set_ 0 (Par 0)); Do (Add 1); Do (Set_ 1 (Par 1)); Do (Add 1); Do (Set_ 2 (Par 2)); Do (Add 1); Do (SizeVar)].
(* src/events/vscp_evt_weather.c:339-358 vscp_evt_weather_sendVeryHighWind *)
Definition evt_weather_sendVeryHighWind : Sender := mkSender "vscp_evt_weather_sendVeryHighWind" 90 9 3 [("index", PInt 1); ("zone", PInt 1); ("subZone", PInt 1)]
  [Do (Set_ 0 (Par 0)); Do (Add 1); Do (Set_ 1 (Par 1)); Do (Add 1); Do (Set_ 2 (Par 2)); Do (Add 1); Do (SizeVar)].
(* src/events/vscp_evt_weather.c:369-388 vscp_evt_weather_sendAirFoggy *)
Definition evt_weather_sendAirFoggy : Sender := mkSender "vscp_evt_weather_sendAirFoggy" 90 10 3 [("index", PInt 1); ("zone", PInt 1); ("subZone", PInt 1)]
  [Do (Set_ 0 (Par 0)); Do (Add 1); Do (Set_ 1 (Par 1)); Do (Add 1); Do (Set_ 2 (Par 2)); Do (Add 1); Do (SizeVar)].
(* src/events/vscp_evt_weather.c:399-418 vscp_evt_weather_sendAirFreezing *)
Definition evt_weather_sendAirFreezing : Sender := mkSender "vscp_evt_weather_sendAirFreezing" 90 11 3 [("index", PInt 1); ("zone", PInt 1); ("subZone", PInt 1)]
  [Do (Set_ 0 (Par 0)); Do (Add 1); Do (Set_ 1 (Par 1)); Do (Add 1); Do (Set_ 2 (Par 2)); Do (Add 1); Do (SizeVar)].
(* src/events/vscp_evt_weather.c:429-448 vscp_evt_weather_sendAirVeryCold *)
Definition evt_weather_sendAirVeryCold : Sender := mkSender "vscp_evt_weather_sendAirVeryCold" 90 12 3 [("index", PInt 1); ("zone", PInt 1); ("subZone", PInt 1)]
  [Do (Set_ 0 (Par 0)); Do (Add 1); Do (Set_ 1 (Par 1)); Do (Add 1); Do (Set_ 2 (Par 2)); Do (Add 1); Do (SizeVar)].
(* src/events/vscp_evt_weather.c:459-478 vscp_evt_weather_sendAirCold *)
Definition evt_weather_sendAirCold : Sender := mkSender "vscp_evt_weather_sendAirCold" 90 13 3 [("index", PInt 1); ("zone", PInt 1); ("subZone", PInt 1)]
  [Do (Set_ 0 (Par 0)); Do (Add 1); Do (Set_ 1 (Par 1)); Do (Add 1); Do (Set_ 2 (Par 2)); Do (Add 1); Do (SizeVar)].
(* src/events/vscp_evt_weather.c:489-508 vscp_evt_weather_sendAirNormal *)
Definition evt_weather_sendAirNormal : Sender := mkSender "vscp_evt_weather_sendAirNormal" 90 14 3 [("index", PInt 1); ("zone", PInt 1); ("subZone", PInt 1)]
  [Do (Set_ 0 (Par 0)); Do (Add 1); Do (Set_ 1 (Par 1)); Do (Add 1); Do (Set_ 2 (Par 2)); Do (Add 1); Do (SizeVar)].
(* src/events/vscp_evt_weather.c:519-538 vscp_evt_weather_sendAirHot *)
Definition evt_weather_sendAirHot : Sender := mkSender "vscp_evt_weather_sendAirHot" 90 15 3 [("index", PInt 1); ("zone", PInt 1); ("subZone", PInt 1)]
  [Do (Set_ 0 (Par 0)); Do (Add 1); Do (Set_ 1 (Par 1)); Do (Add 1); Do (Set_ 2 (Par 2)); Do (Add 1); Do (SizeVar)].
(* src/events/vscp_evt_weather.c:549-568 vscp_evt_weather_sendAirVeryHot *)
Definition evt_weather_sendAirVeryHot : Sender := mkSender "vscp_evt_weather_sendAirVeryHot" 90 16 3 [("index", PInt 1); ("zone", PInt 1); ("subZone", PInt 1)]
  [Do (Set_ 0 (Par 0)); Do (Add 1); Do (Set_ 1 (Par 1)); Do (Add 1); Do (Set_ 2 (Par 2)); Do (Add 1); Do (SizeVar)].
(* src/events/vscp_evt_weather.c:579-598 vscp_evt_weather_sendPollutionLow *)
Definition evt_weather_sendPollutionLow : Sender := mkSender "vscp_evt_weather_sendPollutionLow" 90 17 3 [("index", PInt 1); ("zone", PInt 1); ("subZone", PInt 1)]
  [Do (Set_ 0 (Par 0)); Do (Add 1); Do (Set_ 1 (Par 1)); Do (Add 1); Do (Set_ 2 (Par 2)); Do (Add 1); Do (SizeVar)].
(* src/events/vscp_evt_weather.c:609-628 vscp_evt_weather_sendPollutionMedium *)
Definition evt_weather_sendPollutionMedium : Sender := mkSender "vscp_evt_weather_sendPollutionMedium" 90 18 3 [("index", PInt 1); ("zone", PInt 1); ("subZone", PInt 1)]
  [Do (Set_ 0 (Par 0)); Do (Add 1); Do (Set_ 1 (Par 1)); Do (Add 1); Do (Set_ 2 (Par 2)); Do (Add 1); Do (SizeVar)].
(* src/events/vscp_evt_weather.c:639-658 vscp_evt_weather_sendPollutionHigh *)
Definition evt_weather_sendPollutionHigh : Sender := mkSender "vscp_evt_weather_sendPollutionHigh" 90 19 3 [("index", PInt 1); ("zone", PInt 1); ("subZone", PInt 1)]
  [Do (Set_ 0 (Par 0)); Do (Add 1); Do (Set_ 1 (Par 1)); Do (Add 1); Do (Set_ 2 (Par 2)); Do (Add 1); Do (SizeVar)].
(* src/events/vscp_evt_weather.c:669-688 vscp_evt_weather_sendAirHumid *)
Definition evt_weather_sendAirHumid : Sender := mkSender "vscp_evt_weather_sendAirHumid" 90 20 3 [("index", PInt 1); ("zone", PInt 1); ("subZone", PInt 1)]
  [Do (Set_ 0 (Par 0)); Do (Add 1); Do (Set_ 1 (Par 1)); Do (Add 1); Do (Set_ 2 (Par 2)); Do (Add 1); Do (SizeVar)].
(* src/events/vscp_evt_weather.c:699-718 vscp_evt_weather_sendAirDry *)
Definition evt_weather_sendAirDry : Sender := mkSender "vscp_evt_weather_sendAirDry" 90 21 3 [("index", PInt 1); ("zone", PInt 1); ("subZone", PInt 1)]
  [Do (Set_ 0 (Par 0)); Do (Add 1); Do (Set_ 1 (Par 1)); Do (Add 1); Do (Set_ 2 (Par 2)); Do (Add 1); Do (SizeVar)].
(* src/events/vscp_evt_weather.c:729-748 vscp_evt_weather_sendSoilHumid *)
Definition evt_weather_sendSoilHumid : Sender := mkSender "vscp_evt_weather_sendSoilHumid" 90 22 3 [("index", PInt 1); ("zone", PInt 1); ("subZone", PInt 1)]
  [Do (Set_ 0 (Par 0)); Do (Add 1); Do (Set_ 1 (Par 1)); Do (Add 1); Do (Set_ 2 (Par 2)); Do (Add 1); Do (SizeVar)].
(* src/events/vscp_evt_weather.c:759-778 vscp_evt_weather_sendSoilDry *)
Definition evt_weather_sendSoilDry : Sender := mkSender "vscp_evt_weather_sendSoilDry" 90 23 3 [("index", PInt 1); ("zone", PInt 1); ("subZone", PInt 1)]
  [Do (Set_ 0 (Par 0)); Do (Add 1); Do (Set_ 1 (Par 1)); Do (Add 1); Do (Set_ 2 (Par 2)); Do (Add 1); Do (SizeVar)].
(* src/events/vscp_evt_weather.c:789-808 vscp_evt_weather_sendRainNone *)
Definition evt_weather_sendRainNone : Sender := mkSender "vscp_evt_weather_sendRainNone" 90 24 3 [("index", PInt 1); ("zone", PInt 1); ("subZone", PInt 1)]
  [Do (Set_ 0 (Par 0)); Do (Add 1); Do (Set_ 1 (Par 1)); Do (Add 1); Do (Set_ 2 (Par 2)); Do (Add 1); Do (SizeVar)].
(* src/events/vscp_evt_weather.c:819-838 vscp_evt_weather_sendRainLight *)
Definition evt_weather_sendRainLight : Sender := mkSender "vscp_evt_weather_sendRainLight" 90 25 3 [("index", PInt 1); ("zone", PInt 1); ("subZone", PInt 1)]
  [Do (Set_ 0 (Par 0)); Do (Add 1); Do (Set_ 1 (Par 1)); Do (Add 1); Do (Set_ 2 (Par 2)); Do (Add 1); Do (SizeVar)].
(* src/events/vscp_evt_weather.c:849-868 vscp_evt_weather_sendRainHeavy *)
Definition evt_weather_sendRainHeavy : Sender := mkSender "vscp_evt_weather_sendRainHeavy" 90 26 3 [("index", PInt 1); ("zone", PInt 1); ("subZone", PInt 1)]
  [Do (Set_ 0 (Par 0)); Do (Add 1); Do (Set_ 1 (Par 1)); Do (Add 1); Do (Set_ 2 (Par 2)); Do (Add 1); Do (SizeVar)].
(* src/events/vscp_evt_weather.c:879-898 vscp_evt_weather_sendRainVeryHeavy *)
Definition evt_weather_sendRainVeryHeavy : Sender := mkSender "vscp_evt_weather_sendRainVeryHeavy" 90 27 3 [("index", PInt 1); ("zone", PInt 1); ("subZone", PInt 1)]
  [Do (Set_ 0 (Par 0)); Do (Add 1); Do (Set_ 1 (Par 1)); Do (Add 1); Do (Set_ 2 (Par 2)); Do (Add 1); Do (SizeVar)].
(* src/events/vscp_evt_weather.c:909-928 vscp_evt_weather_sendSunNone *)
Definition evt_weather_sendSunNone : Sender := mkSender "vscp_evt_weather_sendSunNone" 90 28 3 [("index", PInt 1); ("zone", PInt 1); ("subZone", PInt 1)]
  [Do (Set_ 0 (Par 0)); Do (Add 1); Do (Set_ 1 (Par 1)); Do (Add 1); Do (Set_ 2 (Par 2)); Do (Add 1); Do (SizeVar)].
(* src/events/vscp_evt_weather.c:939-958 vscp_evt_weather_sendSunLight *)
Definition evt_weather_sendSunLight : Sender := mkSender "vscp_evt_weather_sendSunLight" 90 29 3 [("index", PInt 1); ("zone", PInt 1); ("subZone", PInt 1)]
  [Do (Set_ 0 (Par 0)); Do (Add 1); Do (Set_ 1 (Par 1)); Do (Add 1); Do (Set_ 2 (Par 2)); Do (Add 1); Do (SizeVar)].
(* src/events/vscp_evt_weather.c:969-988 vscp_evt_weather_sendSunHeavy *)
Definition evt_weather_sendSunHeavy : Sender := mkSender "vscp_evt_weather_sendSunHeavy" 90 30 3 [("index", PInt 1); ("zone", PInt 1); ("subZone", PInt 1)]
  [Do (Set_ 0 (Par 0)); Do (Add 1); Do (Set_ 1 (Par 1)); Do (Add 1); Do (Set_ 2 (Par 2)); Do (Add 1); Do (SizeVar)].
(* src/events/vscp_evt_weather.c:999-1018 vscp_evt_weather_sendSnowNone *)
Definition evt_weather_sendSnowNone : Sender := mkSender "vscp_evt_weather_sendSnowNone" 90 31 3 [("index", PInt 1); ("zone", PInt 1); ("subZone", PInt 1)]
  [Do (Set_ 0 (Par 0)); Do (Add 1); Do (Set_ 1 (Par 1)); Do (Add 1); Do (Set_ 2 (Par 2)); Do (Add 1); Do (SizeVar)].
(* src/events/vscp_evt_weather.c:1029-1048 vscp_evt_weather_sendSnowLight *)
Definition evt_weather_sendSnowLight : Sender := mkSender "vscp_evt_weather_sendSnowLight" 90 32 3 [("index", PInt 1); ("zone", PInt 1); ("subZone", PInt 1)]
  [Do (Set_ 0 (Par 0)); Do (Add 1); Do (Set_ 1 (Par 1)); Do (Add 1); Do (Set_ 2 (Par 2)); Do (Add 1); Do (SizeVar)].
(* src/events/vscp_evt_weather.c:1059-1078 vscp_evt_weather_sendSnowHeavy *)
Definition evt_weather_sendSnowHeavy : Sender := mkSender "vscp_evt_weather_sendSnowHeavy" 90 33 3 [("index", PInt 1); ("zone", PInt 1); ("subZone", PInt 1)]
  [Do (Set_ 0 (Par 0)); Do (Add 1); Do (Set_ 1 (Par 1)); Do (Add 1); Do (Set_ 2 (Par 2)); Do (Add 1); Do (SizeVar)].
(* src/events/vscp_evt_weather.c:1089-1108 vscp_evt_weather_sendDewPoint *)
Definition evt_weather_sendDewPoint : Sender := mkSender "vscp_evt_weather_sendDewPoint" 90 34 3 [("index", PInt 1); ("zone", PInt 1); ("subZone", PInt 1)]
  [Do (Set_ 0 (Par 0)); Do (Add 1); Do (Set_ 1 (Par 1)); Do (Add 1); Do (Set_ 2 (Par 2)); Do (Add 1); Do (SizeVar)].
(* src/events/vscp_evt_weather.c:1119-1138 vscp_evt_weather_sendStorm *)
Definition evt_weather_sendStorm : Sender := mkSender "vscp_evt_weather_sendStorm" 90 35 3 [("index", PInt 1); ("zone", PInt 1); ("subZone", PInt 1)]
  [Do (Set_ 0 (Par 0)); Do (Add 1); Do (Set_ 1 (Par 1)); Do (Add 1); Do (Set_ 2 (Par 2)); Do (Add 1); Do (SizeVar)].
(* src/events/vscp_evt_weather.c:1149-1168 vscp_evt_weather_sendFlood *)
Definition evt_weather_sendFlood : Sender := mkSender "vscp_evt_weather_sendFlood" 90 36 3 [("index", PInt 1); ("zone", PInt 1); ("subZone", PInt 1)]
  [Do (Set_ 0 (Par 0)); Do (Add 1); Do (Set_ 1 (Par 1)); Do (Add 1); Do (Set_ 2 (Par 2)); Do (Add 1); Do (SizeVar)].
(* src/events/vscp_evt_weather.c:1179-1198 vscp_evt_weather_sendEarthquake *)
Definition evt_weather_sendEarthquake : Sender := mkSender "vscp_evt_weather_sendEarthquake" 90 37 3 [("index", PInt 1); ("zone", PInt 1); ("subZone", PInt 1)]
  [Do (Set_ 0 (Par 0)); Do (Add 1); Do (Set_ 1 (Par 1)); Do (Add 1); Do (Set_ 2 (Par 2)); Do (Add 1); Do (SizeVar)].
(* src/events/vscp_evt_weather.c:1209-1228 vscp_evt_weather_sendNuclearDisaster *)
Definition evt_weather_sendNuclearDisaster : Sender := mkSender "vscp_evt_weather_sendNuclearDisaster" 90 38 3 [("index", PInt 1); ("zone", PInt 1); ("subZone", PInt 1)]
  [Do (Set_ 0 (Par 0)); Do (Add 1); Do (Set_ 1 (Par 1)); Do (Add 1); Do (Set_ 2 (Par 2)); Do (Add 1); Do (SizeVar)].
(* src/events/vscp_evt_weather.c:1239-1258 vscp_evt_weather_sendFire *)
Definition evt_weather_sendFire : Sender := mkSender "vscp_evt_weather_sendFire" 90 39 3 [("index", PInt 1); ("zone", PInt 1); ("subZone", PInt 1)]
  [Do (Set_ 0 (Par 0)); Do (Add 1); Do (Set_ 1 (Par 1)); Do (Add 1); Do (Set_ 2 (Par 2)); Do (Add 1); Do (SizeVar)].
(* src/events/vscp_evt_weather.c:1269-1288 vscp_evt_weather_sendLightning *)
Definition evt_weather_sendLightning : Sender := mkSender "vscp_evt_weather_sendLightning" 90 40 3 [("index", PInt 1); ("zone", PInt 1); ("subZone", PInt 1)]
  [Do (Set_ 0 (Par 0)); Do (Add 1); Do (Set_ 1 (Par 1)); Do (Add 1); Do (Set_ 2 (Par 2)); Do (Add 1); Do (SizeVar)].
(* src/events/vscp_evt_weather.c:1299-1318 vscp_evt_weather_sendUvRadiationLow *)
Definition evt_weather_sendUvRadiationLow : Sender := mkSender "vscp_evt_weather_sendUvRadiationLow" 90 41 3 [("index", PInt 1); ("zone", PInt 1); ("subZone", PInt 1)]
  [Do (Set_ 0 (Par 0)); Do (Add 1); Do (Set_ 1 (Par 1)); Do (Add 1); Do (Set_ 2 (Par 2)); Do (Add 1); Do (SizeVar)].
(* src/events/vscp_evt_weather.c:1329-1348 vscp_evt_weather_sendUvRadiationMedium *)
Definition evt_weather_sendUvRadiationMedium : Sender := mkSender "vscp_evt_weather_sendUvRadiationMedium" 90 42 3 [("index", PInt 1); ("zone", PInt 1); ("subZone", PInt 1)]
  [Do (Set_ 0 (Par 0)); Do (Add 1); Do (Set_ 1 (Par 1)); Do (Add 1); Do (Set_ 2 (Par 2)); Do (Add 1); Do (SizeVar)].
(* src/events/vscp_evt_weather.c:1359-1378 vscp_evt_weather_sendUvRadiationNormal *)
Definition evt_weather_sendUvRadiationNormal : Sender := mkSender "vscp_evt_weather_sendUvRadiationNormal" 90 43 3 [("index", PInt 1); ("zone", PInt 1); ("subZone", PInt 1)]
  [Do (Set_ 0 (Par 0)); Do (Add 1); Do (Set_ 1 (Par 1)); Do (Add 1); Do (Set_ 2 (Par 2)); Do (Add 1); Do (SizeVar)].
(* src/events/vscp_evt_weather.c:1389-1408 vscp_evt_weather_sendUvRadiationHigh *)
Definition evt_weather_sendUvRadiationHigh : Sender := mkSender "vscp_evt_weather_sendUvRadiationHigh" 90 44 3 [("index", PInt 1); ("zone", PInt 1); ("subZone", PInt 1)]
  [Do (Set_ 0 (Par 0)); Do (Add 1); Do (Set_ 1 (Par 1)); Do (Add 1); Do (Set_ 2 (Par 2)); Do (Add 1); Do (SizeVar)].
(* src/events/vscp_evt_weather.c:1419-1438 vscp_evt_weather_sendUvRadiationVeryHigh *)
Definition evt_weather_sendUvRadiationVeryHigh : Sender := mkSender "vscp_evt_weather_sendUvRadiationVeryHigh" 90 45 3 [("index", PInt 1); ("zone", PInt 1); ("subZone", PInt 1)]
  [Do (Set_ 0 (Par 0)); Do (Add 1); Do (Set_ 1 (Par 1)); Do (Add 1); Do (Set_ 2 (Par 2)); Do (Add 1); Do (SizeVar)].
(* src/events/vscp_evt_weather.c:1449-1468 vscp_evt_weather_sendWarningLevel1 *)
Definition evt_weather_sendWarningLevel1 : Sender := mkSender "vscp_evt_weather_sendWarningLevel1" 90 46 3 [("index", PInt 1); ("zone", PInt 1); ("subZone", PInt 1)]
  [Do (Set_ 0 (Par 0)); Do (Add 1); Do (Set_ 1 (Par 1)); Do (Add 1); Do (Set_ 2 (Par 2)); Do (Add 1); Do (SizeVar)].
(* src/events/vscp_evt_weather.c:1479-1498 vscp_evt_weather_sendWarningLevel2 *)
Definition evt_weather_sendWarningLevel2 : Sender := mkSender "vscp_evt_weather_sendWarningLevel2" 90 47 3 [("index", PInt 1); ("zone", PInt 1); ("subZone", PInt 1)]
  [Do (Set_ 0 (Par 0)); Do (Add 1); Do (Set_ 1 (Par 1)); Do (Add 1); Do (Set_ 2 (Par 2)); Do (Add 1); Do (SizeVar)].
(* src/events/vscp_evt_weather.c:1509-1528 vscp_evt_weather_sendWarningLevel3 *)
Definition evt_weather_sendWarningLevel3 : Sender := mkSender "vscp_evt_weather_sendWarningLevel3" 90 48 3 [("index", PInt 1); ("zone", PInt 1); ("subZone", PInt 1)]
  [Do (Set_ 0 (Par 0)); Do (Add 1); Do (Set_ 1 (Par 1)); Do (Add 1); Do (Set_ 2 (Par 2)); Do (Add 1); Do (SizeVar)].
(* src/events/vscp_evt_weather.c:1539-1558 vscp_evt_weather_sendWarningLevel4 *)
Definition evt_weather_sendWarningLevel4 : Sender := mkSender "vscp_evt_weather_sendWarningLevel4" 90 49 3 [("index", PInt 1); ("zone", PInt 1); ("subZone", PInt 1)]
  [Do (Set_ 0 (Par 0)); Do (Add 1); Do (Set_ 1 (Par 1)); Do (Add 1); Do (Set_ 2 (Par 2)); Do (Add 1); Do (SizeVar)].
(* src/events/vscp_evt_weather.c:1569-1588 vscp_evt_weather_sendWarningLevel5 *)
Definition evt_weather_sendWarningLevel5 : Sender := mkSender "vscp_evt_weather_sendWarningLevel5" 90 50 3 [("index", PInt 1); ("zone", PInt 1); ("subZone", PInt 1)]
  [Do (Set_ 0 (Par 0)); Do (Add 1); Do (Set_ 1 (Par 1)); Do (Add 1); Do (Set_ 2 (Par 2)); Do (Add 1); Do (SizeVar)].
(* src/events/vscp_evt_weather.c:1599-1618 vscp_evt_weather_sendArmageddon *)
Definition evt_weather_sendArmageddon : Sender := mkSender "vscp_evt_weather_sendArmageddon" 90 51 3 [("index", PInt 1); ("zone", PInt 1); ("subZone", PInt 1)]
  [Do (Set_ 0 (Par 0)); Do (Add 1); Do (Set_ 1 (Par 1)); Do (Add 1); Do (Set_ 2 (Par 2)); Do (Add 1); Do (SizeVar)].
(* src/events/vscp_evt_weather.c:1630-1652 vscp_evt_weather_sendUvIndex *)
Definition evt_weather_sendUvIndex : Sender := mkSender "vscp_evt_weather_sendUvIndex" 90 52 3 [("index", PInt 1); ("zone", PInt 1); ("subZone", PInt 1); ("uvIndex", PInt 1)]
  [Do (Set_ 0 (Par 0)); Do (Add 1); Do (Set_ 1 (Par 1)); Do (Add 1); Do (Set_ 2 (Par 2)); Do (Add 1); Do (Set_ 3 (Par 3)); Do (Add 1); Do (SizeVar)].
(* src/events/vscp_evt_weather_forecast.c:79-88 vscp_evt_weather_forecast_sendGeneralEvent *)
Definition evt_weather_forecast_sendGeneralEvent : Sender := mkSender "vscp_evt_weather_forecast_sendGeneralEvent" 95 0 3 []
  [Do (SizeIs 0)].
(* src/events/vscp_evt_weather_forecast.c:99-118 vscp_evt_weather_forecast_sendSeasonWinter *)
Definition evt_weather_forecast_sendSeasonWinter : Sender := mkSender "vscp_evt_weather_forecast_sendSeasonWinter" 95 1 3 [("index", PInt 1); ("zone", PInt 1); ("subZone", PInt 1)]
  [Do (Set_ 0 (Par 0)); Do (Add 1); Do (Set_ 1 (Par 1)); Do (Add 1); Do (Set_ 2 (Par 2)); Do (Add 1); Do (SizeVar)].
(* src/events/vscp_evt_weather_forecast.c:129-148 vscp_evt_weather_forecast_sendSeasonSpring *)
Definition evt_weather_forecast_sendSeasonSpring : Sender := mkSender "vscp_evt_weather_forecast_sendSeasonSpring" 95 2 3 [("index", PInt 1); ("zone", PInt 1); ("subZone", PInt 1)]
  [Do (Set_ 0 (Par 0)); Do (Add 1); Do (Set_ 1 (Par 1)); Do (Add 1); Do (Set_ 2 (Par 2)); Do (Add 1); Do (SizeVar)].
(* src/events/vscp_evt_weather_forecast.c:159-178 vscp_evt_weather_forecast_sendSeasonSummer *)
Definition evt_weather_forecast_sendSeasonSummer : Sender := mkSender "vscp_evt_weather_forecast_sendSeasonSummer" 95 3 3 [("index", PInt 1); ("zone", PInt 1); ("subZone", PInt 1)]
  [Do (Set_ 0 (Par 0)); Do (Add 1); Do (Set_ 1 (Par 1)); Do (Add 1); Do (Set_ 2 (Par 2)); Do (Add 1); Do (SizeVar)].
(* src/events/vscp_evt_weather_forecast.c:189-208 vscp_evt_weather_forecast_sendAutumnSummer *)
Definition evt_weather_forecast_sendAutumnSummer : Sender := mkSender "vscp_evt_weather_forecast_sendAutumnSummer" 95 4 3 [("index", PInt 1); ("zone", PInt 1); ("subZone", PInt 1)]
  [Do (Set_ 0 (Par 0)); Do (Add 1); Do (Set_ 1 (Par 1)); Do (Add 1); Do (Set_ 2 (Par 2)); Do (Add 1); Do (SizeVar)].
(* src/events/vscp_evt_weather_forecast.c:219-238 vscp_evt_weather_forecast_sendNoWind *)
Definition evt_weather_forecast_sendNoWind : Sender := mkSender "vscp_evt_weather_forecast_sendNoWind" 95 5 3 [("index", PInt 1); ("zone", PInt 1); ("subZone", PInt 1)]
  [Do (Set_ 0 (Par 0)); Do (Add 1); Do (Set_ 1 (Par 1)); Do (Add 1); Do (Set_ 2 (Par 2)); Do (Add 1); Do (SizeVar)].
(* src/events/vscp_evt_weather_forecast.c:249-268 vscp_evt_weather_forecast_sendLowWind *)
Definition evt_weather_forecast_sendLowWind : Sender := mkSender "vscp_evt_weather_forecast_sendLowWind" 95 6 3 [("index", PInt 1); ("zone", PInt 1); ("subZone", PInt 1)]
  [Do (Set_ 0 (Par 0)); Do (Add 1); Do (Set_ 1 (Par 1)); Do (Add 1); Do (Set_ 2 (Par 2)); Do (Add 1); Do (SizeVar)].
(* src/events/vscp_evt_weather_forecast.c:279-298 vscp_evt_weather_forecast_sendMediumWind *)
Definition evt_weather_forecast_sendMediumWind : Sender := mkSender "vscp_evt_weather_forecast_sendMediumWind" 95 7 3 [("index", PInt 1); ("zone", PInt 1); ("subZone", PInt 1)]
  [Do (Set_ 0 (Par 0)); Do (Add 1); Do (Set_ 1 (Par 1)); Do (Add 1); Do (Set_ 2 (Par 2)); Do (Add 1); Do (SizeVar)].
(* src/events/vscp_evt_weather_forecast.c:309-328 vscp_evt_weather_forecast_sendHighWind *)
Definition evt_weather_forecast_sendHighWind : Sender := mkSender "vscp_evt_weather_forecast_sendHighWind" 95 8 3 [("index", PInt 1); ("zone", PInt 1); ("subZone", PInt 1)]
  [Do (Set_ 0 (Par 0)); Do (Add 1); Do (Set_ 1 (Par 1)); Do (Add 1); Do (Set_ 2 (Par 2)); Do (Add 1); Do (SizeVar)].
(* src/events/vscp_evt_weather_forecast.c:339-358 vscp_evt_weather_forecast_sendVeryHighWind *)
Definition evt_weather_forecast_sendVeryHighWind : Sender := mkSender "vscp_evt_weather_forecast_sendVeryHighWind" 95 9 3 [("index", PInt 1); ("zone", PInt 1); ("subZone", PInt 1)]
  [Do (Set_ 0 (Par 0)); Do (Add 1); Do (Set_ 1 (Par 1)); Do (Add 1); Do (Set_ 2 (Par 2)); Do (Add 1); Do (SizeVar)].
(* src/events/vscp_evt_weather_forecast.c:369-388 vscp_evt_weather_forecast_sendAirFoggy *)
Definition evt_weather_forecast_sendAirFoggy : Sender := mkSender "vscp_evt_weather_forecast_sendAirFoggy" 95 10 3 [("index", PInt 1); ("zone", PInt 1); ("subZone", PInt 1)]
  [Do (Set_ 0 (Par 0)); Do (Add 1); Do (Set_ 1 (Par 1)); Do (Add 1); Do (Set_ 2 (Par 2)); Do (Add 1); Do (SizeVar)].
(* src/events/vscp_evt_weather_forecast.c:399-418 vscp_evt_weather_forecast_sendAirFreezing *)
Definition evt_weather_forecast_sendAirFreezing : Sender := mkSender "vscp_evt_weather_forecast_sendAirFreezing" 95 11 3 [("index", PInt 1); ("zone", PInt 1); ("subZone", PInt 1)]
  [Do (Set_ 0 (Par 0)); Do (Add 1); Do (Set_ 1 (Par 1)); Do (Add 1); Do (Set_ 2 (Par 2)); Do (Add 1); Do (SizeVar)].
(* src/events/vscp_evt_weather_forecast.c:429-448 vscp_evt_weather_forecast_sendAirVeryCold *)
Definition evt_weather_forecast_sendAirVeryCold : Sender := mkSender "vscp_evt_weather_forecast_sendAirVeryCold" 95 12 3 [("index", PInt 1); ("zone", PInt 1); ("subZone", PInt 1)]
  [Do (Set_ 0 (Par 0)); Do (Add 1); Do (Set_ 1 (Par 1)); Do (Add 1); Do (Set_ 2 (Par 2)); Do (Add 1); Do (SizeVar)].
(* src/events/vscp_evt_weather_forecast.c:459-478 vscp_evt_weather_forecast_sendAirCold *)
Definition evt_weather_forecast_sendAirCold : Sender := mkSender "vscp_evt_weather_forecast_sendAirCold" 95 13 3 [("index", PInt 1); ("zone", PInt 1); ("subZone", PInt 1)]
  [Do (Set_ 0 (Par 0)); Do (Add 1); Do (Set_ 1 (Par 1)); Do (Add 1); Do (Set_ 2 (Par 2)); Do (Add 1); Do (SizeVar)].
(* src/events/vscp_evt_weather_forecast.c:489-508 vscp_evt_weather_forecast_sendAirNormal *)
Definition evt_weather_forecast_sendAirNormal : Sender := mkSender "vscp_evt_weather_forecast_sendAirNormal" 95 14 3 [("index", PInt 1); ("zone", PInt 1); ("subZone", PInt 1)]
  [Do (Set_ 0 (Par 0)); Do (Add 1); Do (Set_ 1 (Par 1)); Do (Add 1); Do (Set_ 2 (Par 2)); Do (Add 1); Do (SizeVar)].
(* src/events/vscp_evt_weather_forecast.c:519-538 vscp_evt_weather_forecast_sendAirHot *)
Definition evt_weather_forecast_sendAirHot : Sender := mkSender "vscp_evt_weather_forecast_sendAirHot" 95 15 3 [("index", PInt 1); ("zone", PInt 1); ("subZone", PInt 1)]
  [Do (Set_ 0 (Par 0)); Do (Add 1); Do (Set_ 1 (Par 1)); Do (Add 1); Do (Set_ 2 (Par 2)); Do (Add 1); Do (SizeVar)].
(* src/events/vscp_evt_weather_forecast.c:549-568 vscp_evt_weather_forecast_sendAirVeryHot *)
Definition evt_weather_forecast_sendAirVeryHot : Sender := mkSender "vscp_evt_weather_forecast_sendAirVeryHot" 95 16 3 [("index", PInt 1); ("zone", PInt 1); ("subZone", PInt 1)]
  [Do (Set_ 0 (Par 0)); Do (Add 1); Do (Set_ 1 (Par 1)); Do (Add 1); Do (Set_ 2 (Par 2)); Do (Add 1); Do (SizeVar)].
(* src/events/vscp_evt_weather_forecast.c:579-598 vscp_evt_weather_forecast_sendPollutionLow *)
Definition evt_weather_forecast_sendPollutionLow : Sender := mkSender "vscp_evt_weather_forecast_sendPollutionLow" 95 17 3 [("index", PInt 1); ("zone", PInt 1); ("subZone", PInt 1)]
  [Do (Set_ 0 (Par 0)); Do (Add 1); Do (Set_ 1 (Par 1)); Do (Add 1); Do (Set_ 2 (Par 2)); Do (Add 1); Do (SizeVar)].
(* src/events/vscp_evt_weather_forecast.c:609-628 vscp_evt_weather_forecast_sendPollutionMedium *)
Definition evt_weather_forecast_sendPollutionMedium : Sender := mkSender "vscp_evt_weather_forecast_sendPollutionMedium" 95 18 3 [("index", PInt 1); ("zone", PInt 1); ("subZone", PInt 1)]
  [Do (Set_ 0 (Par 0)); Do (Add 1); Do (Set_ 1 (Par 1)); Do (Add 1); Do (Set_ 2 (Par 2)); Do (Add 1); Do (SizeVar)].
(* src/events/vscp_evt_weather_forecast.c:639-658 vscp_evt_weather_forecast_sendPollutionHigh *)
Definition evt_weather_forecast_sendPollutionHigh : Sender := mkSender "vscp_evt_weather_forecast_sendPollutionHigh" 95 19 3 [("index", PInt 1); ("zone", PInt 1); ("subZone", PInt 1)]
  [Do (Set_ 0 (Par 0)); Do (Add 1); Do (Set_ 1 (Par 1)); Do (Add 1); Do (Set_ 2 (Par 2)); Do (Add 1); Do (SizeVar)].
(* src/events/vscp_evt_weather_forecast.c:669-688 vscp_evt_weather_forecast_sendAirHumid *)
Definition evt_weather_forecast_sendAirHumid : Sender := mkSender "vscp_evt_weather_forecast_sendAirHumid" 95 20 3 [("index", PInt 1); ("zone", PInt 1); ("subZone", PInt 1)]
  [Do (Set_ 0 (Par 0)); Do (Add 1); Do (Set_ 1 (Par 1)); Do (Add 1); Do (Set_ 2 (Par 2)); Do (Add 1); Do (SizeVar)].
(* src/events/vscp_evt_weather_forecast.c:699-718 vscp_evt_weather_forecast_sendAirDry *)
Definition evt_weather_forecast_sendAirDry : Sender := mkSender "vscp_evt_weather_forecast_sendAirDry" 95 21 3 [("index", PInt 1); ("zone", PInt 1); ("subZone", PInt 1)]
  [Do (Set_ 0 (Par 0)); Do (Add 1); Do (Set_ 1 (Par 1)); Do (Add 1); Do (Set_ 2 (Par 2)); Do (Add 1); Do (SizeVar)].
(* src/events/vscp_evt_weather_forecast.c:729-748 vscp_evt_weather_forecast_sendSoilHumid *)
Definition evt_weather_forecast_sendSoilHumid : Sender := mkSender "vscp_evt_weather_forecast_sendSoilHumid" 95 22 3 [("index", PInt 1); ("zone", PInt 1); ("subZone", PInt 1)]
  [Do (Set_ 0 (Par 0)); Do (Add 1); Do (Set_ 1 (Par 1)); Do (Add 1); Do (Set_ 2 (Par 2)); Do (Add 1); Do (SizeVar)].
(* src/events/vscp_evt_weather_forecast.c:759-778 vscp_evt_weather_forecast_sendSoilDry *)
Definition evt_weather_forecast_sendSoilDry : Sender := mkSender "vscp_evt_weather_forecast_sendSoilDry" 95 23 3 [("index", PInt 1); ("zone", PInt 1); ("subZone", PInt 1)]
  [Do (Set_ 0 (Par 0)); Do (Add 1); Do (Set_ 1 (Par 1)); Do (Add 1); Do (Set_ 2 (Par 2)); Do (Add 1); Do (SizeVar)].
(* src/events/vscp_evt_weather_forecast.c:789-808 vscp_evt_weather_forecast_sendRainNone *)
Definition evt_weather_forecast_sendRainNone : Sender := mkSender "vscp_evt_weather_forecast_sendRainNone" 95 24 3 [("index", PInt 1); ("zone", PInt 1); ("subZone", PInt 1)]
  [Do (Set_ 0 (Par 0)); Do (Add 1); Do (Set_ 1 (Par 1)); Do (Add 1); Do (Set_ 2 (Par 2)); Do (Add 1); Do (SizeVar)].
(* src/events/vscp_evt_weather_forecast.c:819-838 vscp_evt_weather_forecast_sendRainLight *)
Definition evt_weather_forecast_sendRainLight : Sender := mkSender "vscp_evt_weather_forecast_sendRainLight" 95 25 3 [("index", PInt 1); ("zone", PInt 1); ("subZone", PInt 1)]
  [Do (Set_ 0 (Par 0)); Do (Add 1); Do (Set_ 1 (Par 1)); Do (Add 1); Do (Set_ 2 (Par 2)); Do (Add 1); Do (SizeVar)].
(* src/events/vscp_evt_weather_forecast.c:849-868 vscp_evt_weather_forecast_sendRainHeavy *)
Definition evt_weather_forecast_sendRainHeavy : Sender := mkSender "vscp_evt_weather_forecast_sendRainHeavy" 95 26 3 [("index", PInt 1); ("zone", PInt 1); ("subZone", PInt 1)]
  [Do (Set_ 0 (Par 0)); Do (Add 1); Do (Set_ 1 (Par 1)); Do (Add 1); Do (Set_ 2 (Par 2)); Do (Add 1); Do (SizeVar)].
(* src/events/vscp_evt_weather_forecast.c:879-898 vscp_evt_weather_forecast_sendRainVeryHeavy *)
Definition evt_weather_forecast_sendRainVeryHeavy : Sender := mkSender "vscp_evt_weather_forecast_sendRainVeryHeavy" 95 27 3 [("index", PInt 1); ("zone", PInt 1); ("subZone", PInt 1)]
  [Do (Set_ 0 (Par 0)); Do (Add 1); Do (Set_ 1 (Par 1)); Do (Add 1); Do (Set_ 2 (Par 2)); Do (Add 1); Do (SizeVar)].
(* src/events/vscp_evt_weather_forecast.c:909-928 vscp_evt_weather_forecast_sendSunNone *)
Definition evt_weather_forecast_sendSunNone : Sender := mkSender "vscp_evt_weather_forecast_sendSunNone" 95 28 3 [("index", PInt 1); ("zone", PInt 1); ("subZone", PInt 1)]
  [Do (Set_ 0 (Par 0)); Do (Add 1); Do (Set_ 1 (Par 1)); Do (Add 1); Do (Set_ 2 (Par 2)); Do (Add 1); Do (SizeVar)].
(* src/events/vscp_evt_weather_forecast.c:939-958 vscp_evt_weather_forecast_sendSunLight *)
Definition evt_weather_forecast_sendSunLight : Sender := mkSender "vscp_evt_weather_forecast_sendSunLight" 95 29 3 [("index", PInt 1); ("zone", PInt 1); ("subZone", PInt 1)]
  [Do (Set_ 0 (Par 0)); Do (Add 1); Do (Set_ 1 (Par 1)); Do (Add 1); Do (Set_ 2 (Par 2)); Do (Add 1); Do (SizeVar)].
(* src/events/vscp_evt_weather_forecast.c:969-988 vscp_evt_weather_forecast_sendSunHeavy *)
Definition evt_weather_forecast_sendSunHeavy : Sender := mkSender "vscp_evt_weather_forecast_sendSunHeavy" 95 30 3 [("index", PInt 1); ("zone", PInt 1); ("subZone", PInt 1)]
  [Do (Set_ 0 (Par 0)); Do (Add 1); Do (Set_ 1 (Par 1)); Do (Add 1); Do (Set_ 2 (Par 2)); Do (Add 1); Do (SizeVar)].
(* src/events/vscp_evt_weather_forecast.c:999-1018 vscp_evt_weather_forecast_sendSnowNone *)
Definition evt_weather_forecast_sendSnowNone : Sender := mkSender "vscp_evt_weather_forecast_sendSnowNone" 95 31 3 [("index", PInt 1); ("zone", PInt 1); ("subZone", PInt 1)]
  [Do (Set_ 0 (Par 0)); Do (Add 1); Do (Set_ 1 (Par 1)); Do (Add 1); Do (Set_ 2 (Par 2)); Do (Add 1); Do (SizeVar)].
(* src/events/vscp_evt_weather_forecast.c:1029-1048 vscp_evt_weather_forecast_sendSnowLight *)
Definition evt_weather_forecast_sendSnowLight : Sender := mkSender "vscp_evt_weather_forecast_sendSnowLight" 95 32 3 [("index", PInt 1); ("zone", PInt 1); ("subZone", PInt 1)]
  [Do (Set_ 0 (Par 0)); Do (Add 1); Do (Set_ 1 (Par 1)); Do (Add 1); Do (Set_ 2 (Par 2)); Do (Add 1); Do (SizeVar)].
(* src/events/vscp_evt_weather_forecast.c:1059-1078 vscp_evt_weather_forecast_sendSnowHeavy *)
Definition evt_weather_forecast_sendSnowHeavy : Sender := mkSender "vscp_evt_weather_forecast_sendSnowHeavy" 95 33 3 [("index", PInt 1); ("zone", PInt 1); ("subZone", PInt 1)]
  [Do (Set_ 0 (Par 0)); Do (Add 1); Do (Set_ 1 (Par 1)); Do (Add 1); Do (Set_ 2 (Par 2)); Do (Add 1); Do (SizeVar)].
(* src/events/vscp_evt_weather_forecast.c:1089-1108 vscp_evt_weather_forecast_sendDewPoint *)
Definition evt_weather_forecast_sendDewPoint : Sender := mkSender "vscp_evt_weather_forecast_sendDewPoint" 95 34 3 [("index", PInt 1); ("zone", PInt 1); ("subZone", PInt 1)]
  [Do (Set_ 0 (Par 0)); Do (Add 1); Do (Set_ 1 (Par 1)); Do (Add 1); Do (Set_ 2 (Par 2)); Do (Add 1); Do (SizeVar)].
(* src/events/vscp_evt_weather_forecast.c:1119-1138 vscp_evt_weather_forecast_sendStorm *)
Definition evt_weather_forecast_sendStorm : Sender := mkSender "vscp_evt_weather_forecast_sendStorm" 95 35 3 [("index", PInt 1); ("zone", PInt 1); ("subZone", PInt 1)]
  [Do (Set_ 0 (Par 0)); Do (Add 1); Do (Set_ 1 (Par 1)); Do (Add 1); Do (Set_ 2 (Par 2)); Do (Add 1); Do (SizeVar)].
(* src/events/vscp_evt_weather_forecast.c:1149-1168 vscp_evt_weather_forecast_sendFlood *)
Definition evt_weather_forecast_sendFlood : Sender := mkSender "vscp_evt_weather_forecast_sendFlood" 95 36 3 [("index", PInt 1); ("zone", PInt 1); ("subZone", PInt 1)]
  [Do (Set_ 0 (Par 0)); Do (Add 1); Do (Set_ 1 (Par 1)); Do (Add 1); Do (Set_ 2 (Par 2)); Do (Add 1); Do (SizeVar)].
(* src/events/vscp_evt_weather_forecast.c:1179-1198 vscp_evt_weather_forecast_sendEarthquake *)
Definition evt_weather_forecast_sendEarthquake : Sender := mkSender "vscp_evt_weather_forecast_sendEarthquake" 95 37 3 [("index", PInt 1); ("zone", PInt 1); ("subZone", PInt 1)]
  [Do (Set_ 0 (Par 0)); Do (Add 1); Do (Set_ 1 (Par 1)); Do (Add 1); Do (Set_ 2 (Par 2)); Do (Add 1); Do (SizeVar)].
(* src/events/vscp_evt_weather_forecast.c:1209-1228 vscp_evt_weather_forecast_sendNuclearDisaster *)
Definition evt_weather_forecast_sendNuclearDisaster : Sender := mkSender "vscp_evt_weather_forecast_sendNuclearDisaster" 95 38 3 [("index", PInt 1); ("zone", PInt 1); ("subZone", PInt 1)]
  [Do (Set_ 0 (Par 0)); Do (Add 1); Do (Set_ 1 (Par 1)); Do (Add 1); Do (Set_ 2 (Par 2)); Do (Add 1); Do (SizeVar)].
(* src/events/vscp_evt_weather_forecast.c:1239-1258 vscp_evt_weather_forecast_sendFire *)
Definition evt_weather_forecast_sendFire : Sender := mkSender "vscp_evt_weather_forecast_sendFire" 95 39 3 [("index", PInt 1); ("zone", PInt 1); ("subZone", PInt 1)]
  [Do (Set_ 0 (Par 0)); Do (Add 1); Do (Set_ 1 (Par 1)); Do (Add 1); Do (Set_ 2 (Par 2)); Do (Add 1); Do (SizeVar)].
(* src/events/vscp_evt_weather_forecast.c:1269-1288 vscp_evt_weather_forecast_sendLightning *)
Definition evt_weather_forecast_sendLightning : Sender := mkSender "vscp_evt_weather_forecast_sendLightning" 95 40 3 [("index", PInt 1); ("zone", PInt 1); ("subZone", PInt 1)]
  [Do (Set_ 0 (Par 0)); Do (Add 1); Do (Set_ 1 (Par 1)); Do (Add 1); Do (Set_ 2 (Par 2)); Do (Add 1); Do (SizeVar)].
(* src/events/vscp_evt_weather_forecast.c:1299-1318 vscp_evt_weather_forecast_sendUvRadiationLow *)
Definition evt_weather_forecast_sendUvRadiationLow : Sender := mkSender "vscp_evt_weather_forecast_sendUvRadiationLow" 95 41 3 [("index", PInt 1); ("zone", PInt 1); ("subZone", PInt 1)]
  [Do (Set_ 0 (Par 0)); Do (Add 1); Do (Set_ 1 (Par 1)); Do (Add 1); Do (Set_ 2 (Par 2)); Do (Add 1); Do (SizeVar)].
(* src/events/vscp_evt_weather_forecast.c:1329-1348 vscp_evt_weather_forecast_sendUvRadiationMedium *)
Definition evt_weather_forecast_sendUvRadiationMedium : Sender := mkSender "vscp_evt_weather_forecast_sendUvRadiationMedium" 95 42 3 [("index", PInt 1); ("zone", PInt 1); ("subZone", PInt 1)]
  [Do (Set_ 0 (Par 0)); Do (Add 1); Do (Set_ 1 (Par 1)); Do (Add 1); Do (Set_ 2 (Par 2)); Do (Add 1); Do (SizeVar)].
(* src/events/vscp_evt_weather_forecast.c:1359-1378 vscp_evt_weather_forecast_sendUvRadiationNormal *)
Definition evt_weather_forecast_sendUvRadiationNormal : Sender := mkSender "vscp_evt_weather_forecast_sendUvRadiationNormal" 95 43 3 [("index", PInt 1); ("zone", PInt 1); ("subZone", PInt 1)]
  [Do (Set_ 0 (Par 0)); Do (Add 1); Do (Set_ 1 (Par 1)); Do (Add 1); Do (Set_ 2 (Par 2)); Do (Add 1); Do (SizeVar)].
(* src/events/vscp_evt_weather_forecast.c:1389-1408 vscp_evt_weather_forecast_sendUvRadiationHigh *)
Definition evt_weather_forecast_sendUvRadiationHigh : Sender := mkSender "vscp_evt_weather_forecast_sendUvRadiationHigh" 95 44 3 [("index", PInt 1); ("zone", PInt 1); ("subZone", PInt 1)]
  [Do (Set_ 0 (Par 0)); Do (Add 1); Do (Set_ 1 (Par 1)); Do (Add 1); Do (Set_ 2 (Par 2)); Do (Add 1); Do (SizeVar)].
(* src/events/vscp_evt_weather_forecast.c:1419-1438 vscp_evt_weather_forecast_sendUvRadiationVeryHigh *)
Definition evt_weather_forecast_sendUvRadiationVeryHigh : Sender := mkSender "vscp_evt_weather_forecast_sendUvRadiationVeryHigh" 95 45 3 [("index", PInt 1); ("zone", PInt 1); ("subZone", PInt 1)]
  [Do (Set_ 0 (Par 0)); Do (Add 1); Do (Set_ 1 (Par 1)); Do (Add 1); Do (Set_ 2 (Par 2)); Do (Add 1); Do (SizeVar)].
(* src/events/vscp_evt_weather_forecast.c:1449-1468 vscp_evt_weather_forecast_sendWarningLevel1 *)
Definition evt_weather_forecast_sendWarningLevel1 : Sender := mkSender "vscp_evt_weather_forecast_sendWarningLevel1" 95 46 3 [("index", PInt 1); ("zone", PInt 1); ("subZone", PInt 1)]
  [Do (Set_ 0 (Par 0)); Do (Add 1); Do (Set_ 1 (Par 1)); Do (Add 1); Do (Set_ 2 (Par 2)); Do (Add 1); Do (SizeVar)].
(* src/events/vscp_evt_weather_forecast.c:1479-1498 vscp_evt_weather_forecast_sendWarningLevel2 *)
Definition evt_weather_forecast_sendWarningLevel2 : Sender := mkSender "vscp_evt_weather_forecast_sendWarningLevel2" 95 47 3 [("index", PInt 1); ("zone", PInt 1); ("subZone", PInt 1)]
  [Do (Set_ 0 (Par 0)); Do (Add 1); Do (Set_ 1 (Par 1)); Do (Add 1); Do (Set_ 2 (Par 2)); Do (Add 1); Do (SizeVar)].
(* src/events/vscp_evt_weather_forecast.c:1509-1528 vscp_evt_weather_forecast_sendWarningLevel3 *)
Definition evt_weather_forecast_sendWarningLevel3 : Sender := mkSender "vscp_evt_weather_forecast_sendWarningLevel3" 95 48 3 [("index", PInt 1); ("zone", PInt 1); ("subZone", PInt 1)]
  [Do (Set_ 0 (Par 0)); Do (Add 1); Do (Set_ 1 (Par 1)); Do (Add 1); Do (Set_ 2 (Par 2)); Do (Add 1); Do (SizeVar)].
(* src/events/vscp_evt_weather_forecast.c:1539-1558 vscp_evt_weather_forecast_sendWarningLevel4 *)
Definition evt_weather_forecast_sendWarningLevel4 : Sender := mkSender "vscp_evt_weather_forecast_sendWarningLevel4" 95 49 3 [("index", PInt 1); ("zone", PInt 1); ("subZone", PInt 1)]
  [Do (Set_ 0 (Par 0)); Do (Add 1); Do (Set_ 1 (Par 1)); Do (Add 1); Do (Set_ 2 (Par 2)); Do (Add 1); Do (SizeVar)].
(* src/events/vscp_evt_weather_forecast.c:1569-1588 vscp_evt_weather_forecast_sendWarningLevel5 *)
Definition evt_weather_forecast_sendWarningLevel5 : Sender := mkSender "vscp_evt_weather_forecast_sendWarningLevel5" 95 50 3 [("index", PInt 1); ("zone", PInt 1); ("subZone", PInt 1)]
  [Do (Set_ 0 (Par 0)); Do (Add 1); Do (Set_ 1 (Par 1)); Do (Add 1); Do (Set_ 2 (Par 2)); Do (Add 1); Do (SizeVar)].
(* src/events/vscp_evt_weather_forecast.c:1599-1618 vscp_evt_weather_forecast_sendArmageddon *)
Definition evt_weather_forecast_sendArmageddon : Sender := mkSender "vscp_evt_weather_forecast_sendArmageddon" 95 51 3 [("index", PInt 1); ("zone", PInt 1); ("subZone", PInt 1)]
  [Do (Set_ 0 (Par 0)); Do (Add 1); Do (Set_ 1 (Par 1)); Do (Add 1); Do (Set_ 2 (Par 2)); Do (Add 1); Do (SizeVar)].
(* src/events/vscp_evt_weather_forecast.c:1630-1652 vscp_evt_weather_forecast_sendUvIndex *)
Definition evt_weather_forecast_sendUvIndex : Sender := mkSender "vscp_evt_weather_forecast_sendUvIndex" 95 52 3 [("index", PInt 1); ("zone", PInt 1); ("subZone", PInt 1); ("uvIndex", PInt 1)]
  [Do (Set_ 0 (Par 0)); Do (Add 1); Do (Set_ 1 (Par 1)); Do (Add 1); Do (Set_ 2 (Par 2)); Do (Add 1); Do (Set_ 3 (Par 3)); Do (Add 1); Do (SizeVar)].
(* src/events/vscp_evt_wireless.c:79-88 vscp_evt_wireless_sendGeneralEvent *)
Definition evt_wireless_sendGeneralEvent : Sender := mkSender "vscp_evt_wireless_sendGeneralEvent" 212 0 3 []
  [Do (SizeIs 0)].
(* src/events/vscp_evt_wireless.c:97-113 vscp_evt_wireless_sendGsmCell *)
Definition evt_wireless_sendGsmCell : Sender := mkSender "vscp_evt_wireless_sendGsmCell" 212 1 3 [("count", PInt 4)]
  [Do (Set_ 0 (Shift 0 24)); Do (Set_ 1 (Shift 0 16)); Do (Set_ 2 (Shift 0 8)); Do (Set_ 3 (Shift 0 0)); Do (Add 4); Do (SizeVar)].
(* all functions of src/events/vscp_evt_alarm.c *)
Definition events_alarm : list Sender := [evt_alarm_sendGeneralEvent; evt_alarm_sendWarning; evt_alarm_sendAlarmOccurred; evt_alarm_sendAlarmSoundOnOff; evt_alarm_sendAlarmLightOnOff; evt_alarm_sendPowerOnOff; evt_alarm_sendEmergencyStop; evt_alarm_sendEmergencyPause; evt_alarm_sendEmergencyReset; evt_alarm_sendEmergencyResume; evt_alarm_sendArm; evt_alarm_sendDisarm; evt_alarm_sendWatchdog; evt_alarm_sendAlarmReset].
(* all functions of src/events/vscp_evt_aol.c *)
Definition events_aol : list Sender := [evt_aol_sendGeneralEvent; evt_aol_sendSystemUnpluggedFromPowerSource; evt_aol_sendSystemUnpluggedFromNetwork; evt_aol_sendChassisIntrusion; evt_aol_sendProcessorRemoval; evt_aol_sendSystemEnvironmentalErrors; evt_aol_sendHighTemperature; evt_aol_sendFanSpeedProblem; evt_aol_sendVoltageFluctuations; evt_aol_sendOperatingSystemErrors; evt_aol_sendSystemPowerOnError; evt_aol_sendSystemIsHung; evt_aol_sendComponentFailure; evt_aol_sendRemoteSystemRebootUponReportOfACriticalFailure; evt_aol_sendRepairOperatingSystem; evt_aol_sendUpdateBiosImage; evt_aol_sendUpdatePerformOtherDiagnosticProcedures].
(* all functions of src/events/vscp_evt_configuration.c *)
Definition events_configuration : list Sender := [evt_configuration_sendGeneralEvent; evt_configuration_sendLoadConfiguration; evt_configuration_sendLoadConfigurationAcknowledge; evt_configuration_sendLoadConfigurationNegativeAcknowledge; evt_configuration_sendSaveConfiguration; evt_configuration_sendSaveConfigurationAcknowledge; evt_configuration_sendSaveConfigurationNegativeAcknowledge; evt_configuration_sendCommitConfiguration; evt_configuration_sendCommitConfigurationAcknowledge; evt_configuration_sendCommitConfigurationNegativeAcknowledge; evt_configuration_sendReloadConfiguration; evt_configuration_sendReloadConfigurationAcknowledge; evt_configuration_sendReloadConfigurationNegativeAcknowledge; evt_configuration_sendRestoreConfiguration; evt_configuration_sendRestoreConfigurationAcknowledge; evt_configuration_sendRestoreConfigurationNegativeAcknowledge; evt_configuration_sendSetParameter; evt_configuration_sendSetParameterToDefault; evt_configuration_sendSetParameterAcknowledge; evt_configuration_sendSetParamterNegativeAcknowledge].
(* all functions of src/events/vscp_evt_control.c *)
Definition events_control : list Sender := [evt_control_sendGeneralEvent; evt_control_sendMuteOnOff; evt_control_sendAllLampSOnOff; evt_control_sendOpen; evt_control_sendClose; evt_control_sendTurnon; evt_control_sendTurnoff; evt_control_sendStart; evt_control_sendStop; evt_control_sendReset; evt_control_sendInterrupt; evt_control_sendSleep; evt_control_sendWakeup; evt_control_sendResume; evt_control_sendPause; evt_control_sendActivate; evt_control_sendDeactivate; evt_control_sendDimLampS; evt_control_sendChangeChannel; evt_control_sendChangeLevel; evt_control_sendRelativeChangeLevel; evt_control_sendMeasurementRequest; evt_control_sendStreamData; evt_control_sendSync; evt_control_sendZonedStreamData; evt_control_sendSetPreSet; evt_control_sendToggleState; evt_control_sendTimedPulseOn; evt_control_sendTimedPulseOff; evt_control_sendSetCountryLanguage; evt_control_sendBigChangeLevel; evt_control_sendMoveShutterUp; evt_control_sendMoveShutterDown; evt_control_sendMoveShutterLeft; evt_control_sendMoveShutterRight; evt_control_sendMoveShutterToMiddlePosition; evt_control_sendMoveShutterToPresetPosition; evt_control_sendAllLampSOn; evt_control_sendAllLampSOff; evt_control_sendLock; evt_control_sendUnlock; evt_control_sendPwmSet; evt_control_sendLockWithToken; evt_control_sendUnlockWithToken; evt_control_sendSetSecurityLevel; evt_control_sendSetSecurityPin; evt_control_sendSetSecurityPassword; evt_control_sendSetSecurityToken; evt_control_sendRequestNewSecurityToken; evt_control_sendIncrement; evt_control_sendDecrement].
(* all functions of src/events/vscp_evt_data.c *)
Definition events_data : list Sender := [evt_data_sendGeneralEvent; evt_data_sendIOValue; evt_data_sendADValue; evt_data_sendDAValue; evt_data_sendRelativeStrength; evt_data_sendSignalLevel; evt_data_sendSignalQuality].
(* all functions of src/events/vscp_evt_diagnostic.c *)
Definition events_diagnostic : list Sender := [evt_diagnostic_sendGeneralEvent; evt_diagnostic_sendOvervoltage; evt_diagnostic_sendUndervoltage; evt_diagnostic_sendUsbVbusLow; evt_diagnostic_sendBatteryVoltageLow; evt_diagnostic_sendBatteryFullVoltage; evt_diagnostic_sendBatteryError; evt_diagnostic_sendBatteryOk; evt_diagnostic_sendOverCurrent; evt_diagnostic_sendCircuitError; evt_diagnostic_sendShortCircuit; evt_diagnostic_sendOpenCircuit; evt_diagnostic_sendMoist; evt_diagnostic_sendWireFailure; evt_diagnostic_sendWirelessFaliure; evt_diagnostic_sendIrFailure; evt_diagnostic_send1WireFailure; evt_diagnostic_sendRs222Failure; evt_diagnostic_sendRs232Failure; evt_diagnostic_sendRs423Failure; evt_diagnostic_sendRs485Failure; evt_diagnostic_sendCanFailure; evt_diagnostic_sendLanFailure; evt_diagnostic_sendUsbFailure; evt_diagnostic_sendWifiFailure; evt_diagnostic_sendNfcRfidFailure; evt_diagnostic_sendLowSignal; evt_diagnostic_sendHighSignal; evt_diagnostic_sendAdcFailure; evt_diagnostic_sendAluFailure; evt_diagnostic_sendAssert; evt_diagnostic_sendDacFailure; evt_diagnostic_sendDmaFailure; evt_diagnostic_sendEthernetFailure; evt_diagnostic_sendException; evt_diagnostic_sendFpuFailure; evt_diagnostic_sendGpioFailure; evt_diagnostic_sendI2cFailure; evt_diagnostic_sendI2sFailure; evt_diagnostic_sendInvalidConfiguration; evt_diagnostic_sendMmuFailure; evt_diagnostic_sendNmiFailure; evt_diagnostic_sendOverheat; evt_diagnostic_sendPllFail; evt_diagnostic_sendPorFailure; evt_diagnostic_sendPwmFailure; evt_diagnostic_sendRamFailure; evt_diagnostic_sendRomFailure; evt_diagnostic_sendSpiFailure; evt_diagnostic_sendStackFailure; evt_diagnostic_sendLinBusFailure; evt_diagnostic_sendUartFailure; evt_diagnostic_sendUnhandledInterrupt; evt_diagnostic_sendMemoryFailure; evt_diagnostic_sendVariableRangeFailure; evt_diagnostic_sendWdtFailure; evt_diagnostic_sendEepromFailure; evt_diagnostic_sendEncryptionFailure; evt_diagnostic_sendBadUserInputFailure; evt_diagnostic_sendDecryptionFailure; evt_diagnostic_sendNoise; evt_diagnostic_sendBootLoaderFailure; evt_diagnostic_sendProgramFlowFailure; evt_diagnostic_sendRtcFaiure; evt_diagnostic_sendSystemTestFailure; evt_diagnostic_sendSensorFailure; evt_diagnostic_sendSafeStateEntered; evt_diagnostic_sendSignalImplausible; evt_diagnostic_sendStorageFail; evt_diagnostic_sendSelfTestOk; evt_diagnostic_sendEsdEmcEmiFailure; evt_diagnostic_sendTimeout; evt_diagnostic_sendLcdFailure; evt_diagnostic_sendTouchPanelFailure; evt_diagnostic_sendNoLoad; evt_diagnostic_sendCoolingFailure; evt_diagnostic_sendHeatingFailure; evt_diagnostic_sendTransmissionFailure; evt_diagnostic_sendReceiptionFailure; evt_diagnostic_sendExternalIcFailure; evt_diagnostic_sendChargingOn; evt_diagnostic_sendChargingOff].
(* all functions of src/events/vscp_evt_display.c *)
Definition events_display : list Sender := [evt_display_sendGeneralEvent; evt_display_sendClearDisplay; evt_display_sendPositionCursor; evt_display_sendWriteDisplay; evt_display_sendWriteDisplayBuffer; evt_display_sendShowDisplayBuffer; evt_display_sendSetDisplayBufferParameter; evt_display_sendShowText; evt_display_sendSetLed; evt_display_sendSetRgbColor].
(* all functions of src/events/vscp_evt_error.c *)
Definition events_error : list Sender := [evt_error_sendSuccess; evt_error_sendError; evt_error_sendChannelError; evt_error_sendFifoEmptyError; evt_error_sendFifoFullError; evt_error_sendFifoSizeError; evt_error_sendFifoWaitError; evt_error_sendGenericError; evt_error_sendHardwareError; evt_error_sendInitializationError; evt_error_sendMissingInitializationError; evt_error_sendInitializationReady; evt_error_sendNotSupported; evt_error_sendOverrunError; evt_error_sendReceiverEmptyError; evt_error_sendRegisterError; evt_error_sendTransmitterFullError; evt_error_sendLibraryError; evt_error_sendProceduralAddressError; evt_error_sendOnlyOneInstanceError; evt_error_sendSubDriverError; evt_error_sendTimeoutError; evt_error_sendNotOpenError; evt_error_sendParameterError; evt_error_sendMemoryError; evt_error_sendInternalError; evt_error_sendCommunicationError; evt_error_sendUserError; evt_error_sendPasswordError; evt_error_sendConnectionError; evt_error_sendInvalidHandleError; evt_error_sendOperationFailedError; evt_error_sendSuppliedBufferIsToSmallToFitContent; evt_error_sendRequestedItemIsUnknown; evt_error_sendNameIsAlreadyInUse; evt_error_sendErrorWhenWritingData; evt_error_sendOperationStoppedOrAborted; evt_error_sendPointerWithInvalidValue].
(* all functions of src/events/vscp_evt_gnss.c *)
Definition events_gnss : list Sender := [evt_gnss_sendGeneralEvent; evt_gnss_sendPosition; evt_gnss_sendSatellites].
(* all functions of src/events/vscp_evt_information.c *)
Definition events_information : list Sender := [evt_information_sendGeneralEvent; evt_information_sendButton; evt_information_sendMouse; evt_information_sendOn; evt_information_sendOff; evt_information_sendAlive; evt_information_sendTerminating; evt_information_sendOpened; evt_information_sendClosed; evt_information_sendNodeHeartbeat; evt_information_sendBelowLimit; evt_information_sendAboveLimit; evt_information_sendPulse; evt_information_sendError; evt_information_sendResumed; evt_information_sendPaused; evt_information_sendSleeping; evt_information_sendGoodMorning; evt_information_sendGoodDay; evt_information_sendGoodAfternoon; evt_information_sendGoodEvening; evt_information_sendGoodNight; evt_information_sendSeeYouSoon; evt_information_sendGoodbye; evt_information_sendStop; evt_information_sendStart; evt_information_sendResetcompleted; evt_information_sendInterrupted; evt_information_sendPreparingtosleep; evt_information_sendWokenup; evt_information_sendDusk; evt_information_sendDawn; evt_information_sendActive; evt_information_sendInactive; evt_information_sendBusy; evt_information_sendIdle; evt_information_sendStreamData; evt_information_sendTokenActivity; evt_information_sendStreamDataWithZone; evt_information_sendConfirm; evt_information_sendLevelChanged; evt_information_sendWarning; evt_information_sendState; evt_information_sendActionTrigger; evt_information_sendSunrise; evt_information_sendSunset; evt_information_sendStartOfRecord; evt_information_sendEndOfRecord; evt_information_sendPreSetActive; evt_information_sendDetect; evt_information_sendOverflow; evt_information_sendBigLevelChanged; evt_information_sendCivilSunriseTwilightTime; evt_information_sendCivilSunsetTwilightTime; evt_information_sendNauticalSunriseTwilightTime; evt_information_sendNauticalSunsetTwilightTime; evt_information_sendAstronomicalSunriseTwilightTime; evt_information_sendAstronomicalSunsetTwilightTime; evt_information_sendCalculatedNoon; evt_information_sendShutterUp; evt_information_sendShutterDown; evt_information_sendShutterLeft; evt_information_sendShutterRight; evt_information_sendShutterReachedTopEnd; evt_information_sendShutterReachedBottomEnd; evt_information_sendShutterReachedMiddleEnd; evt_information_sendShutterReachedPresetEnd; evt_information_sendShutterReachedPresetLeft; evt_information_sendShutterReachedPresetRight; evt_information_sendLongClick; evt_information_sendSingleClick; evt_information_sendDoubleClick; evt_information_sendDate; evt_information_sendTime; evt_information_sendWeekday; evt_information_sendLock; evt_information_sendUnlock; evt_information_sendDatetime; evt_information_sendRising; evt_information_sendFalling; evt_information_sendUpdated; evt_information_sendConnect; evt_information_sendDisconnect; evt_information_sendReconnect; evt_information_sendEnter; evt_information_sendExit; evt_information_sendIncremented; evt_information_sendDecremented; evt_information_sendProximityDetected].
(* all functions of src/events/vscp_evt_ir.c *)
Definition events_ir : list Sender := [evt_ir_sendGeneralEvent; evt_ir_sendRc5SendReceive; evt_ir_sendSony12BitSendReceive; evt_ir_sendLircLinuxInfraredRemoteControl; evt_ir_sendVscpAbstractRemoteFormat; evt_ir_sendMapitoRemoteFormat].
(* all functions of src/events/vscp_evt_log.c *)
Definition events_log : list Sender := [evt_log_sendGeneralEvent; evt_log_sendLogEvent; evt_log_sendLogStart; evt_log_sendLogStop; evt_log_sendLogLevel].
(* all functions of src/events/vscp_evt_measurement.c *)
Definition events_measurement : list Sender := [evt_measurement_sendGeneralEvent; evt_measurement_sendCount; evt_measurement_sendLengthDistance; evt_measurement_sendMass; evt_measurement_sendTime; evt_measurement_sendElectricCurrent; evt_measurement_sendTemperature; evt_measurement_sendAmountOfSubstance; evt_measurement_sendLuminousIntensityIntensityOfLight; evt_measurement_sendFrequency; evt_measurement_sendRadioactivityAndOtherRandomEvents; evt_measurement_sendForce; evt_measurement_sendPressure; evt_measurement_sendEnergy; evt_measurement_sendPower; evt_measurement_sendElectricalCharge; evt_measurement_sendElectricalPotentialVoltage; evt_measurement_sendElectricalCapacitance; evt_measurement_sendElectricalResistance; evt_measurement_sendElectricalConductance; evt_measurement_sendMagneticFieldStrength; evt_measurement_sendMagneticFlux; evt_measurement_sendMagneticFluxDensity; evt_measurement_sendInductance; evt_measurement_sendLuminousFlux; evt_measurement_sendIlluminance; evt_measurement_sendRadiationDose; evt_measurement_sendCatalyticActivity; evt_measurement_sendVolume; evt_measurement_sendSoundIntensity; evt_measurement_sendAngleDirectionOrSimilar; evt_measurement_sendPositionWgs84; evt_measurement_sendSpeed; evt_measurement_sendAcceleration; evt_measurement_sendTension; evt_measurement_sendDampMoistHygrometerReading; evt_measurement_sendFlow; evt_measurement_sendThermalResistance; evt_measurement_sendRefractiveOpticalPower; evt_measurement_sendDynamicViscosity; evt_measurement_sendSoundImpedance; evt_measurement_sendSoundResistance; evt_measurement_sendElectricElastance; evt_measurement_sendLuminousEnergy; evt_measurement_sendLuminance; evt_measurement_sendChemicalConcentration; evt_measurement_sendDoseEquivalent; evt_measurement_sendDewPoint; evt_measurement_sendRelativeLevel; evt_measurement_sendAltitude; evt_measurement_sendArea; evt_measurement_sendRadiantIntensity; evt_measurement_sendRadiance; evt_measurement_sendIrradianceExitanceRadiosity; evt_measurement_sendSpectralRadiance; evt_measurement_sendSpectralIrradiance; evt_measurement_sendSoundPressureAcousticPressure; evt_measurement_sendSoundEnergyDensity; evt_measurement_sendSoundLevel; evt_measurement_sendRadiationDoseEquivalent; evt_measurement_sendRadiationDoseExposure; evt_measurement_sendPowerFactor; evt_measurement_sendReactivePower; evt_measurement_sendReactiveEnergy].
(* all functions of src/events/vscp_evt_measurement32.c *)
Definition events_measurement32 : list Sender := [evt_measurement32_sendGeneralEvent; evt_measurement32_sendCount; evt_measurement32_sendLengthDistance; evt_measurement32_sendMass; evt_measurement32_sendTime; evt_measurement32_sendElectricCurrent; evt_measurement32_sendTemperature; evt_measurement32_sendAmountOfSubstance; evt_measurement32_sendLuminousIntensityIntensityOfLight; evt_measurement32_sendFrequency; evt_measurement32_sendRadioactivityAndOtherRandomEvents; evt_measurement32_sendForce; evt_measurement32_sendPressure; evt_measurement32_sendEnergy; evt_measurement32_sendPower; evt_measurement32_sendElectricalCharge; evt_measurement32_sendElectricalPotentialVoltage; evt_measurement32_sendElectricalCapacitance; evt_measurement32_sendElectricalResistance; evt_measurement32_sendElectricalConductance; evt_measurement32_sendMagneticFieldStrength; evt_measurement32_sendMagneticFlux; evt_measurement32_sendMagneticFluxDensity; evt_measurement32_sendInductance; evt_measurement32_sendLuminousFlux; evt_measurement32_sendIlluminance; evt_measurement32_sendRadiationDose; evt_measurement32_sendCatalyticActivity; evt_measurement32_sendVolume; evt_measurement32_sendSoundIntensity; evt_measurement32_sendAngle; evt_measurement32_sendPositionWgs84; evt_measurement32_sendSpeed; evt_measurement32_sendAcceleration; evt_measurement32_sendTension; evt_measurement32_sendDampMoistHygrometerReading; evt_measurement32_sendFlow; evt_measurement32_sendThermalResistance; evt_measurement32_sendRefractiveOpticalPower; evt_measurement32_sendDynamicViscosity; evt_measurement32_sendSoundImpedance; evt_measurement32_sendSoundResistance; evt_measurement32_sendElectricElastance; evt_measurement32_sendLuminousEnergy; evt_measurement32_sendLuminance; evt_measurement32_sendChemicalConcentration; evt_measurement32_sendDoseEquivalent; evt_measurement32_sendDewPoint; evt_measurement32_sendRelativeLevel; evt_measurement32_sendAltitude; evt_measurement32_sendArea; evt_measurement32_sendRadiantIntensity; evt_measurement32_sendRadiance; evt_measurement32_sendIrradianceExitanceRadiosity; evt_measurement32_sendSpectralRadiance; evt_measurement32_sendSpectralIrradiance; evt_measurement32_sendSoundPressureAcousticPressure; evt_measurement32_sendSoundEnergyDensity; evt_measurement32_sendSoundLevel; evt_measurement32_sendRadiationDoseEquivalent; evt_measurement32_sendRadiationDoseExposure; evt_measurement32_sendPowerFactor; evt_measurement32_sendReactivePower; evt_measurement32_sendReactiveEnergy].
(* all functions of src/events/vscp_evt_measurement64.c *)
Definition events_measurement64 : list Sender := [evt_measurement64_sendGeneralEvent; evt_measurement64_sendCount; evt_measurement64_sendLengthDistance; evt_measurement64_sendMass; evt_measurement64_sendTime; evt_measurement64_sendElectricCurrent; evt_measurement64_sendTemperature; evt_measurement64_sendAmountOfSubstance; evt_measurement64_sendLuminousIntensityIntensityOfLight; evt_measurement64_sendFrequency; evt_measurement64_sendRadioactivityAndOtherRandomEvents; evt_measurement64_sendForce; evt_measurement64_sendPressure; evt_measurement64_sendEnergy; evt_measurement64_sendPower; evt_measurement64_sendElectricalCharge; evt_measurement64_sendElectricalPotentialVoltage; evt_measurement64_sendElectricalCapacitance; evt_measurement64_sendElectricalResistance; evt_measurement64_sendElectricalConductance; evt_measurement64_sendMagneticFieldStrength; evt_measurement64_sendMagneticFlux; evt_measurement64_sendMagneticFluxDensity; evt_measurement64_sendInductance; evt_measurement64_sendLuminousFlux; evt_measurement64_sendIlluminance; evt_measurement64_sendRadiationDose; evt_measurement64_sendCatalyticActivity; evt_measurement64_sendVolume; evt_measurement64_sendSoundIntensity; evt_measurement64_sendAngle; evt_measurement64_sendPositionWgs84; evt_measurement64_sendSpeed; evt_measurement64_sendAcceleration; evt_measurement64_sendTension; evt_measurement64_sendDampMoistHygrometerReading; evt_measurement64_sendFlow; evt_measurement64_sendThermalResistance; evt_measurement64_sendRefractiveOpticalPower; evt_measurement64_sendDynamicViscosity; evt_measurement64_sendSoundImpedance; evt_measurement64_sendSoundResistance; evt_measurement64_sendElectricElastance; evt_measurement64_sendLuminousEnergy; evt_measurement64_sendLuminance; evt_measurement64_sendChemicalConcentration; evt_measurement64_sendDoseEquivalent; evt_measurement64_sendDewPoint; evt_measurement64_sendRelativeLevel; evt_measurement64_sendAltitude; evt_measurement64_sendArea; evt_measurement64_sendRadiantIntensity; evt_measurement64_sendRadiance; evt_measurement64_sendIrradianceExitanceRadiosity; evt_measurement64_sendSpectralRadiance; evt_measurement64_sendSpectralIrradiance; evt_measurement64_sendSoundPressureAcousticPressure; evt_measurement64_sendSoundEnergyDensity; evt_measurement64_sendSoundLevel; evt_measurement64_sendRadiationDoseEquivalent; evt_measurement64_sendRadiationDoseExposure; evt_measurement64_sendPowerFactor; evt_measurement64_sendReactivePower; evt_measurement64_sendReactiveEnergy].
(* all functions of src/events/vscp_evt_measurezone.c *)
Definition events_measurezone : list Sender := [evt_measurezone_sendGeneralEvent; evt_measurezone_sendCount; evt_measurezone_sendLengthDistance; evt_measurezone_sendMass; evt_measurezone_sendTime; evt_measurezone_sendElectricCurrent; evt_measurezone_sendTemperature; evt_measurezone_sendAmountOfSubstance; evt_measurezone_sendLuminousIntensityIntensityOfLight; evt_measurezone_sendFrequency; evt_measurezone_sendRadioactivityAndOtherRandomEvents; evt_measurezone_sendForce; evt_measurezone_sendPressure; evt_measurezone_sendEnergy; evt_measurezone_sendPower; evt_measurezone_sendElectricalCharge; evt_measurezone_sendElectricalPotentialVoltage; evt_measurezone_sendElectricalCapacitance; evt_measurezone_sendElectricalResistance; evt_measurezone_sendElectricalConductance; evt_measurezone_sendMagneticFieldStrength; evt_measurezone_sendMagneticFlux; evt_measurezone_sendMagneticFluxDensity; evt_measurezone_sendInductance; evt_measurezone_sendLuminousFlux; evt_measurezone_sendIlluminance; evt_measurezone_sendRadiationDose; evt_measurezone_sendCatalyticActivity; evt_measurezone_sendVolume; evt_measurezone_sendSoundIntensity; evt_measurezone_sendAngle; evt_measurezone_sendPositionWgs84; evt_measurezone_sendSpeed; evt_measurezone_sendAcceleration; evt_measurezone_sendTension; evt_measurezone_sendDampMoistHygrometerReading; evt_measurezone_sendFlow; evt_measurezone_sendThermalResistance; evt_measurezone_sendRefractiveOpticalPower; evt_measurezone_sendDynamicViscosity; evt_measurezone_sendSoundImpedance; evt_measurezone_sendSoundResistance; evt_measurezone_sendElectricElastance; evt_measurezone_sendLuminousEnergy; evt_measurezone_sendLuminance; evt_measurezone_sendChemicalConcentration; evt_measurezone_sendDoseEquivalent; evt_measurezone_sendDewPoint; evt_measurezone_sendRelativeLevel; evt_measurezone_sendAltitude; evt_measurezone_sendArea; evt_measurezone_sendRadiantIntensity; evt_measurezone_sendRadiance; evt_measurezone_sendIrradianceExitanceRadiosity; evt_measurezone_sendSpectralRadiance; evt_measurezone_sendSpectralIrradiance; evt_measurezone_sendSoundPressureAcousticPressure; evt_measurezone_sendSoundEnergyDensity; evt_measurezone_sendSoundLevel; evt_measurezone_sendRadiationDoseEquivalent; evt_measurezone_sendRadiationDoseExposure; evt_measurezone_sendPowerFactor; evt_measurezone_sendReactivePower; evt_measurezone_sendReactiveEnergy].
(* all functions of src/events/vscp_evt_multimedia.c *)
Definition events_multimedia : list Sender := [evt_multimedia_sendGeneralEvent; evt_multimedia_sendPlayback; evt_multimedia_sendNavigatorkeyEnglish; evt_multimedia_sendAdjustContrast; evt_multimedia_sendAdjustFocus; evt_multimedia_sendAdjustTint; evt_multimedia_sendAdjustColorBalance; evt_multimedia_sendAdjustBrightness; evt_multimedia_sendAdjustHue; evt_multimedia_sendAdjustBass; evt_multimedia_sendAdjustTreble; evt_multimedia_sendAdjustMasterVolume; evt_multimedia_sendAdjustFrontVolume; evt_multimedia_sendAdjustCenterVolume; evt_multimedia_sendAdjustRearVolume; evt_multimedia_sendAdjustSideVolume; evt_multimedia_sendSelectDisk; evt_multimedia_sendSelectTrack; evt_multimedia_sendSelectAlbumPlayList; evt_multimedia_sendSelectChannel; evt_multimedia_sendSelectPage; evt_multimedia_sendSelectChapter; evt_multimedia_sendSelectScreenFormat; evt_multimedia_sendSelectInputSource; evt_multimedia_sendSelectOutput; evt_multimedia_sendRecord; evt_multimedia_sendSetRecordingVolume; evt_multimedia_sendTivoFunction; evt_multimedia_sendGetCurrentTitle; evt_multimedia_sendSetMediaPositionInMilliseconds; evt_multimedia_sendGetMediaInformation; evt_multimedia_sendRemoveItemFromAlbum; evt_multimedia_sendRemoveAllItemsFromAlbum; evt_multimedia_sendSaveAlbumPlayList; evt_multimedia_sendMultimediaControl].
(* all functions of src/events/vscp_evt_phone.c *)
Definition events_phone : list Sender := [evt_phone_sendGeneralEvent; evt_phone_sendIncomingCall; evt_phone_sendOutgoingCall; evt_phone_sendRing; evt_phone_sendAnswer; evt_phone_sendHangup; evt_phone_sendGiveup; evt_phone_sendTransfer; evt_phone_sendDatabaseInfo].
(* all functions of src/events/vscp_evt_protocol.c *)
Definition events_protocol : list Sender := [evt_protocol_sendGeneralEvent; evt_protocol_sendSegmentControllerHeartbeat; evt_protocol_sendNewNodeOnLineProbe; evt_protocol_sendProbeAck; evt_protocol_sendSetNicknameIdForNode; evt_protocol_sendNicknameIdAccepted; evt_protocol_sendDropNicknameIdResetDevice; evt_protocol_sendReadRegister; evt_protocol_sendReadWriteResponse; evt_protocol_sendWriteRegister; evt_protocol_sendEnterBootLoaderMode; evt_protocol_sendAckBootLoaderMode; evt_protocol_sendNackBootLoaderMode; evt_protocol_sendStartBlockDataTransfer; evt_protocol_sendBlockData; evt_protocol_sendAckDataBlock; evt_protocol_sendNackDataBlock; evt_protocol_sendProgramDataBlock; evt_protocol_sendAckProgramDataBlock; evt_protocol_sendNackProgramDataBlock; evt_protocol_sendActivateNewImage; evt_protocol_sendPageRead; evt_protocol_sendPageWrite; evt_protocol_sendReadWritePageResponse; evt_protocol_sendHighEndServerServiceProbe; evt_protocol_sendHighEndServerServiceResponse; evt_protocol_sendIncrementRegister; evt_protocol_sendDecrementRegister; evt_protocol_sendWhoIsThere; evt_protocol_sendGetDecisionMatrixInfo; evt_protocol_sendDecisionMatrixInfoResponse; evt_protocol_sendGetEmbeddedMdf; evt_protocol_sendEmbeddedMdfResponse; evt_protocol_sendExtendedPageReadRegister; evt_protocol_sendExtendedPageWriteRegister; evt_protocol_sendExtendedPageReadWriteResponse; evt_protocol_sendGetEventInterest; evt_protocol_sendGetEventInterestResponse; evt_protocol_sendActivateNewImageAck; evt_protocol_sendActivateNewImageNack; evt_protocol_sendBlockDataTransferAck; evt_protocol_sendBlockDataTransferNack].
(* all functions of src/events/vscp_evt_security.c *)
Definition events_security : list Sender := [evt_security_sendGeneralEvent; evt_security_sendMotionDetect; evt_security_sendGlassBreak; evt_security_sendBeamBreak; evt_security_sendSensorTamper; evt_security_sendShockSensor; evt_security_sendSmokeSensor; evt_security_sendHeatSensor; evt_security_sendPanicSwitch; evt_security_sendDoorContact; evt_security_sendWindowContact; evt_security_sendCoSensor; evt_security_sendFrostDetected; evt_security_sendFlameDetected; evt_security_sendOxygenLow; evt_security_sendWeightDetected; evt_security_sendWaterDetected; evt_security_sendCondensationDetected; evt_security_sendNoiseSoundDetected; evt_security_sendHarmfulSoundLevelsDetected; evt_security_sendTamperDetected; evt_security_sendAuthenticated; evt_security_sendUnauthenticated; evt_security_sendAuthorized; evt_security_sendUnauthorized; evt_security_sendIdCheck; evt_security_sendValidPin; evt_security_sendInvalidPin; evt_security_sendPinWarning; evt_security_sendPinError; evt_security_sendValidPassword; evt_security_sendInvalidPassword; evt_security_sendPasswordWarning; evt_security_sendPasswordError; evt_security_sendGas; evt_security_sendInMotion; evt_security_sendNotInMotion; evt_security_sendVibration].
(* all functions of src/events/vscp_evt_setvaluezone.c *)
Definition events_setvaluezone : list Sender := [evt_setvaluezone_sendGeneralEvent; evt_setvaluezone_sendCount; evt_setvaluezone_sendLengthDistance; evt_setvaluezone_sendMass; evt_setvaluezone_sendTime; evt_setvaluezone_sendElectricCurrent; evt_setvaluezone_sendTemperature; evt_setvaluezone_sendAmountOfSubstance; evt_setvaluezone_sendLuminousIntensityIntensityOfLight; evt_setvaluezone_sendFrequency; evt_setvaluezone_sendRadioactivityAndOtherRandomEvents; evt_setvaluezone_sendForce; evt_setvaluezone_sendPressure; evt_setvaluezone_sendEnergy; evt_setvaluezone_sendPower; evt_setvaluezone_sendElectricalCharge; evt_setvaluezone_sendElectricalPotentialVoltage; evt_setvaluezone_sendElectricalCapacitance; evt_setvaluezone_sendElectricalResistance; evt_setvaluezone_sendElectricalConductance; evt_setvaluezone_sendMagneticFieldStrength; evt_setvaluezone_sendMagneticFlux; evt_setvaluezone_sendMagneticFluxDensity; evt_setvaluezone_sendInductance; evt_setvaluezone_sendLuminousFlux; evt_setvaluezone_sendIlluminance; evt_setvaluezone_sendRadiationDose; evt_setvaluezone_sendCatalyticActivity; evt_setvaluezone_sendVolume; evt_setvaluezone_sendSoundIntensity; evt_setvaluezone_sendAngle; evt_setvaluezone_sendPositionWgs84; evt_setvaluezone_sendSpeed; evt_setvaluezone_sendAcceleration; evt_setvaluezone_sendTension; evt_setvaluezone_sendDampMoistHygrometerReading; evt_setvaluezone_sendFlow; evt_setvaluezone_sendThermalResistance; evt_setvaluezone_sendRefractiveOpticalPower; evt_setvaluezone_sendDynamicViscosity; evt_setvaluezone_sendSoundImpedance; evt_setvaluezone_sendSoundResistance; evt_setvaluezone_sendElectricElastance; evt_setvaluezone_sendLuminousEnergy; evt_setvaluezone_sendLuminance; evt_setvaluezone_sendChemicalConcentration; evt_setvaluezone_sendDoseEquivalent; evt_setvaluezone_sendDewPoint; evt_setvaluezone_sendRelativeLevel; evt_setvaluezone_sendAltitude; evt_setvaluezone_sendArea; evt_setvaluezone_sendRadiantIntensity; evt_setvaluezone_sendRadiance; evt_setvaluezone_sendIrradianceExitanceRadiosity; evt_setvaluezone_sendSpectralRadiance; evt_setvaluezone_sendSpectralIrradiance; evt_setvaluezone_sendSoundPressureAcousticPressure; evt_setvaluezone_sendSoundEnergyDensity; evt_setvaluezone_sendSoundLevel].
(* all functions of src/events/vscp_evt_weather.c *)
Definition events_weather : list Sender := [evt_weather_sendGeneralEvent; evt_weather_sendSeasonWinter; evt_weather_sendSeasonSpring; evt_weather_sendSeasonSummer; evt_weather_sendAutumnSummer; evt_weather_sendNoWind; evt_weather_sendLowWind; evt_weather_sendMediumWind; evt_weather_sendHighWind; evt_weather_sendVeryHighWind; evt_weather_sendAirFoggy; evt_weather_sendAirFreezing; evt_weather_sendAirVeryCold; evt_weather_sendAirCold; evt_weather_sendAirNormal; evt_weather_sendAirHot; evt_weather_sendAirVeryHot; evt_weather_sendPollutionLow; evt_weather_sendPollutionMedium; evt_weather_sendPollutionHigh; evt_weather_sendAirHumid; evt_weather_sendAirDry; evt_weather_sendSoilHumid; evt_weather_sendSoilDry; evt_weather_sendRainNone; evt_weather_sendRainLight; evt_weather_sendRainHeavy; evt_weather_sendRainVeryHeavy; evt_weather_sendSunNone; evt_weather_sendSunLight; evt_weather_sendSunHeavy; evt_weather_sendSnowNone; evt_weather_sendSnowLight; evt_weather_sendSnowHeavy; evt_weather_sendDewPoint; evt_weather_sendStorm; evt_weather_sendFlood; evt_weather_sendEarthquake; evt_weather_sendNuclearDisaster; evt_weather_sendFire; evt_weather_sendLightning; evt_weather_sendUvRadiationLow; evt_weather_sendUvRadiationMedium; evt_weather_sendUvRadiationNormal; evt_weather_sendUvRadiationHigh; evt_weather_sendUvRadiationVeryHigh; evt_weather_sendWarningLevel1; evt_weather_sendWarningLevel2; evt_weather_sendWarningLevel3; evt_weather_sendWarningLevel4; evt_weather_sendWarningLevel5; evt_weather_sendArmageddon; evt_weather_sendUvIndex].
(* all functions of src/events/vscp_evt_weather_forecast.c *)
Definition events_weather_forecast : list Sender := [evt_weather_forecast_sendGeneralEvent; evt_weather_forecast_sendSeasonWinter; evt_weather_forecast_sendSeasonSpring; evt_weather_forecast_sendSeasonSummer; evt_weather_forecast_sendAutumnSummer; evt_weather_forecast_sendNoWind; evt_weather_forecast_sendLowWind; evt_weather_forecast_sendMediumWind; evt_weather_forecast_sendHighWind; evt_weather_forecast_sendVeryHighWind; evt_weather_forecast_sendAirFoggy; evt_weather_forecast_sendAirFreezing; evt_weather_forecast_sendAirVeryCold; evt_weather_forecast_sendAirCold; evt_weather_forecast_sendAirNormal; evt_weather_forecast_sendAirHot; evt_weather_forecast_sendAirVeryHot; evt_weather_forecast_sendPollutionLow; evt_weather_forecast_sendPollutionMedium; evt_weather_forecast_sendPollutionHigh; evt_weather_forecast_sendAirHumid; evt_weather_forecast_sendAirDry; evt_weather_forecast_sendSoilHumid; evt_weather_forecast_sendSoilDry; evt_weather_forecast_sendRainNone; evt_weather_forecast_sendRainLight; evt_weather_forecast_sendRainHeavy; evt_weather_forecast_sendRainVeryHeavy; evt_weather_forecast_sendSunNone; evt_weather_forecast_sendSunLight; evt_weather_forecast_sendSunHeavy; evt_weather_forecast_sendSnowNone; evt_weather_forecast_sendSnowLight; evt_weather_forecast_sendSnowHeavy; evt_weather_forecast_sendDewPoint; evt_weather_forecast_sendStorm; evt_weather_forecast_sendFlood; evt_weather_forecast_sendEarthquake; evt_weather_forecast_sendNuclearDisaster; evt_weather_forecast_sendFire; evt_weather_forecast_sendLightning; evt_weather_forecast_sendUvRadiationLow; evt_weather_forecast_sendUvRadiationMedium; evt_weather_forecast_sendUvRadiationNormal; evt_weather_forecast_sendUvRadiationHigh; evt_weather_forecast_sendUvRadiationVeryHigh; evt_weather_forecast_sendWarningLevel1; evt_weather_forecast_sendWarningLevel2; evt_weather_forecast_sendWarningLevel3; evt_weather_forecast_sendWarningLevel4; evt_weather_forecast_sendWarningLevel5; evt_weather_forecast_sendArmageddon; evt_weather_forecast_sendUvIndex].
(* all functions of src/events/vscp_evt_wireless.c *)
Definition events_wireless : list Sender := [evt_wireless_sendGeneralEvent; evt_wireless_sendGsmCell].
(* all functions of src/events *)
Definition eventModules : list (list Sender) := [events_alarm; events_aol; events_configuration; events_control; events_data; events_diagnostic; events_display; events_error; events_gnss; events_information; events_ir; events_log; events_measurement; events_measurement32; events_measurement64; events_measurezone; events_multimedia; events_phone; events_protocol; events_security; events_setvaluezone; events_weather; events_weather_forecast; events_wireless]%list.
Definition eventTable : list Sender := concat eventModules.
