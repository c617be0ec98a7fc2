-Q theories Verif
theories/Base.v
theories/Types.v
theories/Config.v
theories/Util.v
theories/DataCoding.v
theories/Timer.v
theories/World.v
theories/PS.v
theories/DevData.v
theories/Transport.v
theories/Logger.v
theories/DM.v
theories/DMNG.v
theories/Core.v
theories/Hoare.v
theories/Spec_Node.v
theories/Fixture.v
theories/Spec_Util.v
theories/Proof_Util.v
theories/Spec_Zone.v
theories/Proof_Zone.v
theories/Prop_Util.v
theories/Spec_DataCoding.v
theories/Proof_DataCoding.v
theories/Prop_DataCoding.v
theories/Spec_Timer.v
theories/Proof_Timer.v
theories/Prop_Timer.v
theories/Inv.v
theories/Spec_PS.v
theories/Proof_PS.v
theories/Frame.v
theories/Proof_Restore.v
theories/Proof_Init.v
theories/Prop_PS.v
theories/Proof_DevData.v
theories/Prop_DevData.v
theories/Spec_DM.v
theories/Traverse.v
theories/Proof_Process.v
theories/Proof_DM.v
theories/Prop_DM.v
theories/Spec_Regs.v
theories/Reach.v
theories/Proof_Regs.v
theories/Proof_Paged.v
theories/Prop_Regs.v
theories/Spec_NG.v
theories/Proof_NG.v
theories/Proof_NGP.v
theories/Prop_NG.v
theories/Spec_Transport.v
theories/Proof_Transport.v
theories/Prop_Transport.v
theories/Proof_Logger.v
theories/Prop_Logger.v
theories/Spec_Request.v
theories/Proof_Request.v
theories/Proof_Serve.v
theories/Proof_RW.v
theories/FixtureReq.v
theories/Prop_Request.v
theories/Spec_Proto.v
theories/Proof_Proto.v
theories/Prop_Proto.v
theories/Proof_Drop.v
theories/Prop_Drop.v
theories/Senders.v
theories/Spec_States.v
theories/Proof_States.v
theories/Proof_Disc.v
theories/Proof_Disc2.v
theories/Proof_Disc3.v
theories/Proof_Disc4.v
theories/Proof_Timers.v
theories/Own.v
theories/Spec_Reset.v
theories/Proof_Reset.v
theories/Prop_States.v
theories/Prop_Reset.v
theories/Proof_TimersInit.v
theories/Spec_Timing.v
theories/Proof_Heartbeat.v
theories/Proof_Epoch.v
theories/Prop_Timing.v
theories/Spec_Frames.v
theories/Proof_Frames.v
theories/Prop_Frames.v
theories/Spec_Bound.v
theories/Proof_Bound.v
theories/Prop_Bound.v
theories/Spec_Protect.v
theories/Proof_Protect.v
theories/Prop_Protect.v
theories/Spec_Alarm.v
theories/Proof_Alarm.v
theories/Prop_Alarm.v
theories/Spec_Guid.v
theories/Proof_GuidSeq.v
theories/Proof_Guid.v
theories/Prop_Guid.v
theories/Spec_Page.v
theories/Proof_Page.v
theories/Prop_Page.v
theories/Spec_Ext.v
theories/Proof_Ext.v
theories/Proof_ExtRun.v
theories/Prop_Ext.v
theories/Spec_FactoryReg.v
theories/Proof_FactoryReg.v
theories/Prop_FactoryReg.v
theories/Spec_Segment.v
theories/Proof_Segment.v
theories/FixtureSeg.v
theories/Prop_Segment.v
theories/Events.v
theories/EventTable.v
theories/Spec_Events.v
theories/Proof_Events.v
theories/Prop_Events.v
theories/Prop_Constants.v
theories/CanAvr.v
theories/Spec_CanAvr.v
theories/Proof_CanAvr.v
theories/Prop_CanAvr.v
theories/CanArm.v
theories/Spec_CanArm.v
theories/Proof_CanArm.v
theories/Prop_CanArm.v
theories/SwTimer.v
theories/Spec_SwTimer.v
theories/Proof_SwTimer.v
theories/Prop_SwTimer.v
theories/SysTime.v
theories/Spec_SysTime.v
theories/Proof_SysTime.v
theories/Prop_SysTime.v
theories/SerialDrv.v
theories/Spec_SerialDrv.v
theories/Proof_SerialDrv.v
theories/Prop_SerialDrv.v
theories/EepromArm.v
theories/Spec_EepromArm.v
theories/Proof_EepromArm.v
theories/Prop_EepromArm.v
theories/MainLoop.v
theories/Spec_MainLoop.v
theories/Proof_MainLoop.v
theories/Prop_MainLoop.v
theories/Walk.v
theories/Spec_Lamp.v
theories/Proof_Lamp.v
theories/Prop_Lamp.v
theories/ExampleAvr.v
theories/Spec_ExampleAvr.v
theories/Proof_ExampleAvr.v
theories/Prop_ExampleAvr.v
theories/Spec_Turns.v
theories/Proof_Quiet.v
theories/Proof_Turns.v
theories/Prop_Turns.v
theories/TimerDrv.v
theories/Spec_TimerDrv.v
theories/Proof_TimerDrv.v
theories/Prop_TimerDrv.v
theories/AvrMain.v
theories/Spec_AvrMain.v
theories/Proof_AvrMain.v
theories/Prop_AvrMain.v
theories/Spec_HbRun.v
theories/Proof_HbRun.v
theories/Prop_HbRun.v
theories/Proof_AvrHb.v
theories/Prop_AvrHb.v
theories/ArmMain.v
theories/Spec_ArmMain.v
theories/Proof_ArmMain.v
theories/Prop_ArmMain.v
theories/Proof_ArmHb.v
theories/Prop_ArmHb.v
theories/Prop_AvrLed.v
