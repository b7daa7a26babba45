-Q theories Verif
theories/Base.v
theories/PyStr.v
theories/Types.v
theories/BaseFacts.v
theories/ConfigModel.v
theories/SpecConfig.v
theories/ConfigProofs.v
theories/P_Config.v
theories/Prog.v
theories/World.v
theories/Replies.v
theories/CmdModel.v
theories/KetchupModel.v
theories/TomatoModel.v
theories/ProgFacts.v
theories/WorldFacts.v
theories/SpecCmd.v
theories/CmdProofs.v
theories/ExWorld.v
theories/P_Cmd.v
theories/SpecQueue.v
theories/KetchupProofs.v
theories/P_Queue.v
theories/SpecPip.v
theories/PipCmdProofs.v
theories/P_Pip.v
theories/JobModel.v
theories/PipModel.v
theories/SpecJob.v
theories/MatchProofs.v
theories/JobProofs.v
theories/SuperProofs.v
theories/P_JobFacts.v
theories/P_Job.v
theories/DrvModel.v
theories/SysModel.v
theories/RGFacts.v
theories/SysOps.v
theories/SpecSys.v
theories/RGX.v
theories/SysProofs.v
theories/SysProofs2.v
theories/SysProofs3.v
theories/SysPlay.v
theories/P_Sys.v
theories/SysProofs4.v
theories/SysProofs5.v
theories/SysProofs6.v
theories/SpecDrv.v
theories/DrvProofs.v
theories/MatchProofs2.v
theories/PassProofs.v
theories/P_Sys2.v
theories/P_Drv.v
theories/LppModel.v
theories/LppProofs.v
theories/DaemonModel.v
theories/SpecMsg.v
theories/DaemonProofs.v
theories/P_Msg.v
theories/AttrModel.v
theories/SpecAttr.v
theories/AttrProofs.v
theories/P_Attr.v
theories/IfaceModel.v
theories/SpecIface.v
theories/IfaceProofs.v
theories/IfaceProofs2.v
theories/IfaceProofs3.v
theories/IfaceProofs4.v
theories/P_Iface.v
theories/DeviceModel.v
theories/SpecDevice.v
theories/DeviceProofs.v
theories/DeviceProofs2.v
theories/DeviceProofs3.v
theories/Device20Model.v
theories/Device20Proofs.v
theories/P_Device.v
theories/JobThreadModel.v
theories/SpecWorker.v
theories/JobThreadProofs.v
theories/JobThreadProofs2.v
theories/JobThreadProofs3.v
theories/P_Worker.v
theories/IoModel.v
theories/SpecIo.v
theories/IoProofs.v
theories/P_Io.v
theories/PassataModel.v
theories/P_Passata.v
theories/TableModel.v
theories/SpecTable.v
theories/P_Table.v
theories/SetupModel.v
theories/SetupProofs.v
theories/P_Setup.v
theories/SpecSys2.v
theories/RGY.v
theories/SysProofs7.v
theories/SysProofs8.v
theories/SysProofs9.v
theories/P_SysJob.v
theories/SysProofs10.v
theories/SysProofs11.v
theories/P_Sys3.v
theories/StatusModel.v
theories/SpecStatus.v
theories/StatusProofs.v
theories/P_Status.v
theories/CliModel.v
theories/SpecCli.v
theories/CliProofs.v
theories/CliProofs2.v
theories/CliProofs3.v
theories/P_Cli.v
theories/P_Iface2.v
theories/DeviceProofs4.v
theories/P_Device2.v
theories/SpecDevice20.v
theories/Device20Proofs2.v
theories/StartModel.v
theories/SpecStart.v
theories/StartProofs.v
theories/P_Start.v
theories/CrateModel.v
theories/SpecCrate.v
theories/CrateProofs.v
theories/P_Crate.v
theories/SpecTime.v
theories/SysProofs12.v
theories/SysProofs13.v
theories/P_Time.v
theories/SpecStuck.v
theories/SysProofs14.v
theories/P_Dead.v
theories/RunModel.v
theories/SpecRun.v
theories/RunProofs.v
theories/RunProofs2.v
theories/P_Run.v
theories/RunProofs3.v
theories/AttrProofs2.v
theories/SpecSetup.v
theories/IfaceProofs5.v
theories/P_Iface3.v
theories/SpecQuit.v
theories/SysProofs15.v
theories/P_Quit.v
theories/CmdProofs2.v
theories/P_Port.v
theories/P_Archive.v
theories/SysProofs16.v
theories/PassProofs2.v
theories/P_Pass.v
theories/PassProofs3.v
theories/SpecBoot.v
theories/SysProofs17.v
theories/P_Boot.v
theories/SpecDie.v
theories/IfaceProofs6.v
theories/P_Iface4.v
theories/SpecAlive.v
theories/AliveProofs.v
theories/P_Alive.v
theories/RunProofs4.v
theories/SpecCancel.v
theories/KetchupProofs2.v
theories/StatusProofs2.v
theories/SysProofs18.v
theories/IfaceProofs7.v
theories/DeviceProofs5.v
theories/P_Iface5.v
theories/AttrProofs3.v
theories/SnapModel.v
theories/SpecSnap.v
theories/SnapProofs.v
theories/SnapProofs2.v
theories/P_Snap.v
theories/CancelProofs.v
theories/P_Cancel.v
theories/WholeModel.v
theories/SpecWhole.v
theories/WholeProofs.v
theories/P_Whole.v
theories/SpecIface2.v
theories/IfaceProofs8.v
theories/P_Iface6.v
theories/SpecTrig.v
theories/TrigProofs.v
theories/TrigProofs2.v
theories/TrigProofs3.v
theories/P_Trig.v
theories/RetryModel.v
theories/SpecRetry.v
theories/RetryProofs.v
theories/P_Retry.v
theories/P_Trig2.v
theories/SpecRetry2.v
theories/RetryProofs2.v
theories/P_Retry2.v
theories/P_Worker2.v
theories/SysProofs19.v
theories/P_Again.v
theories/SpecDie2.v
theories/IfaceProofs9.v
theories/P_Iface7.v
theories/SpecCli2.v
theories/CliProofs4.v
theories/P_Cli2.v
theories/P_Iface8.v
theories/SpecSnap2.v
theories/SnapProofs3.v
theories/P_Snap2.v
theories/SysProofs20.v
theories/P_Dead2.v
theories/SpecAsked.v
theories/SysProofs21.v
theories/P_Asked.v
theories/SpecWho.v
theories/SysProofs22.v
theories/P_Who.v
theories/SpecHold.v
theories/SysProofs23.v
theories/P_Hold.v
theories/SpecAnnounce.v
theories/SysProofs24.v
theories/P_Announce.v
theories/PassProofs4.v
theories/P_Folder.v
theories/P_SysJob2.v
theories/SpecCli3.v
theories/CliProofs5.v
theories/P_Cli3.v
theories/SpecForce.v
theories/SysProofs25.v
theories/P_Force.v
theories/SpecWhom.v
theories/SysProofs26.v
theories/P_Whom.v
theories/SpecCharge.v
theories/SysProofs27.v
theories/P_Charge.v
theories/WireModel.v
theories/SpecWire.v
theories/WireProofs.v
theories/P_Wire.v
theories/SpecTend.v
theories/TendProofs.v
theories/P_Tend.v
theories/ByHandModel.v
theories/SpecByHand.v
theories/ByHandProofs.v
theories/P_ByHand.v
theories/LifeModel.v
theories/SpecLife.v
theories/P_Life.v
theories/SpecSettings.v
theories/P_Settings.v
theories/SpecOrder.v
theories/OrderProofs.v
theories/OrderProofs2.v
theories/P_Order.v
theories/OrderProofs3.v
theories/ProcModel.v
theories/SpecProc.v
theories/ProcProofs.v
theories/P_Proc.v
theories/P_Iface9.v
