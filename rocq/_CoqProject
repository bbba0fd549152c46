-Q theories Verif
theories/Base.v
theories/RStr.v
theories/CronModel.v
theories/ConfigModel.v
theories/SpecConfig.v
theories/ConfigProofs.v
theories/PropConfig.v
theories/ProcessModel.v
theories/EnvModel.v
theories/SpecEnv.v
theories/EnvProofs.v
theories/PropEnv.v
theories/DepModel.v
theories/SpecDep.v
theories/DepProofs.v
theories/PropDep.v
theories/SpecStr.v
theories/SpecCron.v
theories/RStrProofs.v
theories/CronParseProofs.v
theories/SpecCal.v
theories/CalendarProofs.v
theories/SpecSched.v
theories/CronNextProofs.v
theories/CronSchedProofs.v
theories/CronReachProofs.v
theories/SpecExact.v
theories/CronExactProofs.v
theories/SpecTimer.v
theories/CronTimerProofs.v
theories/CronTextProofs.v
theories/SpecFault.v
theories/FaultProofs.v
theories/PropFault.v
theories/PropCron.v
theories/MainModel.v
theories/SpecMain.v
theories/MainProofs.v
theories/PropMain.v
theories/SpecText.v
theories/TextProofs.v
theories/NotifyProofs.v
theories/NotifyModel.v
theories/ManagerModel.v
theories/SysModel.v
theories/LogModel.v
theories/SpecLog.v
theories/SpecRun.v
theories/RunStep.v
theories/RunInv.v
theories/RunFlow.v
theories/RunHist.v
theories/RunAlive.v
theories/RunStream.v
theories/RunClaims.v
theories/RunLife.v
theories/RunThms.v
theories/RunFinal.v
theories/RunSteps.v
theories/RunSteps2.v
theories/RunView.v
theories/RunSteps3.v
theories/RunReport.v
theories/RunOrder.v
theories/RunSteps4.v
theories/RunSteps5.v
theories/RunExamples.v
theories/PropRun1.v
theories/PropRun2.v
theories/PropRun3.v
theories/ChildModel.v
theories/FdModel.v
theories/SpecChild.v
theories/ChildProofs.v
theories/FdProofs.v
theories/ChildThms.v
theories/ChildExamples.v
theories/PropChild.v
theories/SpecLive.v
theories/RunLive.v
theories/RunStop.v
theories/PropLive.v
theories/LogProofs.v
theories/RunForge.v
theories/PropLog.v
theories/PtyModel.v
theories/SpecPty.v
theories/PtyProofs.v
theories/PtyLines.v
theories/PropPty.v
theories/SetupModel.v
theories/SpecSetup.v
theories/SetupProofs.v
theories/PropSetup.v
theories/YamlModel.v
theories/SpecYaml.v
theories/YamlProofs.v
theories/PropYaml.v
theories/SpecEnd.v
theories/EndProofs.v
theories/PropEnd.v
theories/SpecBoot.v
theories/BootProofs.v
theories/PropBoot.v
theories/ReportModel.v
theories/SpecReport.v
theories/ReportProofs.v
theories/PropReport.v
theories/SpecFail.v
theories/FailProofs.v
theories/PropFail.v
theories/SearchModel.v
theories/SpecSearch.v
theories/SearchProofs.v
theories/PropSearch.v
theories/CliModel.v
theories/SpecCli.v
theories/CliProofs.v
theories/PropCli.v
theories/RepoTestsCron.v
theories/RepoTests.v
theories/SpecTick.v
theories/TickProofs.v
theories/PropTick.v
theories/TemplModel.v
theories/SpecTempl.v
theories/TemplProofs.v
theories/PropTempl.v
theories/TraceModel.v
theories/SpecTrace.v
theories/TraceProofs.v
theories/PropTrace.v
theories/DebugModel.v
theories/SpecDebug.v
theories/DebugProofs.v
theories/PropDebug.v
theories/SpecWarn.v
theories/WarnProofs.v
theories/PropWarn.v
theories/LineProofs.v
theories/PropLines.v
theories/StartModel.v
theories/SpecStart.v
theories/StartProofs.v
theories/StartProofs2.v
theories/PropStart.v
theories/SessionModel.v
theories/SpecSession.v
theories/SessionProofs.v
theories/PropSession.v
theories/SpecRefuse.v
theories/RefuseProofs.v
theories/PropRefuse.v
theories/BeginModel.v
theories/SpecBegin.v
theories/BeginProofs.v
theories/BeginProofs2.v
theories/BeginProofs3.v
theories/PropBegin.v
theories/SpecZone.v
theories/ZoneProofs.v
theories/ZoneRun.v
theories/PropZone.v
theories/CronExactZone.v
theories/CronBothZone.v
theories/KeptRun.v
theories/MissedRun.v
theories/PropExact.v
theories/SpecDropin.v
theories/DropinProofs.v
theories/PropDropin.v
theories/HarnessModel.v
theories/SpecHarness.v
theories/HarnessProofs.v
theories/SpecHarnessRun.v
theories/HarnessRun.v
theories/PropHarness.v
theories/HarnessLifeModel.v
theories/SpecHarnessLife.v
theories/HarnessLifeProofs.v
theories/ForkerModel.v
theories/SpecForker.v
theories/ForkerProofs.v
theories/SpecTools.v
theories/ToolsProofs.v
theories/PropTools.v
theories/HarnessCliModel.v
theories/SpecHarnessCli.v
theories/HarnessCliProofs.v
theories/PropHarnessCli.v
theories/HarnessStart.v
theories/PropHarnessStart.v
