-Q theories Verif
theories/PyStr.v
theories/SpecInt.v
theories/IntThms.v
theories/Regex.v
theories/Tags.v
theories/Messages.v
theories/MessageFacts.v
theories/SpecMsg.v
theories/MessageThms.v
theories/MessageThms2.v
theories/SpecTag.v
theories/TagThms.v
theories/MessageThms3.v
theories/PropTags.v
theories/PropMessages.v
theories/Protocol.v
theories/SpecProto.v
theories/ProtoThms.v
theories/PropProtocol.v
theories/Queue.v
theories/QueueThms.v
theories/Sender.v
theories/SenderThms.v
theories/PropConcurrency.v
theories/AuthOpen.v
theories/SpecOpen.v
theories/OpenThms.v
theories/PropOpen.v
theories/IO.v
theories/AuthHmac.v
theories/Client.v
theories/SpecClient.v
theories/HmacThms.v
theories/HandshakeThms.v
theories/HandshakeThms2.v
theories/PropClient.v
theories/Items.v
theories/SpecItem.v
theories/ItemThms.v
theories/ItemThms2.v
theories/PropItems.v
theories/Lighting.v
theories/SpecLight.v
theories/LightThms.v
theories/LightThms2.v
theories/PropLight.v
theories/PyDate.v
theories/Gateway.v
theories/SpecGateway.v
theories/CalendarThms.v
theories/GatewayThms.v
theories/GatewayThms2.v
theories/PropGateway.v
theories/PyFloat.v
theories/Energy.v
theories/SpecEnergy.v
theories/FloatThms.v
theories/EnergyThms.v
theories/EnergyThms2.v
theories/EnergyThms3.v
theories/PropEnergy.v
theories/Dispatch.v
theories/SpecDispatch.v
theories/DispatchThms.v
theories/DispatchThms2.v
theories/DispatchThms3.v
theories/PropDispatch.v
theories/Backtrack.v
theories/BacktrackThms.v
theories/BacktrackThms2.v
theories/BacktrackThms3.v
theories/PropBacktrack.v
theories/Store.v
theories/StoreThms.v
theories/PropStore.v
theories/SpecFrames.v
theories/FrameThms.v
theories/PropFrames.v
theories/Tasks.v
theories/SpecTasks.v
theories/TasksThms.v
theories/PropTasks.v
theories/Restart.v
theories/SpecRestart.v
theories/RestartThms.v
theories/PropRestart.v
theories/Timed.v
theories/SpecTimed.v
theories/TimedThms.v
theories/PropTimed.v
theories/SpecParse.v
theories/ParseThms.v
theories/PropParse.v
theories/Conc.v
theories/SpecConc.v
theories/ConcThms.v
theories/PropConc.v
theories/SendThms.v
theories/PropSend.v
theories/Objects.v
theories/SpecObjects.v
theories/ObjectsThms.v
theories/PropObjects.v
theories/Conform.v
theories/SpecLogin.v
theories/LoginThms.v
theories/PropLogin.v
theories/Loop.v
theories/SpecLoop.v
theories/LoopThms.v
theories/PropLoop.v
theories/SpecSingle.v
theories/SingleThms.v
theories/PropSingle.v
theories/Loops.v
theories/SpecLoops.v
theories/LoopsThms.v
theories/PropLoops.v
theories/SpecSerial.v
theories/SerialThms.v
theories/PropSerial.v
theories/SpecAbandon.v
theories/AbandonThms.v
theories/PropAbandon.v
theories/SpecHouse.v
theories/HouseThms.v
theories/HouseThms2.v
theories/PropHouse.v
theories/SpecNotice.v
theories/NoticeThms.v
theories/PropNotice.v
theories/Errors.v
theories/SpecErrors.v
theories/ErrorThms.v
theories/PropErrors.v
theories/SpecVisit.v
theories/VisitThms.v
theories/PropVisit.v
theories/SpecMeter.v
theories/MeterThms.v
theories/MeterThms2.v
theories/PropMeter.v
theories/Log.v
theories/SpecLog.v
theories/LogThms.v
theories/LogThms2.v
theories/PropLog.v
theories/LoopLog.v
theories/SpecLoopLog.v
theories/LoopLogThms.v
theories/PropLoopLog.v
theories/SpecClock.v
theories/ClockThms.v
theories/PropClock.v
theories/Examples.v
theories/SpecExamples.v
theories/ExampleThms.v
theories/ExampleThms2.v
theories/PropExamples.v
theories/Watchers.v
theories/SpecWatchers.v
theories/WatcherThms.v
theories/WatcherThms2.v
theories/PropWatchers.v
theories/SpecKeep.v
theories/KeepThms.v
theories/PropKeep.v
theories/SpecHmacDoor.v
theories/HmacDoorThms.v
theories/HmacDoorThms2.v
theories/PropHmacDoor.v
theories/SpecCrash.v
theories/CrashThms.v
theories/CrashThms2.v
theories/PropCrash.v
theories/SpecTogether.v
theories/SerialThms2.v
theories/TogetherThms.v
theories/PropTogether.v
theories/Line.v
theories/SpecLine.v
theories/LineThms.v
theories/LineThms2.v
theories/LineThms3.v
theories/PropLine.v
theories/SpecArrive.v
theories/ArriveThms.v
theories/PropArrive.v
theories/SpecCrowd.v
theories/CrowdThms.v
theories/PropCrowd.v
theories/SpecLate.v
theories/LateThms.v
theories/PropLate.v
theories/SpecAgain.v
theories/AgainThms.v
theories/PropAgain.v
theories/SpecLoss.v
theories/LossThms.v
theories/PropLoss.v
theories/SpecMirror.v
theories/MirrorThms.v
theories/PropMirror.v
theories/Sha.v
theories/ShaThms.v
theories/PropSha.v
theories/ResyncThms.v
theories/PropResync.v
theories/SpecDocs.v
theories/DocsThms.v
theories/PropDocs.v
theories/SpecSay.v
theories/SayThms.v
theories/SayThms2.v
theories/PropSay.v
theories/SpecTalk.v
theories/TalkThms.v
theories/TalkThms2.v
theories/TalkThms3.v
theories/TalkThms4.v
theories/PropTalk.v
theories/SpecRaise.v
theories/RaiseThms.v
theories/RaiseThms2.v
theories/RaiseThms3.v
theories/RaiseThms4.v
theories/PropRaise.v
theories/StartRaise.v
theories/PropStartRaise.v
theories/Handler.v
theories/SpecHandler.v
theories/HandlerThms.v
theories/PropHandler.v
theories/SpecServer.v
theories/ServerThms.v
theories/ServerThms2.v
theories/PropServer.v
theories/VersionThms.v
theories/PropVersion.v
theories/SessionThms.v
theories/PropSession.v
theories/Collect.v
theories/SpecCollect.v
theories/CollectThms.v
theories/CollectThms2.v
theories/PropCollect.v
theories/Starts.v
theories/SpecStarts.v
theories/StartsThms.v
theories/StartsThms2.v
theories/StartsThms3.v
theories/PropStarts.v
theories/Early.v
theories/SpecEarly.v
theories/EarlyThms.v
theories/PropEarly.v
theories/Custom.v
theories/SpecCustom.v
theories/CustomThms.v
theories/PropCustom.v
theories/SpecThrong.v
theories/ThrongThms.v
theories/ThrongThms2.v
theories/PropThrong.v
theories/Making.v
theories/SpecMaking.v
theories/MakingThms.v
theories/PropMaking.v
theories/Shutdown.v
theories/SpecShutdown.v
theories/ShutdownThms.v
theories/PropShutdown.v
theories/Anew.v
theories/SpecAnew.v
theories/AnewThms.v
theories/AnewThms2.v
theories/AnewThms3.v
theories/PropAnew.v
theories/Reflex.v
theories/SpecReflex.v
theories/ReflexThms.v
theories/ReflexThms2.v
theories/ReflexThms3.v
theories/ReflexThms4.v
theories/ReflexThms5.v
theories/PropReflex.v
theories/Failing.v
theories/SpecFailing.v
theories/FailingThms.v
theories/PropFailing.v
theories/Unlocked.v
theories/SpecUnlocked.v
theories/UnlockedThms.v
theories/PropUnlocked.v
theories/SpecRules.v
theories/RulesThms.v
theories/RulesThms2.v
theories/RulesThms3.v
theories/PropRules.v
theories/SpecPicture.v
theories/PictureThms.v
theories/PropPicture.v
theories/Apps.v
theories/SpecApps.v
theories/AppsThms.v
theories/AppsThms2.v
theories/AppsThms3.v
theories/AppsThms4.v
theories/PropApps.v
