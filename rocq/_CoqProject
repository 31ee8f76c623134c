-Q theories Verif
theories/Base.v
theories/BaseFacts.v
theories/Gen.v
theories/SpecGen.v
theories/GenFacts.v
theories/SpecAsync.v
theories/AsyncFacts.v
theories/Executer.v
theories/SpecExec.v
theories/ExecFacts.v
theories/SpecCall.v
theories/ExecGenFacts.v
theories/KeepFacts.v
theories/ExecStepFacts.v
theories/ExampleGens.v
theories/PropCoroutine.v
theories/ExecExactFacts.v
theories/PropExecuter.v
theories/OsCommon.v
theories/OsFacts.v
theories/OsLinux.v
theories/SpecSg.v
theories/LinuxFacts.v
theories/ExampleLinux.v
theories/PropLinux.v
theories/OsSolaris.v
theories/OsAix.v
theories/OsWin32.v
theories/SpecDrivers.v
theories/SolarisFacts.v
theories/AixFacts.v
theories/WinFacts.v
theories/SpecSession.v
theories/SessionFacts.v
theories/ExampleOs.v
theories/PropOtherOs.v
theories/UnixIo.v
theories/SpecIo.v
theories/Contexts.v
theories/UnixFacts.v
theories/PropIo.v
theories/Instruct.v
theories/InstructFacts.v
theories/Command.v
theories/CdbBlock.v
theories/CdbPrimary.v
theories/SpecDevice.v
theories/SpecCdb.v
theories/CdbLemmas.v
theories/CdbBlockFacts.v
theories/CdbSixFacts.v
theories/UnmapFacts.v
theories/CdbPrimaryFacts.v
theories/CdbReserveFacts.v
theories/CdbPersistFacts.v
theories/CdbAllFacts.v
theories/ResponseLemmas.v
theories/CdbResponseFacts.v
theories/RtpgFacts.v
theories/CdbPropFacts.v
theories/PropCdb.v
theories/AscTable.v
theories/Sense.v
theories/SpecSense.v
theories/SpecExecute.v
theories/ExecuteFacts.v
theories/DiskFacts.v
theories/PropExecute.v
theories/SenseFacts.v
theories/PropSense.v
theories/Pages.v
theories/SpecLayout.v
theories/LayoutFacts.v
theories/SpecPages.v
theories/PageFacts.v
theories/DesignatorFacts.v
theories/SpecVpd.v
theories/VpdFacts.v
theories/SpecPack.v
theories/PackFacts.v
theories/InquiryFacts.v
theories/PropPages.v
theories/Ses.v
theories/SpecSes.v
theories/SesFacts.v
theories/PropSes.v
theories/SpecConc.v
theories/Left.v
theories/ConcFacts.v
theories/PropConc.v
theories/SpecRobust.v
theories/RobustFacts.v
theories/PropRobust.v
theories/SpecResults.v
theories/PropResults.v
theories/SpecAta.v
theories/AtaFacts.v
theories/PropAta.v
theories/ErrorText.v
theories/SpecText.v
theories/TextFacts.v
theories/PropText.v
theories/Ctypes.v
theories/SpecAbi.v
theories/CtypesFacts.v
theories/AbiFacts.v
theories/PropAbi.v
theories/SpecPortable.v
theories/PortableFacts.v
theories/PropPortable.v
theories/SpecIoctl.v
theories/IoctlFacts.v
theories/PropIoctl.v
theories/SpecQueue.v
theories/QueueFacts.v
theories/PropQueue.v
theories/SpecGiveUp.v
theories/GiveUpFacts.v
theories/PropGiveUp.v
theories/Win32Wait.v
theories/SpecWait.v
theories/WaitFacts.v
theories/PropWait.v
theories/SpecReserve.v
theories/ReserveFacts.v
theories/PropReserve.v
theories/SpecAdaptive.v
theories/AdaptiveFacts.v
theories/PropAdaptive.v
theories/SpecFleet.v
theories/FleetFacts.v
theories/PropFleet.v
theories/SpecSettings.v
theories/SettingsFacts.v
theories/PropSettings.v
theories/SpecTimeout.v
theories/TimeoutFacts.v
theories/PropTimeout.v
theories/SpecStandard.v
theories/StandardFacts.v
theories/PropStandard.v
theories/Defaults.v
theories/SpecDefaults.v
theories/DefaultFacts.v
theories/PropDefaults.v
theories/SpecDiscover.v
theories/DiscoverFacts.v
theories/PropDiscover.v
theories/SpecShared.v
theories/SharedFacts.v
theories/PropShared.v
theories/Greenlet.v
theories/SpecGreen.v
theories/GreenFacts.v
theories/GreenWinFacts.v
theories/GreenIoctlFacts.v
theories/PropGreen.v
theories/SpecClone.v
theories/CloneFacts.v
theories/PropClone.v
theories/SpecHuge.v
theories/HugeFacts.v
theories/PropHuge.v
theories/SpecStatus.v
theories/StatusFacts.v
theories/PropStatus.v
theories/SpecRetry.v
theories/RetryFacts.v
theories/PropRetry.v
theories/FileObjects.v
theories/SpecFiles.v
theories/FilesFacts.v
theories/PropFiles.v
theories/SpecErase.v
theories/EraseFacts.v
theories/PropErase.v
theories/SpecPaths.v
theories/PathsFacts.v
theories/PropPaths.v
theories/Logs.v
theories/SpecLogs.v
theories/LogsFacts.v
theories/PropLogs.v
theories/Names.v
theories/SpecNames.v
theories/NamesFacts.v
theories/PropNames.v
theories/SpecAlua.v
theories/AluaFacts.v
theories/PropAlua.v
theories/SpecGroups.v
theories/GroupsFacts.v
theories/PropGroups.v
theories/SpecTwice.v
theories/TwiceFacts.v
theories/PropTwice.v
theories/SpecLeft.v
theories/LeftFacts.v
theories/PropLeft.v
theories/SpecEnclosure.v
theories/EnclosureFacts.v
theories/PropEnclosure.v
theories/SpecInsist.v
theories/InsistFacts.v
theories/PropInsist.v
theories/SpecTurns.v
theories/TurnsFacts.v
theories/PropTurns.v
theories/SpecTakeover.v
theories/TakeoverFacts.v
theories/PropTakeover.v
theories/SpecIdentify.v
theories/IdentifyFacts.v
theories/PropIdentify.v
theories/SpecListing.v
theories/ListingFacts.v
theories/PropListing.v
theories/SpecLock.v
theories/LockFacts.v
theories/PropLock.v
theories/Controls.v
theories/SpecControl.v
theories/ControlFacts.v
theories/PropControl.v
theories/SpecOneFile.v
theories/OneFileFacts.v
theories/PropOneFile.v
theories/SpecMemory.v
theories/MemoryFacts.v
theories/PropMemory.v
theories/Callbacks.v
theories/SpecCallback.v
theories/CallbackFacts.v
theories/PropCallback.v
theories/CallForms.v
theories/SpecCallForms.v
theories/CallFormFacts.v
theories/PropCallForm.v
