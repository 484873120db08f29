-Q theories Verif
theories/Base.v
theories/Utf8.v
theories/Utf8Proofs.v
theories/Dec.v
theories/DecProofs.v
theories/Num.v
theories/NumProofs.v
theories/PyObj.v
theories/H5.v
theories/Env.v
theories/Create.v
theories/Dump.v
theories/LoadFns.v
theories/Proxy.v
theories/LoadModel.v
theories/Registry.v
theories/DumpProofs.v
theories/DumpStored.v
theories/RegistryStd.v
theories/Spec.v
theories/PartSpec.v
theories/LoadBase.v
theories/ArrayProofs.v
theories/LoadInv.v
theories/LoadLeaf.v
theories/LoadCont.v
theories/LoadMain.v
theories/LoadDict.v
theories/LoadAll.v
theories/RoundTrip.v
theories/Instance.v
theories/Api.v
theories/LoadFrame.v
theories/DumpClosed.v
theories/ApiProofs.v
theories/DumpEnv.v
theories/Reach.v
theories/Samples.v
theories/SampleProofs.v
theories/Cyclic.v
theories/Crash.v
theories/CrashProofs.v
theories/ApiTop.v
theories/RegistryProofs.v
theories/FileProofs.v
theories/FileIO.v
theories/FileIOProofs.v
theories/DumpTerm.v
theories/ApiEnds.v
theories/Accept.v
theories/DumpOk.v
theories/DumpAccept.v
theories/ApiAccept.v
theories/DumpKw.v
theories/Cases.v
theories/Count.v
theories/Table.v
theories/Layout.v
theories/DumpSamples.v
theories/MemoAlloc.v
theories/MemoAllocProofs.v
theories/ProxyProofs.v
theories/Legacy.v
theories/LegacyProofs.v
theories/Damage.v
theories/DamageApi.v
theories/Recover.v
theories/RecoverStd.v
theories/LoaderSearch.v
theories/LoaderSamples.v
theories/Native.v
theories/Repr.v
theories/ReprProofs.v
theories/LegacyV3.v
theories/V3Spec.v
theories/V3Proofs.v
theories/V3Samples.v
theories/V3Damage.v
theories/LoadCycle.v
theories/DumpCycle.v
theories/Acyclic.v
theories/Subclass.v
theories/Fresh.v
theories/PropsFresh.v
theories/Again.v
theories/AgainProofs.v
theories/PropsAgain.v
theories/PropsGraph.v
theories/PropsFile.v
theories/PropsRegistry.v
theories/PropsCalls.v
theories/PropsDump.v
theories/PropsLoad.v
theories/PropsLoaders.v
theories/PropsV3.v
theories/PropsCycles.v
theories/FailedDump.v
theories/CrashLeaf.v
theories/PropsCrash.v
theories/Astropy.v
theories/AstropyProofs.v
theories/PropsAstropy.v
theories/Spec4.v
theories/Det4.v
theories/Load4.v
theories/Props4.v
theories/Same.v
theories/PropsSame.v
theories/DumpSame.v
theories/PropsDumpSame.v
theories/V3Astropy.v
theories/V3AstropyProofs.v
theories/PropsV3Astropy.v
theories/Modes.v
theories/PropsModes.v
theories/Distinct.v
theories/PropsDistinct.v
theories/Threads.v
theories/ThreadProofs.v
theories/PropsThreads.v
theories/Managers.v
theories/ManagerProofs.v
theories/PropsManagers.v
theories/Classes.v
theories/ClassSamples.v
theories/PropsClasses.v
theories/GetRoot.v
theories/Listed.v
theories/GetRootProofs.v
theories/PropsGetRoot.v
theories/Probe.v
theories/ProbeProofs.v
theories/PropsProbe.v
