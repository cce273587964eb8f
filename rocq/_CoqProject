-Q theories Verif

theories/CBase.v
theories/Base64.v
theories/Base64Spec.v
theories/Base64Proofs.v
theories/Properties_Base64.v
theories/StrMap.v
theories/Props.v
theories/PropsSpec.v
theories/StrMapProofs.v
theories/PropsProofs.v
theories/Properties_Props.v
theories/Buffer.v
theories/BufferSpec.v
theories/BufferProofs.v
theories/Message.v
theories/MessageSpec.v
theories/MessageProofs.v
theories/MessageApi.v
theories/SyntaxProofs.v
theories/Properties_Message.v
theories/Num.v
theories/NumProofs.v
theories/DecimalProofs.v
theories/Decimal6Proofs.v
theories/PropsNum.v
theories/NumSpec.v
theories/PropsNumProofs.v
theories/Properties_Num.v
theories/Region.v
theories/RegionSpec.v
theories/RegionProofs.v
theories/Properties_Region.v
theories/FloatOps.v
theories/FloatProofs.v
theories/RegionGeom.v
theories/GeomSpec.v
theories/GeomProofs.v
theories/BoundsProofs.v
theories/OverlapProofs.v
theories/RasterProofs.v
theories/Properties_Geom.v
theories/Properties_Raster.v
theories/Image.v
theories/ImageSpec.v
theories/ImageProofs.v
theories/Properties_Image.v
theories/Formats.v
theories/FormatsSpec.v
theories/FormatsProofs.v
theories/Properties_Formats.v
theories/Handle.v
theories/SessionSpec.v
theories/HandleProofs.v
theories/SessionProofs.v
theories/HandshakeProofs.v
theories/SendableProofs.v
theories/Properties_Session.v
theories/HistorySpec.v
theories/HistoryProofs.v
theories/Properties_History.v
theories/Lists.v
theories/ListsSpec.v
theories/ListsProofs.v
theories/Properties_Lists.v
theories/Wrap.v
theories/WrapSpec.v
theories/WrapProofs.v
theories/WrapValueProofs.v
theories/Properties_Wrap.v
theories/Support.v
theories/SupportSpec.v
theories/SupportProofs.v
theories/CommandProofs.v
theories/Properties_Support.v
theories/Mutex.v
theories/MutexSpec.v
theories/MutexProofs.v
theories/Properties_Mutex.v
theories/Cli.v
theories/CliSpec.v
theories/CliProofs.v
theories/TrajectoryProofs.v
theories/ImageSize.v
theories/ImageSizeSpec.v
theories/ImageSizeProofs.v
theories/Properties_Cli.v
theories/FloatMono.v
theories/PolygonSpec.v
theories/PolygonProofs.v
theories/ConvexProofs.v
theories/Properties_Polygon.v
theories/RegionApi.v
theories/RegionApiSpec.v
theories/RegionApiProofs.v
theories/Properties_RegionApi.v
theories/PolyRasterProofs.v
theories/ConvexRasterProofs.v
theories/Properties_ConvexRaster.v
theories/LegacyRasterProofs.v
theories/Properties_LegacyRaster.v
theories/Process.v
theories/ProcessSpec.v
theories/ProcessProofs.v
theories/Properties_Process.v
theories/Tracker.v
theories/TrackerSpec.v
theories/TrackerProofs.v
theories/Properties_Tracker.v
theories/OverlapSpec.v
theories/PolyOverlapProofs.v
theories/Properties_PolyOverlap.v
theories/Threads.v
theories/ThreadsSpec.v
theories/ThreadsProofs.v
theories/Properties_Threads.v
theories/OpenCv.v
theories/OpenCvSpec.v
theories/OpenCvProofs.v
theories/Properties_OpenCv.v
theories/Sockets.v
theories/SocketsSpec.v
theories/SocketsProofs.v
theories/Properties_Sockets.v
theories/Matlab.v
theories/MatlabSpec.v
theories/MatlabProofs.v
theories/MatlabCallProofs.v
theories/Properties_Matlab.v
theories/WrapLists.v
theories/WrapListsSpec.v
theories/WrapListsProofs.v
theories/WrapListsSendProofs.v
theories/Properties_WrapLists.v
theories/PyText.v
theories/PyTextSpec.v
theories/PyTextProofs.v
theories/Properties_PyText.v
theories/PyArrays.v
theories/PyArraysSpec.v
theories/PyArraysProofs.v
theories/Properties_PyArrays.v
theories/PySession.v
theories/PySessionSpec.v
theories/PySessionProofs.v
theories/Properties_PySession.v
theories/Blocks.v
theories/BlocksSpec.v
theories/BlocksProofs.v
theories/Properties_Blocks.v
theories/PyLife.v
theories/PyLifeSpec.v
theories/PyLifeProofs.v
theories/Properties_PyLife.v
theories/Programs.v
theories/ProgramsSpec.v
theories/ProgramsProofs.v
theories/Properties_Programs.v
theories/Errors.v
theories/ErrorsSpec.v
theories/ErrorsProofs.v
theories/Properties_Errors.v
theories/MatlabClient.v
theories/MatlabClientSpec.v
theories/MatlabClientProofs.v
theories/Properties_MatlabClient.v
theories/CppSession.v
theories/CppSessionSpec.v
theories/CppSessionProofs.v
theories/Properties_CppSession.v
theories/MatlabServer.v
theories/MatlabServerSpec.v
theories/MatlabServerProofs.v
theories/MatlabSessionProofs.v
theories/Properties_MatlabServer.v
theories/CppValues.v
theories/CppValuesSpec.v
theories/CppValuesProofs.v
theories/Properties_CppValues.v
theories/Static.v
theories/StaticSpec.v
theories/StaticProofs.v
theories/Properties_Static.v
theories/NoisySpec.v
theories/NoisyProofs.v
theories/Properties_Noisy.v
theories/PyRegions.v
theories/PyRegionsSpec.v
theories/PyRegionsProofs.v
theories/Properties_PyRegions.v
theories/RegionSafeSpec.v
theories/RegionSafeProofs.v
theories/Properties_RegionSafe.v
theories/DictMem.v
theories/DictMemSpec.v
theories/DictMemProofs.v
theories/Properties_DictMem.v
theories/Evaluate.v
theories/EvaluateSpec.v
theories/EvaluateProofs.v
theories/Properties_Evaluate.v
theories/RegionHeap.v
theories/RegionHeapSpec.v
theories/RegionHeapProofs.v
theories/Properties_RegionHeap.v
theories/NegotiateSpec.v
theories/NegotiateProofs.v
theories/Properties_Negotiate.v
theories/Criterion.v
theories/CriterionSpec.v
theories/CriterionProofs.v
theories/Properties_Criterion.v
theories/StationaryRunSpec.v
theories/StationaryRunProofs.v
theories/Properties_StationaryRun.v
theories/MetricSpec.v
theories/MetricProofs.v
theories/Properties_Metric.v
theories/Interactive.v
theories/InteractiveSpec.v
theories/InteractiveProofs.v
theories/Properties_Interactive.v
theories/PyStatic.v
theories/PyStaticSpec.v
theories/PyStaticProofs.v
theories/Properties_PyStatic.v
theories/MatlabStatic.v
theories/MatlabStaticSpec.v
theories/MatlabStaticProofs.v
theories/Properties_MatlabStatic.v
theories/CutSpec.v
theories/CutProofs.v
theories/CutClientProofs.v
theories/Properties_Cut.v
theories/BadTracker.v
theories/BadTrackerSpec.v
theories/BadTrackerProofs.v
theories/Properties_BadTracker.v
theories/HostileSpec.v
theories/HostileProofs.v
theories/Properties_Hostile.v
theories/TutorialClient.v
theories/TutorialClientSpec.v
theories/TutorialClientProofs.v
theories/Properties_TutorialClient.v
theories/Ncc.v
theories/NccSpec.v
theories/NccProofs.v
theories/Properties_Ncc.v
theories/Debug.v
theories/DebugSpec.v
theories/DebugProofs.v
theories/Properties_Debug.v
theories/NccFloat.v
theories/NccFloatProofs.v
theories/Properties_NccFloat.v
theories/Timer.v
theories/TimerSpec.v
theories/TimerProofs.v
theories/Properties_Timer.v
theories/NccMatlab.v
theories/NccMatlabSpec.v
theories/NccMatlabProofs.v
theories/Properties_NccMatlab.v
theories/FileLog.v
theories/FileLogSpec.v
theories/FileLogProofs.v
theories/Properties_FileLog.v
