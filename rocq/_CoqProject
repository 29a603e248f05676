-Q theories Verif
theories/Model/Batch.v
theories/Model/Boxes.v
theories/Model/Cli.v
theories/Model/Config.v
theories/Model/Cplx.v
theories/Model/DataCommand.v
theories/Model/Deconv.v
theories/Model/DeconvTime.v
theories/Model/DepthAxis.v
theories/Model/Dispatch.v
theories/Model/EventData.v
theories/Model/Figures.v
theories/Model/FloatIndex.v
theories/Model/Harmonics.v
theories/Model/Headers.v
theories/Model/Imaging.v
theories/Model/Iter.v
theories/Model/Iterative.v
theories/Model/LocalData.v
theories/Model/Maps.v
theories/Model/Memory.v
theories/Model/ModelFile.v
theories/Model/Multitaper.v
theories/Model/Num.v
theories/Model/Profile.v
theories/Model/ProfileCommand.v
theories/Model/Py.v
theories/Model/RealArr.v
theories/Model/Rf.v
theories/Model/Rfstats.v
theories/Model/Rotate.v
theories/Model/SacFile.v
theories/Model/SimpleModel.v
theories/Model/Stack.v
theories/Model/Str.v
theories/Model/Times.v
theories/Model/Trace.v
theories/Model/Util.v
theories/Model/Waterlevel.v
theories/Model/Write.v
theories/Spec/ArrivalSpec.v
theories/Spec/BatchSpec.v
theories/Spec/BoxSpec.v
theories/Spec/CliSpec.v
theories/Spec/ConfigSpec.v
theories/Spec/CorrSpec.v
theories/Spec/DataCmdSpec.v
theories/Spec/DeconvSpec.v
theories/Spec/DepthSpec.v
theories/Spec/DispatchSpec.v
theories/Spec/EndSpec.v
theories/Spec/EventSpec.v
theories/Spec/FigureSpec.v
theories/Spec/FloatSpec.v
theories/Spec/HarmonicSpec.v
theories/Spec/HeaderSpec.v
theories/Spec/ImagingSpec.v
theories/Spec/IterSpec.v
theories/Spec/LocalSpec.v
theories/Spec/MapSpec.v
theories/Spec/MeanSpec.v
theories/Spec/MemorySpec.v
theories/Spec/ModelFileSpec.v
theories/Spec/ModelSpec.v
theories/Spec/MultitaperSpec.v
theories/Spec/NoiseSpec.v
theories/Spec/OnceSpec.v
theories/Spec/PipelineSpec.v
theories/Spec/ProfileCmdSpec.v
theories/Spec/ProfileSpec.v
theories/Spec/RequestSpec.v
theories/Spec/RfSpec.v
theories/Spec/RotateSpec.v
theories/Spec/SacSpec.v
theories/Spec/SpikeSpec.v
theories/Spec/StackSpec.v
theories/Spec/StatsSpec.v
theories/Spec/StrSpec.v
theories/Spec/TimeRfSpec.v
theories/Spec/TimeSpec.v
theories/Spec/TraceSpec.v
theories/Spec/UtilSpec.v
theories/Spec/WaterSpec.v
theories/Spec/WriteSpec.v
theories/Proofs/ArrivalFacts.v
theories/Proofs/BackwardFacts.v
theories/Proofs/BatchFacts.v
theories/Proofs/BatchLoop.v
theories/Proofs/BatchRead.v
theories/Proofs/BoxFacts.v
theories/Proofs/CliFacts.v
theories/Proofs/ConfigFacts.v
theories/Proofs/ConvFacts.v
theories/Proofs/ConvertFacts.v
theories/Proofs/CplxFacts.v
theories/Proofs/DataCmdFacts.v
theories/Proofs/DeconvFacts.v
theories/Proofs/DeconvTimeFacts.v
theories/Proofs/DepthFacts.v
theories/Proofs/DispatchFacts.v
theories/Proofs/EndFacts.v
theories/Proofs/EventFacts.v
theories/Proofs/FieldFacts.v
theories/Proofs/FigureFacts.v
theories/Proofs/FloatFacts.v
theories/Proofs/HarmonicFacts.v
theories/Proofs/HarmonicMain.v
theories/Proofs/HeaderFacts.v
theories/Proofs/HomogFacts.v
theories/Proofs/ImagingFacts.v
theories/Proofs/InterpFacts.v
theories/Proofs/IterFacts.v
theories/Proofs/LinFacts.v
theories/Proofs/LocalFacts.v
theories/Proofs/LstsqFacts.v
theories/Proofs/MapFacts.v
theories/Proofs/MemoryFacts.v
theories/Proofs/ModelFacts.v
theories/Proofs/ModelFileFacts.v
theories/Proofs/MoveoutFacts.v
theories/Proofs/MoveoutMain.v
theories/Proofs/MultitaperFacts.v
theories/Proofs/MultitaperMain.v
theories/Proofs/OnceFacts.v
theories/Proofs/PeakFacts.v
theories/Proofs/PlotArchiveFacts.v
theories/Proofs/PpointFacts.v
theories/Proofs/ProfileCmdFacts.v
theories/Proofs/ProfileFacts.v
theories/Proofs/PyFacts.v
theories/Proofs/QFacts.v
theories/Proofs/RequestFacts.v
theories/Proofs/RfFacts.v
theories/Proofs/RfstatsFacts.v
theories/Proofs/RotateFacts.v
theories/Proofs/SacFacts.v
theories/Proofs/SpikeFacts.v
theories/Proofs/StackArchiveFacts.v
theories/Proofs/StackCmdFacts.v
theories/Proofs/StackFacts.v
theories/Proofs/StrFacts.v
theories/Proofs/SumFacts.v
theories/Proofs/TimeFacts.v
theories/Proofs/TrigPolyFacts.v
theories/Proofs/UtilFacts.v
theories/Proofs/WaterFacts.v
theories/Proofs/WriteFacts.v
theories/Properties/AmplitudeProps.v
theories/Properties/ArrivalProps.v
theories/Properties/BatchProps.v
theories/Properties/BoxProps.v
theories/Properties/CliProps.v
theories/Properties/ConfigProps.v
theories/Properties/ConvProps.v
theories/Properties/ConvertProps.v
theories/Properties/DataCmdProps.v
theories/Properties/DeconvProps.v
theories/Properties/DeconvTimeProps.v
theories/Properties/DepthAxisProps.v
theories/Properties/DispatchProps.v
theories/Properties/EndProps.v
theories/Properties/EventProps.v
theories/Properties/FigureProps.v
theories/Properties/FloatProps.v
theories/Properties/HarmonicProps.v
theories/Properties/HarmonicProps2.v
theories/Properties/HarmonicProps3.v
theories/Properties/HeaderProps.v
theories/Properties/ImagingProps.v
theories/Properties/IterProps.v
theories/Properties/LocalProps.v
theories/Properties/MapProps.v
theories/Properties/MemoryProps.v
theories/Properties/ModelFileProps.v
theories/Properties/ModelProps.v
theories/Properties/MoveoutProps.v
theories/Properties/MultitaperProps.v
theories/Properties/NoiseProps.v
theories/Properties/OnceProps.v
theories/Properties/PeakProps.v
theories/Properties/PipelineProps.v
theories/Properties/PlotArchiveProps.v
theories/Properties/ProfileCmdProps.v
theories/Properties/ProfileProps.v
theories/Properties/RequestProps.v
theories/Properties/RfProps.v
theories/Properties/RotateProps.v
theories/Properties/SMultipleProps.v
theories/Properties/SacProps.v
theories/Properties/SpikeProps.v
theories/Properties/StackArchiveProps.v
theories/Properties/StackCmdProps.v
theories/Properties/StackProps.v
theories/Properties/StatsProps.v
theories/Properties/StrProps.v
theories/Properties/TimeProps.v
theories/Properties/UtilProps.v
theories/Properties/WaterProps.v
