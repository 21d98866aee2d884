-Q theories Verif
theories/Base.v
theories/ByteModel.v
theories/ByteSpec.v
theories/ByteProofs.v
theories/ByteProps.v
theories/BitModel.v
theories/BitSpec.v
theories/BitProofs.v
theories/BitProofs2.v
theories/BitMain.v
theories/BitProps.v
theories/BitQueueSpec.v
theories/BitQueueProofs.v
theories/BitQueueProofs2.v
theories/BitQueueMain.v
theories/BitQueueProps.v
theories/CodebookModel.v
theories/CodebookSpec.v
theories/CodebookProofs.v
theories/CodebookProofs2.v
theories/CodebookSizeProofs.v
theories/CodebookProofs3.v
theories/CodebookProofs4.v
theories/CodebookProofs5.v
theories/CodebookProofs6.v
theories/CodebookExamples.v
theories/CodebookProps.v
theories/CbQueueSpec.v
theories/CbQueueProofs.v
theories/CbBlockProofs.v
theories/CbBlockProofs2.v
theories/CbQueueProps.v
theories/DescModel.v
theories/DescSpec.v
theories/DescProofs.v
theories/DescMain.v
theories/DescProps.v
theories/AccModel.v
theories/AccSpec.v
theories/AccProofs.v
theories/AccProofs2.v
theories/AccExamples.v
theories/AccMain.v
theories/AccProps.v
theories/FormatModel.v
theories/DemuxModel.v
theories/DemuxSpec.v
theories/DemuxProofs.v
theories/DemuxProofs2.v
theories/DemuxProofs3.v
theories/DemuxExamples.v
theories/DemuxMain.v
theories/DemuxProps.v
theories/MuxModel.v
theories/MuxSpec.v
theories/MuxProofs.v
theories/MuxMain.v
theories/MuxProps.v
theories/StreamModel.v
theories/StreamSpec.v
theories/StreamProofs.v
theories/StreamLossProofs.v
theories/StreamMain.v
theories/StreamSmallProofs.v
theories/StreamProps.v
theories/AudioModel.v
theories/PixelModel.v
theories/FrameModel.v
theories/DisplayModel.v
theories/DataSpec.v
theories/DataProofs.v
theories/FrameProofs.v
theories/FrameProofs2.v
theories/DisplayProofs.v
theories/AudioMain.v
theories/AudioProps.v
theories/PixelMain.v
theories/PixelProps.v
theories/FrameMain.v
theories/FrameProps.v
theories/FrameCopyProofs.v
theories/FrameCopyMain.v
theories/FrameCopyProps.v
theories/CodecModel.v
theories/CodecSpec.v
theories/CodecMain.v
theories/CodecProps.v
theories/AccessModel.v
theories/AccessMain.v
theories/AccessProps.v
theories/PipeSpec.v
theories/PipeProofs.v
theories/PipeProps.v
theories/RetrySpec.v
theories/RetryProofs.v
theories/RetryMain.v
theories/RetryProps.v
theories/BufSizeSpec.v
theories/BufSizeProofs.v
theories/BufSizeMain.v
theories/BufSizeProps.v
theories/WordBitModel.v
theories/WordAccModel.v
theories/WordSpec.v
theories/WordBitProofs.v
theories/WordAccProofs.v
theories/WordProps.v
theories/ReleaseModel.v
theories/FrameSizeSpec.v
theories/FrameSizeProofs.v
theories/ReleaseProofs.v
theories/ReleaseProps.v
theories/AccAnySpec.v
theories/AccAnyProofs.v
theories/AccAnyMain.v
theories/AccAnyProps.v
theories/AccMutSpec.v
theories/AccMutProofs.v
theories/AccMutProps.v
theories/PatchSpec.v
theories/PatchProofs.v
theories/PatchProps.v
theories/StdReadSpec.v
theories/StdReadProofs.v
theories/StdReadProps.v
theories/WordCountModel.v
theories/WordCountSpec.v
theories/WordCountProofs.v
theories/WordCountProps.v
theories/ReleaseBitModel.v
theories/ReleaseBitSpec.v
theories/ReleaseBitProofs.v
theories/ReleaseBitProps.v
theories/ReleaseAccModel.v
theories/ReleaseAccSpec.v
theories/ReleaseAccProofs.v
theories/ReleaseAccProps.v
theories/TextSpec.v
theories/TextProofs.v
theories/TextProps.v
theories/PredefSpec.v
theories/PredefProofs.v
theories/PredefProps.v
theories/MissingProofs.v
theories/MissingProps.v
theories/WordDemuxModel.v
theories/WordDemuxSpec.v
theories/WordDemuxProofs.v
theories/WordDemuxProofs2.v
theories/WordDemuxProps.v
theories/ReleaseCbModel.v
theories/ReleaseCbSpec.v
theories/ReleaseCbProofs.v
theories/ReleaseCbProofs2.v
theories/ReleaseCbProps.v
theories/ReleaseMiscModel.v
theories/ReleaseMiscSpec.v
theories/ReleaseMiscProofs.v
theories/ReleaseMiscProps.v
theories/MachineModel.v
theories/MachineAccModel.v
theories/MachineAccSpec.v
theories/MachineAccProofs.v
theories/MachineAccProofs2.v
theories/MachineAccProps.v
theories/MachinePanicSpec.v
theories/MachinePanicProofs.v
theories/MachinePanicProps.v
theories/MachineCountModel.v
theories/MachineCountSpec.v
theories/MachineCountProofs.v
theories/MachineCountProps.v
theories/MachineFrameModel.v
theories/MachineFrameSpec.v
theories/MachineFrameProofs.v
theories/MachineFrameProofs2.v
theories/MachineFrameProps.v
theories/MachineBitModel.v
theories/MachineBitSpec.v
theories/MachineBitProofs.v
theories/MachineBitProofs2.v
theories/MachineBitProofs3.v
theories/MachineBitProofs4.v
theories/MachineBitProps.v
theories/MachineCbModel.v
theories/MachineCbSpec.v
theories/MachineCbProofs.v
theories/MachineCbProofs2.v
theories/MachineCbProofs3.v
theories/MachineCbProofs4.v
theories/MachineCbExamples.v
theories/MachineCbProps.v
theories/MachineAllocModel.v
theories/MachineAllocSpec.v
theories/MachineAllocProofs.v
theories/MachineAllocProps.v
theories/MachineDemuxModel.v
theories/MachineDemuxSpec.v
theories/MachineDemuxProofs.v
theories/MachineDemuxProofs2.v
theories/MachineDemuxProps.v
theories/MachineLooseProofs.v
theories/MachineLooseProps.v
theories/CodebookSparse.v
theories/CodebookLargeSpec.v
theories/CodebookLargeProofs.v
theories/CodebookLargeProps.v
theories/CbMalformedSpec.v
theories/CbLevelSpec.v
theories/CbMalformedProofs.v
theories/CbMalformedProofs2.v
theories/CbMalformedProofs3.v
theories/CbMalformedProps.v
theories/CbLevelProofs.v
theories/CbLevelProps.v
theories/CbShadowSpec.v
theories/CbShadowProofs.v
theories/CbShadowProps.v
theories/CbFullSpec.v
theories/CbFullProofs.v
theories/CbFullProps.v
theories/CbFullRelSpec.v
theories/CbFullRelProofs.v
theories/CbFullRelProps.v
theories/CbFullMachSpec.v
theories/CbFullMachProofs.v
theories/CbFullMachProps.v
theories/CbMisfitSpec.v
theories/CbMisfitProofs.v
theories/CbMisfitBits.v
theories/CbMisfitProps.v
theories/CbEndlessSpec.v
theories/CbEndlessProofs.v
theories/CbForeverProofs.v
theories/CbWideProofs.v
theories/CbEndlessProps.v
theories/RepoTestsBit.v
theories/BenchModel.v
theories/BenchSpec.v
theories/BenchProofs.v
theories/BenchProofs2.v
theories/BenchProofs3.v
theories/BenchProps.v
theories/RepoTests.v
theories/NestSpec.v
theories/NestProofs.v
theories/NestProps.v
theories/OverSpec.v
theories/OverProofs.v
theories/OverProps.v
theories/AnyFrameModel.v
theories/AnyFrameSpec.v
theories/AnyFrameProofs.v
theories/AnyFrameProps.v
theories/InheritSpec.v
theories/InheritProofs.v
theories/InheritProps.v
theories/MachineAnyModel.v
theories/MachineAnySpec.v
theories/MachineAnyProofs.v
theories/MachineAnyProps.v
theories/CallsSpec.v
theories/CallsProofs.v
theories/CallsProofs2.v
theories/CallsProps.v
theories/CallsProofs3.v
theories/CallsProps2.v
theories/TranscodeSpec.v
theories/TranscodeProofs.v
theories/TranscodeProps.v
theories/DemuxCallsSpec.v
theories/DemuxCallsProofs.v
theories/HeaderCallsProofs.v
theories/DemuxCallsProps.v
theories/BufGrowProofs.v
theories/BufGrowProps.v
theories/RoundsProofs.v
theories/HeaderRoundsProofs.v
theories/RoundsSpec.v
theories/RoundsTightProofs.v
theories/RoundsProps.v
theories/AccessorSpec.v
theories/AccessorProofs.v
theories/AccessorProps.v
theories/WriterCallsSpec.v
theories/WriterCallsProofs.v
theories/WriterCallsProps.v
theories/MuxBareSpec.v
theories/MuxBareProofs.v
theories/MuxBareProps.v
theories/SelfReadSpec.v
theories/SelfReadProofs.v
theories/SelfReadProps.v
theories/MessagePipeSpec.v
theories/MessagePipeProofs.v
theories/MessagePipeProps.v
theories/CompleteSpec.v
theories/CompleteProofs.v
theories/CompleteProps.v
theories/WideCbModel.v
theories/WideCbProofs.v
theories/ReleaseLongSpec.v
theories/ReleaseLongProofs.v
theories/ReleaseLongProofs2.v
theories/ReleaseLongProofs3.v
theories/ReleaseLongProps.v
theories/ExactProofs.v
theories/ExactProps.v
theories/CanonSpec.v
theories/CanonProofs.v
theories/CanonProps.v
theories/PuffSpec.v
theories/PuffProofs.v
theories/PuffProps.v
theories/MirrorSpec.v
theories/MirrorProofs.v
theories/MirrorProps.v
theories/RenameSpec.v
theories/RenameProofs.v
theories/RenameProps.v
theories/FieldSpec.v
theories/FieldProofs.v
theories/FieldProps.v
theories/ShiftSpec.v
theories/ShiftProofs.v
theories/ShiftProps.v
theories/CbLoopSpec.v
theories/CbLoopProofs.v
theories/CbLoopProofs2.v
theories/CbLoopProps.v
theories/RunSpec.v
theories/RunProofs.v
theories/RunProps.v
