-Q theories Verif
theories/Spec/Seq.v
theories/Model/SplitSize.v
theories/Model/SimdArray.v
theories/Model/Mem.v
theories/Model/SimdArrayOps.v
theories/Model/ScalarVec.v
theories/Spec/NativeSpec.v
theories/Spec/MaskSpec.v
theories/Spec/OperandSpec.v
theories/Proof/SeqP.v
theories/Proof/SplitSizeP.v
theories/Proof/SimdArrayP.v
theories/Proof/SimdArrayMoveP.v
theories/Proof/SimdArrayOrdP.v
theories/Proof/SimdArrayOpsP.v
theories/Proof/ScalarVecP.v
theories/Proof/SimdArrayMain.v
theories/Props/SimdArrayProps.v
theories/Model/Word.v
theories/Model/Fp.v
theories/Model/SseReg.v
theories/Model/SseMove.v
theories/Model/SortNet.v
theories/Model/SseInt.v
theories/Model/SseBuild.v
theories/Proof/WordP.v
theories/Proof/SseMoveP.v
theories/Proof/SseVecP.v
theories/Proof/SortNetP.v
theories/Proof/SseIntP.v
theories/Proof/SseEmulP.v
theories/Proof/SseBuildP.v
theories/Proof/SseBuildMain.v
theories/Props/SseBuildProps.v
theories/Spec/FloatSpec.v
theories/Spec/VectorSpec.v
theories/Model/SseArith.v
theories/Model/SseMask.v
theories/Model/SseNative.v
theories/Proof/FpP.v
theories/Proof/SseMaskP.v
theories/Proof/SseArithP.v
theories/Proof/SseNativeP.v
theories/Proof/SseFloatRedP.v
theories/Proof/SseVecMain.v
theories/Props/SseVecProps.v
theories/Model/BitScan.v
theories/Model/GatherScatter.v
theories/Spec/GatherSpec.v
theories/Proof/BitScanP.v
theories/Proof/GatherP.v
theories/Proof/GatherMain.v
theories/Props/GatherProps.v
theories/Model/Algorithms.v
theories/Spec/MemSpec.v
theories/Spec/AlgorithmSpec.v
theories/Proof/AlgorithmsP.v
theories/Proof/AlgorithmsMain.v
theories/Props/AlgorithmsProps.v
theories/Model/MemoryClass.v
theories/Model/Malloc.v
theories/Proof/MemoryP.v
theories/Proof/MemoryMain.v
theories/Props/MemoryProps.v
theories/Model/Interleave.v
theories/Model/CheckIndexes.v
theories/Model/Deinterleave.v
theories/Spec/InterleaveSpec.v
theories/Proof/InterleaveP.v
theories/Proof/InterleaveMain.v
theories/Props/InterleaveProps.v
theories/Model/FpArith.v
theories/Spec/RoundSpec.v
theories/Spec/CastSpec.v
theories/Model/SseConvert.v
theories/Proof/FpArithP.v
theories/Proof/FpIntP.v
theories/Proof/ConvertP.v
theories/Proof/ConvertRegP.v
theories/Proof/DivP.v
theories/Proof/ConvertMain.v
theories/Props/ConvertProps.v
theories/Spec/MathSpec.v
theories/Spec/ShuffleSpec.v
theories/Model/SseMath.v
theories/Model/Shuffle.v
theories/Proof/MathP.v
theories/Proof/ShuffleP.v
theories/Proof/PopcntP.v
theories/Proof/MathMain.v
theories/Proof/ShuffleMain.v
theories/Props/MathProps.v
theories/Props/ShuffleProps.v
theories/Spec/SimdizeSpec.v
theories/Model/Simdize.v
theories/Proof/SimdizeP.v
theories/Proof/SimdizeMain.v
theories/Props/SimdizeProps.v
theories/Model/AvxReg.v
theories/Model/AvxMove.v
theories/Model/AvxBuild.v
theories/Proof/AvxMoveP.v
theories/Proof/AvxVecP.v
theories/Proof/AvxBuildP.v
theories/Proof/AvxBuildMain.v
theories/Props/AvxBuildProps.v
theories/Model/AvxShuffle.v
theories/Proof/AvxShuffleP.v
theories/Proof/AvxShuffleMain.v
theories/Props/AvxShuffleProps.v
theories/Model/AvxMask.v
theories/Model/AvxArith.v
theories/Proof/AvxMaskP.v
theories/Proof/AvxArithP.v
theories/Proof/AvxNativeP.v
theories/Proof/AvxVecMain.v
theories/Props/AvxVecProps.v
theories/Model/AvxConvert.v
theories/Model/AvxInterleave.v
theories/Proof/AvxConvertP.v
theories/Proof/AvxCastP.v
theories/Proof/AvxCast2P.v
theories/Proof/AvxMaskCastP.v
theories/Proof/AvxDivP.v
theories/Proof/AvxConvertMain.v
theories/Proof/AvxInterleaveP.v
theories/Proof/AvxInterleaveMain.v
theories/Props/AvxConvertProps.v
theories/Props/AvxInterleaveProps.v
theories/Model/AvxMath.v
theories/Proof/AvxMathP.v
theories/Proof/AvxMathMain.v
theories/Props/AvxMathProps.v
theories/Model/AvxGather.v
theories/Spec/ByteMemSpec.v
theories/Proof/AvxGatherP.v
theories/Proof/AvxGatherMain.v
theories/Props/AvxGatherProps.v
theories/Spec/LoadSpec.v
theories/Model/LoadStore.v
theories/Proof/LoadStoreP.v
theories/Proof/StoreP.v
theories/Proof/LoadStoreMain.v
theories/Props/LoadStoreProps.v
theories/Spec/TransSpec.v
theories/Model/Transcend.v
theories/Proof/TranscendP.v
theories/Proof/Transcend2P.v
theories/Proof/Transcend3P.v
theories/Proof/TranscendMain.v
theories/Props/TranscendProps.v
theories/Spec/ArrayCastSpec.v
theories/Model/ArrayCast.v
theories/Spec/NativeCastSpec.v
theories/Model/NativeCast.v
theories/Proof/ArrayCastP.v
theories/Proof/NativeCastP.v
theories/Proof/ArrayCastMain.v
theories/Props/ArrayCastProps.v
theories/Spec/AllocatorSpec.v
theories/Model/Allocator.v
theories/Model/MakeContainer.v
theories/Spec/CpuSpec.v
theories/Model/CpuId.v
theories/Proof/AllocatorP.v
theories/Proof/MakeContainerP.v
theories/Proof/CpuIdP.v
theories/Proof/AllocatorMain.v
theories/Proof/CpuIdMain.v
theories/Props/AllocatorProps.v
theories/Props/CpuIdProps.v
theories/Spec/SubscriptSpec.v
theories/Model/Subscript.v
theories/Proof/SubscriptP.v
theories/Proof/SubscriptMain.v
theories/Props/SubscriptProps.v
theories/Spec/SpanSpec.v
theories/Model/Span.v
theories/Proof/SpanMain.v
theories/Props/SpanProps.v
theories/Spec/LayoutSpec.v
theories/Model/ElementRef.v
theories/Proof/ElementRefP.v
theories/Proof/ElementRefMain.v
theories/Props/ElementRefProps.v
theories/Spec/OperatorSpec.v
theories/Model/Operators.v
theories/Proof/OperatorsP.v
theories/Proof/OperatorsMain.v
theories/Props/OperatorsProps.v
theories/Spec/ScalarSpec.v
theories/Model/ScalarMath.v
theories/Model/ArrayMath.v
theories/Proof/ScalarMathP.v
theories/Proof/ScalarMathMain.v
theories/Proof/ArrayMathMain.v
theories/Props/ScalarMathProps.v
theories/Props/ArrayMathProps.v
theories/Model/MaskedDiv.v
theories/Spec/MaskedDivSpec.v
theories/Proof/MaskedDivP.v
theories/Proof/MaskedDivMain.v
theories/Props/MaskedDivProps.v
theories/Model/Output.v
theories/Spec/OutputSpec.v
theories/Proof/OutputP.v
theories/Proof/OutputMain.v
theories/Props/OutputProps.v
theories/Model/MemoryIter.v
theories/Proof/MemoryIterMain.v
theories/Props/MemoryIterProps.v
theories/Model/Tie.v
theories/Spec/TieSpec.v
theories/Proof/TieMain.v
theories/Props/TieProps.v
theories/Model/EntryIter.v
theories/Proof/EntryIterMain.v
theories/Props/EntryIterProps.v
theories/Spec/ArraySpec.v
theories/Model/VcArray.v
theories/Proof/VcArrayMain.v
theories/Props/VcArrayProps.v
theories/Model/Program.v
theories/Spec/PortableSpec.v
theories/Model/Portable.v
theories/Proof/PortableP.v
theories/Proof/PortableMemP.v
theories/Proof/MaskedEmptyP.v
theories/Proof/PortableOpsP.v
theories/Proof/PortableMain.v
theories/Props/PortableProps.v
theories/Spec/ScalarLoadSpec.v
theories/Model/ScalarLoad.v
theories/Proof/ScalarLoadP.v
theories/Proof/ScalarLoadMain.v
theories/Props/ScalarLoadProps.v
theories/Spec/AccuracySpec.v
theories/Proof/RealErrP.v
theories/Proof/PiBoundP.v
theories/Proof/SeriesP.v
theories/Proof/FoldP.v
theories/Proof/AccuracyP.v
theories/Proof/AccuracyMain.v
theories/Props/AccuracyProps.v
theories/Proof/PolyP.v
theories/Proof/ExpRealP.v
theories/Proof/RealOpsP.v
theories/Proof/ExpSerP.v
theories/Proof/ExpRedP.v
theories/Proof/ExpAccP.v
theories/Proof/ExpAccMain.v
theories/Props/ExpAccProps.v
theories/Proof/LogRealP.v
theories/Proof/LogRedP.v
theories/Proof/LogOpsP.v
theories/Proof/LogSerP.v
theories/Proof/LogAccP.v
theories/Proof/LogAccMain.v
theories/Props/LogAccProps.v
theories/Proof/AtanRealP.v
theories/Proof/AtanSerP.v
theories/Proof/AtanAccP.v
theories/Proof/AtanAccMain.v
theories/Props/AtanAccProps.v
theories/Spec/AngleSpec.v
theories/Proof/Atan2AccP.v
theories/Proof/Atan2AccMain.v
theories/Props/Atan2AccProps.v
theories/Proof/SqrtP.v
theories/Proof/AsinRealP.v
theories/Proof/AsinSerP.v
theories/Proof/AsinAccP.v
theories/Proof/AsinAccMain.v
theories/Props/AsinAccProps.v
theories/Spec/PortableFpSpec.v
theories/Model/PortableFp.v
theories/Proof/PortableFpP.v
theories/Proof/PortableFpSortP.v
theories/Proof/PortableFpSumP.v
theories/Proof/PortableFpProdP.v
theories/Proof/PortableFpPsumP.v
theories/Proof/PortableFpMaskSumP.v
theories/Proof/PortableFpMaskProdP.v
theories/Proof/PortableFpSimP.v
theories/Proof/PortableFpMain.v
theories/Props/PortableFpProps.v
theories/Spec/RootSpec.v
theories/Model/Roots.v
theories/Proof/RootP.v
theories/Proof/RootRealP.v
theories/Proof/RootsMain.v
theories/Props/RootsProps.v
theories/Spec/HeapSpec.v
theories/Model/HeapNew.v
theories/Proof/HeapNewP.v
theories/Proof/HeapNewMain.v
theories/Props/HeapNewProps.v
theories/Spec/VersionSpec.v
theories/Model/Version.v
theories/Proof/VersionMain.v
theories/Props/VersionProps.v
