-Q theories Verif
theories/Base.v
theories/Exec.v
theories/Fmt.v
theories/Dispatch.v
theories/Common.v
theories/Scalar.v
theories/Wrappers.v
theories/Simd.v
theories/Vector.v
theories/Sse2.v
theories/Avx2.v
theories/Neon.v
theories/CpuInfo.v
theories/Lib.v
theories/Sets.v
theories/Area.v
theories/Spec.v
theories/SimdSpec.v
theories/SetSpec.v
theories/PixelFacts.v
theories/KernelBase.v
theories/ForwardProofs.v
theories/BackwardProofs.v
theories/SimdFacts.v
theories/VecForward.v
theories/X86Forward.v
theories/Sse2Forward.v
theories/Avx2Forward.v
theories/NeonForward.v
theories/VecBackward.v
theories/Sse2Backward.v
theories/Avx2Backward.v
theories/Bytes.v
theories/ReorderProofs.v
theories/VecReorder.v
theories/NeonReorder.v
theories/Sse2Reorder.v
theories/Avx2Reorder.v
theories/WrapperFacts.v
theories/ApiSpec.v
theories/Api.v
theories/ConvProofs.v
theories/HybridFacts.v
theories/LibFacts.v
theories/ApiProofs.v
theories/SetProofs.v
theories/FinalProofs.v
theories/ConvertProofs.v
theories/ResultFacts.v
theories/SizeFacts.v
theories/Quiet.v
theories/CallFacts.v
theories/Pad.v
theories/PadFacts.v
theories/PropFacts.v
theories/SizeProps.v
theories/Once.v
theories/OnceFacts.v
theories/CApiFacts.v
theories/CpuSpec.v
theories/CpuFacts.v
theories/PropsConvert.v
theories/PropsApi.v
theories/Itu.v
theories/PixelSpec.v
theories/ItuFacts.v
theories/PixelProps.v
theories/PixelApi.v
theories/PropsPixel.v
theories/DocSpec.v
theories/DocFacts.v
theories/BandSpec.v
theories/BandFacts.v
theories/CropFacts.v
theories/WeightSpec.v
theories/Process.v
theories/ProcessSpec.v
theories/ProcessFacts.v
theories/AcceptSpec.v
theories/AcceptFacts.v
theories/CastFacts.v
theories/NeedFacts.v
theories/AlphaFacts.v
theories/ExactFacts.v
theories/Extend.v
theories/ReachSpec.v
theories/ReachFacts.v
theories/InsideFacts.v
theories/PropsMore.v
theories/PropsInside.v
theories/SizeSpec.v
theories/SizeExact.v
theories/PropsSize.v
theories/TripSpec.v
theories/TripFacts.v
theories/PropsTrip.v
theories/EndianSpec.v
theories/Trace.v
theories/CourseSpec.v
theories/BigFacts.v
theories/PropsEndian.v
theories/BigOrderSpec.v
theories/BigReorder.v
theories/BigOrderFacts.v
theories/BigC.v
theories/PropsBigOrder.v
theories/Header.v
theories/HeaderSpec.v
theories/HeaderFacts.v
theories/PropsHeader.v
theories/RefSpec.v
theories/RefFacts.v
theories/PropsRef.v
theories/RgbTripSpec.v
theories/RgbTripFacts.v
theories/PropsRgbTrip.v
theories/RecodeSpec.v
theories/RecodeFacts.v
theories/PropsRecode.v
theories/GenWeights.v
theories/FloatFacts.v
theories/GenError.v
theories/GenSpec.v
theories/GenFacts.v
theories/PropsGen.v
theories/RouteSpec.v
theories/RouteFacts.v
theories/PropsRoute.v
theories/DataSpec.v
theories/DataFacts.v
theories/PropsData.v
theories/MoveSpec.v
theories/MoveFacts.v
theories/PropsMove.v
theories/WhereSpec.v
theories/WhereFacts.v
theories/PropsWhere.v
theories/Thread.v
theories/ThreadSpec.v
theories/ThreadFacts.v
theories/ThreadBandFacts.v
theories/PropsThread.v
theories/TraceSpec.v
theories/TraceFacts.v
theories/TraceRunFacts.v
theories/StillFacts.v
theories/PropsTrace.v
theories/CThread.v
theories/CThreadSpec.v
theories/CThreadFacts.v
theories/CThreadRunFacts.v
theories/PropsCThread.v
theories/TileSpec.v
theories/TileFacts.v
theories/TileRunFacts.v
theories/TileColFacts.v
theories/PropsTile.v
theories/PropsCourse.v
theories/WriteSpec.v
theories/CountFacts.v
theories/TwiceFacts.v
theories/CountRunFacts.v
theories/PropsWrite.v
theories/WrapSpec.v
theories/WrapFacts.v
theories/PropsWrap.v
theories/WorkSpec.v
theories/WorkFacts.v
theories/WorkRunFacts.v
theories/PropsWork.v
theories/ReadSpec.v
theories/ReadFacts.v
theories/ReadSetFacts.v
theories/ReadRunFacts.v
theories/PropsRead.v
theories/ModSpec.v
theories/ModFacts.v
theories/PropsMod.v
theories/EverySpec.v
theories/EveryFacts.v
theories/PropsEvery.v
theories/OnlySpec.v
theories/OnlyFacts.v
theories/PropsOnly.v
theories/MeanFacts.v
theories/PropsMean.v
theories/BrightSpec.v
theories/BrightFacts.v
theories/PropsBright.v
theories/MixSpec.v
theories/MixFacts.v
theories/PropsMix.v
theories/FlatSpec.v
theories/FlatFacts.v
theories/PropsFlat.v
theories/NegSpec.v
theories/NegFacts.v
theories/PropsNeg.v
theories/RepoTests.v
theories/CTests.v
