-Q theories Verif
theories/Base.v
theories/U8Pool.v
theories/PoolSpec.v
theories/PoolProofs.v
theories/Prop_U8Pool.v
theories/Buffer.v
theories/BufferSpec.v
theories/BufferProofs.v
theories/Prop_Buffer.v
theories/Jiter.v
theories/JiterValue.v
theories/JiterProofs.v
theories/JiterValueProofs.v
theories/RJiter.v
theories/RJiterSpec.v
theories/RJiterProofs.v
theories/RJiterOpProofs.v
theories/RJiterLookProofs.v
theories/RJiterLongProofs.v
theories/RJiterIndexProofs.v
theories/RJiterWitness.v
theories/Prop_RJiter.v
theories/Scan.v
theories/ScanSpec.v
theories/RJiterInvProofs.v
theories/ScanTokens.v
theories/ScanParser.v
theories/RJiterEndProofs.v
theories/ScanStack.v
theories/ScanProofs.v
theories/ScanTop.v
theories/EndsSpec.v
theories/ScanBalance.v
theories/ScanExamples.v
theories/ScanSse.v
theories/ScanEnds.v
theories/Prop_Scan.v
theories/IdTransform.v
theories/IdSpec.v
theories/IdProofs.v
theories/ReadErrors.v
theories/Prop_IdTransform.v
theories/DdbSpec.v
theories/Conv.v
theories/NormalToDdb.v
theories/DdbToNormal.v
theories/Transducer.v
theories/ConvSpec.v
theories/ConvProofs.v
theories/N2dProofs.v
theories/D2nProofs.v
theories/NoJson.v
theories/ConvResults.v
theories/Prop_Converters.v
theories/EndResults.v
theories/Prop_Ends.v
theories/SoundSpec.v
theories/SoundParser.v
theories/ScanSound.v
theories/SoundResults.v
theories/Prop_Sound.v
theories/ConvSound.v
theories/N2dSound.v
theories/Prop_ConvSound.v
theories/ValueSpec.v
theories/ValueProofs.v
theories/Prop_Value.v
theories/Twin.v
theories/TwinConv.v
theories/Cli.v
theories/CliSpec.v
theories/CliProofs.v
theories/Prop_Cli.v
theories/TwinId.v
theories/Bench.v
theories/BenchSpec.v
theories/BenchProofs.v
theories/BenchRun.v
theories/BenchTrim.v
theories/BenchKit.v
theories/BenchCases.v
theories/Prop_Bench.v
theories/ErrorSpec.v
theories/ErrorProofs.v
theories/Messages.v
theories/MessageSpec.v
theories/MessageProofs.v
theories/ConvErrors.v
theories/Prop_Messages.v
theories/ConvPosition.v
theories/Prop_Errors.v
theories/MemorySpec.v
theories/Memory.v
theories/Prop_Memory.v
theories/Tests_U8Pool.v
theories/Tests_Buffer.v
theories/Tests_RJiter.v
theories/Tests_Scan.v
theories/Tests_Converters.v
theories/N2dHang.v
theories/CliHang.v
theories/Prop_Hang.v
theories/Tests_Fixtures.v
theories/RJiterGreedy.v
theories/Readme.v
theories/ReadmeSpec.v
theories/ScanRefine.v
theories/ReadmeProofs.v
theories/PeekTokens.v
theories/Tests_Readme.v
theories/Prop_Readme.v
theories/PyBench.v
theories/PyBenchSpec.v
theories/PyBenchProofs.v
theories/PyBenchRun.v
theories/PyNumbers.v
theories/PyKit.v
theories/PyCases.v
theories/Prop_PyBench.v
theories/Wrapping.v
theories/Agree.v
theories/WrapProofs.v
theories/WrapCases.v
theories/Prop_Wrapping.v
theories/Thrift.v
theories/ThriftConv.v
theories/N2dFlood.v
theories/Prop_Size.v
theories/BackSpec.v
theories/BackTrip.v
theories/Prop_Back.v
theories/CutSpec.v
theories/Severed.v
theories/SeveredScan.v
theories/SeveredConv.v
theories/Prop_Cut.v
theories/FlushConv.v
theories/FlushToDdb.v
theories/FlushFromDdb.v
theories/FlushProofs.v
theories/FlushTwin.v
theories/FlushResults.v
theories/Prop_Flush.v
theories/FreshSpec.v
theories/Fresh.v
theories/FreshScan.v
theories/FreshConv.v
theories/Prop_Fresh.v
theories/N2dThrift.v
theories/UnicodeSpec.v
theories/UnicodeProofs.v
theories/PairProofs.v
theories/Prop_Unicode.v
theories/TypeSpec.v
theories/TypeProofs.v
theories/Prop_Types.v
theories/Utf8Spec.v
theories/Utf8Proofs.v
theories/Prop_Utf8.v
theories/Tests_Contexts.v
theories/Tests_Bench.v
theories/Tests_Guide.v
theories/Utf8Always.v
theories/Utf8Runs.v
theories/Prompt.v
theories/Prop_Prompt.v
theories/ArrivedSpec.v
theories/Arrived.v
theories/ArrivedScan.v
theories/ArrivedConv.v
theories/ArrivedRecords.v
theories/Prop_Arrived.v
theories/FaultSpec.v
theories/FaultProofs.v
theories/FaultLong.v
theories/Prop_Faults.v
theories/ReadsSpec.v
theories/Reads.v
theories/ReadsErr.v
theories/Prop_Reads.v
theories/ArrivedEnd.v
theories/AgainSpec.v
theories/Again.v
theories/Prop_Again.v
theories/FaultTextSpec.v
theories/FaultText.v
theories/FaultKeySpec.v
theories/FaultKeys.v
theories/FaultComma.v
theories/Prop_FaultKeys.v
theories/FaultWordSpec.v
theories/FaultWord.v
theories/Prop_FaultWord.v
theories/FaultNumberSpec.v
theories/FaultNumber.v
theories/Prop_FaultNumber.v
theories/FaultAtomSpec.v
theories/FaultAtom.v
theories/FaultTop.v
theories/Prop_FaultAtom.v
theories/FaultDeepSpec.v
theories/FaultDeep.v
theories/FaultDeepTop.v
theories/Prop_FaultDeep.v
theories/LineEndSpec.v
theories/LineEnds.v
theories/Prop_LineEnds.v
