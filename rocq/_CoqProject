-Q theories Verif
theories/Base.v
theories/BitIO.v
theories/BitSpec.v
theories/BitFacts.v
theories/BitIOProofs.v
theories/BitLemmas.v
theories/Boxes.v
theories/WireFormat.v
theories/BoxTac.v
theories/BoxWrite.v
theories/BoxRead.v
theories/Box.v
theories/BoxSpec.v
theories/BoxIO.v
theories/BoxSize.v
theories/BoxSafe.v
theories/BoxInv.v
theories/DescriptorSpec.v
theories/RegistrySpec.v
theories/TimeSpec.v
theories/Time.v
theories/TimeProofs.v
theories/Print.v
theories/Conformance.v
theories/UnitVectors.v
theories/PrintSpec.v
theories/PrintProofs.v
theories/PrintInj.v
theories/BoxTree.v
theories/TreeSpec.v
theories/TreeProofs.v
theories/TreeLayout.v
theories/TreeRead.v
theories/TreePrint.v
theories/ReaderTotal.v
theories/ReaderTiling.v
theories/BoxLemmas.v
theories/BoxExact.v
theories/RegistryProofs.v
theories/H264.v
theories/Track.v
theories/Writers.v
theories/MovieSpec.v
theories/AnnexBSpec.v
theories/H264Proofs.v
theories/TrackProofs.v
theories/TrakProofs.v
theories/SessionProofs.v
theories/MovieShape.v
theories/Completion.v
theories/MovieSize.v
theories/FileProofs.v
theories/SimpleFile.v
theories/FaststartFile.v
theories/TrackLemmas.v
theories/FileLemmas.v
theories/PropBits.v
theories/PropBoxes.v
theories/TreeLemmas.v
theories/ReaderPrint.v
theories/DumpSpec.v
theories/DumpProofs.v
theories/Rewrite.v
theories/PropTree.v
theories/PropTrack.v
theories/PropFile.v
theories/RoundTrip.v
theories/PropRoundTrip.v
theories/PropH264.v
theories/PropTime.v
theories/PropPrint.v
theories/Memory.v
theories/MemoryProofs.v
theories/PropMemory.v
theories/Float.v
theories/FloatProofs.v
theories/DurationSpec.v
theories/DurationProofs.v
theories/PropDuration.v
theories/Truncation.v
theories/Device.v
theories/FailureSpec.v
theories/DeviceProofs.v
theories/OpenEnd.v
theories/Interrupt.v
theories/InterruptLemmas.v
theories/Refusal.v
theories/Kept.v
theories/Begun.v
theories/PropFailure.v
theories/StringStream.v
theories/Appending.v
theories/PropStream.v
theories/CallSpec.v
theories/CallProofs.v
theories/PropCalls.v
theories/Muxer.v
theories/MuxerSpec.v
theories/MuxerProofs.v
theories/PropMuxer.v
theories/WriterMemory.v
theories/WriterMemoryProofs.v
theories/WriterLife.v
theories/PropWriterMemory.v
theories/Resource.v
theories/PropResource.v
theories/FinishOrder.v
theories/PropOrder.v
theories/CompareSpec.v
theories/Compare.v
theories/PropCompare.v
theories/IndependenceSpec.v
theories/Independence.v
theories/PropIndependence.v
theories/ChunkSpec.v
theories/Chunks.v
theories/PropChunks.v
theories/WeightSpec.v
theories/Weight.v
theories/PropWeight.v
theories/ConcatSpec.v
theories/Concat.v
theories/PropConcat.v
theories/ScanSpec.v
theories/ScanProofs.v
theories/PropScan.v
theories/OverwriteSpec.v
theories/Overwrite.v
theories/PropOverwrite.v
theories/Reread.v
theories/PropReread.v
theories/Cost.v
theories/CostSpec.v
theories/CostProofs.v
theories/PropCost.v
theories/StructureSpec.v
theories/PropStructure.v
theories/ReadErrors.v
theories/ReadErrorsProofs.v
theories/PropReadErrors.v
theories/SaveSpec.v
theories/PropSave.v
theories/Alloc.v
theories/AllocSpec.v
theories/AllocProofs.v
theories/AllocExact.v
theories/PropAlloc.v
theories/SeekSpec.v
theories/PropSeek.v
theories/ExactSpec.v
theories/ExactProofs.v
theories/PropExact.v
theories/TilingSpec.v
theories/TilingProofs.v
theories/PropTiling.v
theories/TmpFile.v
theories/TmpFileProofs.v
theories/PropTmpFile.v
theories/TextSpec.v
theories/TextProofs.v
theories/TextSound.v
theories/TextUnique.v
theories/PropText.v
theories/Findings.v
