-Q theories Verif

theories/Bytes.v
theories/Mem.v
theories/MemFacts.v
theories/Isa.v
theories/Simd.v
theories/SimdFacts.v
theories/PrimFacts.v
theories/Alsw.v
theories/AlswFacts.v
theories/Spec.v
theories/Loops.v
theories/Hex.v
theories/HexSimdFacts.v
theories/HexFacts.v
theories/Slices.v
theories/Codec.v
theories/HexApi.v
theories/PropHex.v
theories/Ints.v
theories/Base64.v
theories/Base64SimdFacts.v
theories/SpecFacts.v
theories/Base64Ref.v
theories/Loops2.v
theories/Base64Facts.v
theories/Base64DecFacts.v
theories/Base64Api.v
theories/PropBase64.v
theories/Base32.v
theories/Base32SimdFacts.v
theories/Base32SimdDec.v
theories/Base32Ref.v
theories/Base32Facts.v
theories/Base32DecFacts.v
theories/Base32Api.v
theories/PropBase32.v
theories/Uuid.v
theories/UuidFacts.v
theories/UuidApi.v
theories/PropUuid.v
theories/Forgiving.v
theories/ForgivingFacts.v
theories/PropForgiving.v
theories/UnicodeSpec.v
theories/Unicode.v
theories/UnicodeFacts.v
theories/SwapFacts.v
theories/LaneFacts.v
theories/Utf32Facts.v
theories/PropUnicode.v
theories/SimdProps.v
theories/PropSimd.v
theories/Dispatch.v
theories/DispatchFacts.v
theories/PropDispatch.v
theories/Heap.v
theories/HeapFacts.v
theories/PropHeap.v
theories/Unwind.v
theories/UnwindFacts.v
theories/PropUnwind.v
theories/Parallel.v
theories/ParallelFacts.v
theories/PropParallel.v
theories/VsimdSpec.v
theories/Vsimd.v
theories/VsimdFacts.v
theories/PropVsimd.v
theories/VsimdSpec2.v
theories/VsimdFacts2.v
theories/FloatSpec.v
theories/Float.v
theories/FloatFacts.v
theories/PropFloat.v
theories/PropVsimd2.v
theories/OrderFacts.v
theories/PropOrder.v
theories/Relations.v
theories/PropRelations.v
theories/Public.v
theories/PublicFacts.v
theories/PropPublic.v
theories/Align.v
theories/AlignFacts.v
theories/PropAlign.v
theories/Conc.v
theories/ConcFacts.v
theories/ConcBase64.v
theories/ConcBase64Facts.v
theories/PropConc.v
theories/Reify.v
theories/ConcApi.v
theories/ConcApiFacts.v
theories/PropThreads.v
theories/Access.v
theories/AccessFacts.v
theories/AccessCodecs.v
theories/PropAccess.v
theories/CostFacts.v
theories/CostCodecs.v
theories/PropCost.v
theories/PropMem.v
theories/Whole.v
theories/WholeFacts.v
theories/PropWhole.v
theories/Clients.v
theories/ClientsFacts.v
theories/PropClients.v
theories/LaneOrder.v
theories/LaneOrderFacts.v
theories/LaneOrderUuid.v
theories/LaneOrderExact.v
theories/PropLaneOrder.v
theories/LaneOrderWhole.v
theories/LaneOrderWholeFacts.v
theories/LaneOrderExactWhole.v
theories/LaneOrderForgiving.v
theories/PropLaneOrderWhole.v
theories/Hardware.v
theories/HardwareWasm.v
theories/AlswTests.v
theories/AlswGenFacts.v
theories/PropAlsw.v
theories/Intrinsics.v
theories/PropIntrinsics.v
theories/PrefixFacts.v
theories/PropPrefix.v
theories/PositionFacts.v
theories/PropPosition.v
theories/Borrows.v
theories/BorrowsApi.v
theories/BorrowsFacts.v
theories/BorrowsLib.v
theories/BorrowsCalls.v
theories/BorrowsBridge.v
theories/BorrowsHex.v
theories/BorrowsBase64.v
theories/BorrowsBase32.v
theories/BorrowsUuid.v
theories/BorrowsUnicode.v
theories/BorrowsForgiving.v
theories/PropBorrows.v
theories/Rename.v
theories/RenameCodecs.v
theories/Reach.v
theories/RenameFacts.v
theories/PropReach.v
theories/BorrowsParts.v
theories/BorrowsPartsFacts.v
theories/PropBorrowsParts.v
theories/BorrowsHeap.v
theories/BorrowsHeapFacts.v
theories/BorrowsHeapSteps.v
theories/BorrowsHeapCalls.v
theories/BorrowsHeapCodecs.v
theories/BorrowsHeapForgiving.v
theories/PropBorrowsHeap.v
theories/BorrowsExt.v
theories/BorrowsExtFacts.v
theories/PropBorrowsExt.v
theories/BorrowsPar.v
theories/BorrowsParFacts.v
theories/PropBorrowsPar.v
theories/PropBorrowsErase.v
theories/TreeBorrows.v
theories/TreeFacts.v
theories/TreeCalls.v
theories/TreeBridge.v
theories/TreeHex.v
theories/TreeBase64.v
theories/TreeForgiving.v
theories/TreeBase32.v
theories/TreeUnicode.v
theories/TreeUuid.v
theories/PropTree.v
theories/TreeParts.v
theories/TreePartsFacts.v
theories/PropTreeParts.v
theories/TreeExt.v
theories/PropTreeExt.v
theories/TreeHeap.v
theories/TreeHeapFacts.v
theories/TreeHeapCalls.v
theories/TreeHeapCodecs.v
theories/TreeHeapForgiving.v
theories/PropTreeHeap.v
theories/PropTreeRules.v
theories/PropBorrowsRules.v
theories/PropHeapRules.v
theories/ModelTests.v
