-Q theories Verif
theories/Flt.v
theories/Pocklington.v
theories/Fr.v
theories/Query.v
theories/Builder.v
theories/BuilderProofs.v
theories/Bytes.v
theories/Gadgets.v
theories/MptUpdate.v
theories/LagrangeProofs.v
theories/GadgetProofs.v
theories/Fixed.v
theories/UpdateRows.v
theories/TrieSpec.v
theories/UpdateWalk.v
theories/UpdateAccount.v
theories/CanonProofs.v
theories/UpdateSound.v
theories/UpdateClaims.v
theories/UpdateStorage.v
theories/TableSpec.v
theories/Assign.v
theories/AssignProofs.v
theories/AssignOk.v
theories/AssignRegion.v
theories/GadgetMain.v
theories/GadgetMain2.v
theories/GadgetMain3.v
theories/GadgetDemo.v
theories/PropsGadgets.v
theories/UpdateProps.v
theories/UpdateShape.v
theories/UpdateComplete.v
theories/CircuitOk.v
theories/Util.v
theories/UtilProofs.v
theories/RlcProofs.v
theories/Serde.v
theories/SerdeProofs.v
theories/Trie.v
theories/Storage.v
theories/UtilMain.v
theories/PropsUtil.v
theories/TrieProofs.v
theories/PropsTrie.v
theories/Types.v
theories/TypesProofs.v
theories/ClaimSpec.v
theories/PropsTypes.v
theories/Lookups.v
theories/UpdateAssign.v
theories/LookupProofs.v
theories/HonestTrace.v
theories/LookupMain.v
theories/PropsLookups.v
theories/MptAssign.v
theories/MptModes.v
theories/MptRows.v
theories/MptCases.v
theories/PropsAssign.v
theories/RowView.v
theories/BlockView.v
theories/TablesOk.v
theories/BlocksOk.v
theories/PaddingOk.v
theories/RowsOk.v
theories/RowCells.v
theories/BlockRows.v
theories/Chain.v
theories/UpperOk.v
theories/LeafOk.v
theories/StorageOk.v
theories/HonestSpec.v
theories/TreeChain.v
theories/HonestPath.v
theories/HonestInputs.v
theories/HonestBlock.v
theories/HonestUpdate.v
theories/HonestConvert.v
theories/HonestAssign.v
theories/HonestMain.v
theories/HonestCase.v
theories/ClaimTable.v
theories/PropsComplete.v
theories/Splice.v
theories/SpliceCase.v
theories/PropsSplice.v
theories/SoundCase.v
theories/Edit.v
theories/Freedom.v
theories/Address.v
theories/Free.v
theories/RefuteCase.v
theories/ChangeSpec.v
theories/TwoTries.v
theories/NewSide.v
theories/NewAccount.v
theories/NewClaims.v
theories/NewStorage.v
theories/NewSlots.v
theories/NewProps.v
theories/NewPlaced.v
theories/NewCase.v
theories/HistorySpec.v
theories/History.v
theories/Retable.v
theories/ByteFree.v
theories/CanonFree.v
theories/TableFree.v
theories/Forge.v
theories/Forgeries.v
theories/ForgeByte.v
theories/ForgeBits.v
theories/ForgeCase.v
theories/HistoryCase.v
theories/TraceSpec.v
theories/TraceChecks.v
theories/PhaseSpec.v
theories/PhaseOk.v
theories/Challenge.v
theories/ChallengeCase.v
theories/PropsSound.v
theories/PropsRefuted.v
theories/PropsTables.v
theories/PropsNew.v
theories/PropsForged.v
theories/PropsHistory.v
theories/PropsTrace.v
theories/PropsChallenge.v
theories/BlockSpec.v
theories/Block.v
theories/BlockCase.v
theories/PropsBlock.v
theories/ScheduleSpec.v
theories/Schedule.v
theories/PropsSchedule.v
theories/TestCircuit.v
theories/TestProofs.v
theories/TestCase.v
theories/PropsCircuit.v
theories/ExactSpec.v
theories/Exact.v
theories/ExactCase.v
theories/PropsExact.v
theories/ProofCheck.v
theories/CheckSpec.v
theories/CheckProofs.v
theories/CheckHonest.v
theories/CheckCase.v
theories/PropsCheck.v
theories/SlotFree.v
theories/SlotCase.v
theories/PropsSlot.v
theories/BatchSpec.v
theories/Batch.v
theories/PropsBatch.v
theories/SerdeSpec.v
theories/SerdeExact.v
theories/PropsSerde.v
theories/DegreeSpec.v
theories/Degree.v
theories/PropsDegree.v
theories/WrittenSpec.v
theories/Written.v
theories/ForgeBuried.v
theories/WrittenCase.v
theories/PropsWritten.v
theories/Witness.v
theories/NewWitness.v
theories/WitnessCase.v
theories/PropsWitness.v
theories/CommitSpec.v
theories/Commit.v
theories/CommitCase.v
theories/PropsCommit.v
theories/FullTable.v
theories/FullCase.v
theories/PropsFull.v
theories/RealTraces.v
theories/Poseidon.v
theories/RealCase.v
theories/PropsReal.v
