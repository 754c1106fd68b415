-Q theories Verif
theories/Prelude.v
theories/Fields.v
theories/Curve.v
theories/Oracles.v
theories/Sinsemilla.v
theories/RedPallas.v
theories/Value.v
theories/Keys.v
theories/Note.v
theories/Tree.v
theories/Zip32.v
theories/Action.v
theories/NoteEnc.v
theories/Bundle.v
theories/Batch.v
theories/Builder.v
theories/Signing.v
theories/PreludeFacts.v
theories/FastMod.v
theories/NumTheory.v
theories/CurveFacts.v
theories/Toy.v
theories/ToyFacts.v
theories/Constants.v
theories/Spec.v
theories/ValueFacts.v
theories/ThmValue.v
theories/CodecFacts.v
theories/ThmCodec.v
theories/FieldFacts.v
theories/ThmFields.v
theories/KeysSpec.v
theories/KeysFacts.v
theories/SkFacts.v
theories/ToyKeys.v
theories/ThmKeys.v
theories/PrfSpec.v
theories/Zip32Facts.v
theories/KeyIndexFacts.v
theories/ThmZip32.v
theories/SinsSpec.v
theories/SinsFacts.v
theories/TreeSpec.v
theories/TreeFacts.v
theories/ToyTree.v
theories/ThmTree.v
theories/NoteSpec.v
theories/NoteFacts.v
theories/ToyNote.v
theories/ThmNote.v
theories/NoteEncSpec.v
theories/NoteEncFacts.v
theories/ToyNoteEnc.v
theories/ThmNoteEnc.v
theories/BundleSpec.v
theories/BundleFacts.v
theories/BatchFacts.v
theories/ToyBundle.v
theories/ToyBatch.v
theories/ThmBundle.v
theories/RngSpec.v
theories/RngFacts.v
theories/BuilderSpec.v
theories/BuilderFacts.v
theories/BuildFacts.v
theories/VbFacts.v
theories/ToyBuilder.v
theories/ToyTwo.v
theories/ThmBuilder.v
theories/SigningSpec.v
theories/SigningFacts.v
theories/ToySigning.v
theories/ThmSigning.v
theories/Halo2.v
theories/CircuitIvk.v
theories/CircuitNote.v
theories/Circuit.v
theories/CircuitSpec.v
theories/Halo2Facts.v
theories/CircuitIvkFacts.v
theories/CircuitNoteFacts.v
theories/CircuitFacts.v
theories/CircuitBuildFacts.v
theories/ToyCircuit.v
theories/ThmCircuit.v
theories/Weierstrass.v
theories/PallasCurve.v
theories/PallasFacts.v
theories/PallasSlopes.v
theories/PallasOrder.v
theories/PallasLaws.v
theories/PallasUse.v
theories/Blake2b.v
theories/Poseidon.v
theories/HashToCurve.v
theories/ChaChaPoly.v
theories/Ff1Aes.v
theories/RealOracles.v
theories/ThmPallas.v
theories/PipelineSpec.v
theories/PipelineFacts.v
theories/ToyPipeline.v
theories/ThmPipeline.v
theories/LedgerSpec.v
theories/LedgerFacts.v
theories/ToyLedger.v
theories/ThmLedger.v
theories/IsoField.v
theories/HashToCurveFacts.v
theories/HashCert.v
theories/RealPoints.v
theories/RealFacts.v
theories/Vectors.v
theories/VectorFacts.v
theories/ThmReal.v
theories/DirectSpec.v
theories/DirectFacts.v
theories/ThmDirect.v
theories/GenSpec.v
theories/GenFacts.v
theories/ThmGen.v
theories/WalletSpec.v
theories/WalletFacts.v
theories/ThmWallet.v
theories/RandomSpec.v
theories/RandomFacts.v
theories/SchnorrFacts.v
theories/ToyRandom.v
theories/ThmRandom.v
theories/Order.v
theories/OrderSpec.v
theories/OrderFacts.v
theories/ThmOrder.v
theories/HidingSpec.v
theories/HidingFacts.v
theories/ThmHiding.v
theories/EncKeySpec.v
theories/EncKeyFacts.v
theories/ThmEncKey.v
theories/ProtocolSpec.v
theories/ProtocolFacts.v
theories/ThmProtocol.v
theories/ShuffleSpec.v
theories/ShuffleFacts.v
theories/ThmShuffle.v
theories/LifeSpec.v
theories/LifeFacts.v
theories/ToyLife.v
theories/ThmLife.v
theories/RealLifeFacts.v
theories/ThmRealLife.v
theories/BackedSpec.v
theories/BackedFacts.v
theories/ToyBacked.v
theories/RealBackedFacts.v
theories/ThmBacked.v
theories/FuelSpec.v
theories/FuelFacts.v
theories/ThmFuel.v
theories/ReadersSpec.v
theories/ReadersFacts.v
theories/ToyReaders.v
theories/ThmReaders.v
theories/SealedSpec.v
theories/SealedFacts.v
theories/ThmSealed.v
theories/BatchDec.v
theories/BatchDecSpec.v
theories/BatchDecFacts.v
theories/ThmBatchDec.v
theories/FlagsSpec.v
theories/FlagsFacts.v
theories/ToyFlags.v
theories/ThmFlags.v
theories/OwnerFacts.v
theories/ToyOwner.v
theories/ThmOwner.v
theories/MapSpec.v
theories/MapFacts.v
theories/ThmMap.v
theories/BalanceSpec.v
theories/BalanceFacts.v
theories/ToyBalance.v
theories/ThmBalance.v
theories/ViewSpec.v
theories/ViewFacts.v
theories/ToyView.v
theories/ThmView.v
theories/ScheduleSpec.v
theories/ScheduleFacts.v
theories/ToySchedule.v
theories/ThmSchedule.v
theories/LightSpec.v
theories/LightFacts.v
theories/ThmLight.v
theories/PurseSpec.v
theories/PurseFacts.v
theories/ToyPurse.v
theories/ThmPurse.v
theories/MempoolSpec.v
theories/MempoolFacts.v
theories/ToyMempool.v
theories/ThmMempool.v
theories/TotalSpec.v
theories/TotalFacts.v
theories/RealTotalFacts.v
theories/ToyTotal.v
theories/ThmTotal.v
theories/SentSpec.v
theories/SentFacts.v
theories/ToySent.v
theories/ThmSent.v
theories/LaterFacts.v
theories/ToyLater.v
theories/ThmLater.v
theories/SafeSpec.v
theories/SafeFacts.v
theories/RealSafeFacts.v
theories/ToySafe.v
theories/ThmSafe.v
theories/ScanSpec.v
theories/ScanFacts.v
theories/ToyScan.v
theories/ThmScan.v
theories/LightPurseSpec.v
theories/LightPurseFacts.v
theories/LightScanFacts.v
theories/ToyLightPurse.v
theories/ThmLightPurse.v
theories/RealPurseFacts.v
theories/ThmRealPurse.v
theories/RealWalletFacts.v
theories/ThmRealWallet.v
theories/EconomySpec.v
theories/EconomyFacts.v
theories/ToyEconomy.v
theories/ThmEconomy.v
theories/ReceivedSpec.v
theories/ReceivedFacts.v
theories/ToyReceived.v
theories/RealReceivedFacts.v
theories/ThmReceived.v
