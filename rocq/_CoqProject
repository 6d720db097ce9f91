-Q theories Verif
theories/Base.v
theories/Bytes.v
theories/BytesFacts.v
theories/Trimmed.v
theories/TrimmedFacts.v
theories/Wire.v
theories/SpecWire.v
theories/WireFacts.v
theories/Hex.v
theories/Bitmap.v
theories/SpecBitmap.v
theories/BitmapFacts.v
theories/RateLimit.v
theories/SpecRate.v
theories/RateLimitFacts.v
theories/Sha256.v
theories/Borsh.v
theories/AccountTypes.v
theories/Accounts.v
theories/AccountsFacts.v
theories/Seeds.v
theories/SeedsFacts.v
theories/PropsAmounts.v
theories/PropsWire.v
theories/PropsBitmap.v
theories/PropsRate.v
theories/PropsAccounts.v
theories/Chain.v
theories/Manager.v
theories/Exec.v
theories/ChainFacts.v
theories/ManagerFacts.v
theories/Changes.v
theories/TokOps.v
theories/Rest.v
theories/Ledger.v
theories/Inv.v
theories/Kept.v
theories/SpecAdmin.v
theories/Transact.v
theories/Scenario.v
theories/AdminFacts.v
theories/Flow.v
theories/AuthorityFacts.v
theories/PropsAdmin.v
theories/SpecTransfer.v
theories/OutFacts.v
theories/PayFacts.v
theories/DelegateFacts.v
theories/LogFacts.v
theories/PropsOut.v
theories/InFacts.v
theories/FlowFacts.v
theories/VtmFacts.v
theories/Bridge.v
theories/BridgeFacts.v
theories/PropsBytes.v
theories/Lut.v
theories/LutFacts.v
theories/PropsLut.v
theories/SpecEffect.v
theories/EffectFacts.v
theories/PropsEffect.v
theories/LiveFacts.v
theories/SpecMove.v
theories/MoveFacts.v
theories/PropsMove.v
theories/PropsIn.v
theories/PropsFlow.v
theories/Quoter.v
theories/SpecQuoter.v
theories/QuoterFacts.v
theories/PropsQuoter.v
theories/SpecQEffect.v
theories/QEffectFacts.v
theories/PropsQEffect.v
theories/Governance.v
theories/SpecGov.v
theories/GovFacts.v
theories/PropsGov.v
theories/Governed.v
theories/GovernedFacts.v
theories/PropsGoverned.v
theories/Dispatch.v
theories/SpecDispatch.v
theories/DispatchFacts.v
theories/PropsDispatch.v
theories/Entry.v
theories/SpecEntry.v
theories/EntryFacts.v
theories/PropsEntry.v
theories/SpecIdl.v
theories/IdlFacts.v
theories/PropsIdl.v
theories/Network.v
theories/NetFacts.v
theories/PropsNet.v
theories/SpecDeliver.v
theories/DeliverFacts.v
theories/PropsDeliver.v
theories/SpecSupply.v
theories/SupplyFacts.v
theories/PropsSupply.v
theories/Hook.v
theories/SpecHook.v
theories/HookFacts.v
theories/PropsHook.v
theories/Lamport.v
theories/SpecLamport.v
theories/LamportFacts.v
theories/PropsLamport.v
theories/Derive.v
theories/SpecDerive.v
theories/DeriveFacts.v
theories/PropsDerive.v
theories/QEntry.v
theories/SpecQEntry.v
theories/QEntryFacts.v
theories/PropsQEntry.v
theories/GovCall.v
theories/SpecGovCall.v
theories/GovCallFacts.v
theories/PropsGovCall.v
theories/SpecTypes.v
theories/TypesFacts.v
theories/PropsTypes.v
theories/SpecPanic.v
theories/PanicFacts.v
theories/PropsPanic.v
theories/SpecWorld.v
theories/WorldFacts.v
theories/PropsWorld.v
theories/Errors.v
theories/SpecErrors.v
theories/ErrorFacts.v
theories/PropsErrors.v
theories/SpecPlatform.v
theories/PlatformFacts.v
theories/PropsPlatform.v
theories/Resolve.v
theories/SpecResolve.v
theories/ResolveFacts.v
theories/PropsResolve.v
theories/SpecAlias.v
theories/AliasFacts.v
theories/PropsAlias.v
theories/Evm.v
theories/SpecEvm.v
theories/EvmFacts.v
theories/EvmLink.v
theories/PropsEvm.v
theories/Client.v
theories/SpecClient.v
theories/ClientFacts.v
theories/PropsClient.v
theories/Returned.v
theories/PropsReturned.v
theories/Builder.v
theories/SpecBuilder.v
theories/BuilderFacts.v
theories/PropsBuilder.v
theories/SpecTx.v
theories/TxFacts.v
theories/PropsTx.v
theories/QBuilder.v
theories/SpecQBuilder.v
theories/QBuilderFacts.v
theories/QTxFacts.v
theories/PropsQBuilder.v
theories/Compress.v
theories/CompressFacts.v
theories/Upkeep.v
theories/UpkeepFacts.v
theories/PropsCompress.v
theories/Reads.v
theories/SpecReads.v
theories/ReadsFacts.v
theories/PropsReads.v
theories/Bump.v
theories/SpecBump.v
theories/BumpFacts.v
theories/PropsBump.v
theories/SpecOld.v
theories/OldFacts.v
theories/PropsOld.v
theories/RepoTests.v
theories/TxWire.v
theories/TxWireFacts.v
theories/PropsTxWire.v
theories/Wild.v
theories/WildFacts.v
theories/PropsWild.v
theories/Submit.v
theories/SubmitFacts.v
theories/PropsSubmit.v
theories/SpecWindow.v
theories/WindowFacts.v
theories/PropsWindow.v
theories/WildWindowFacts.v
theories/PropsWildWindow.v
theories/PropsSubmitWindow.v
theories/SpecDrain.v
theories/DrainFacts.v
theories/PropsDrain.v
theories/SpecDelay.v
theories/DelayFacts.v
theories/PropsDelay.v
theories/BrakeFacts.v
theories/PropsBrake.v
theories/WildDelayFacts.v
theories/PropsWildDelay.v
theories/WildBrakeFacts.v
theories/PropsWildBrake.v
theories/SpecCut.v
theories/CutFacts.v
theories/PropsCut.v
theories/PropsSubmitDrain.v
