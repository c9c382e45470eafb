-Q theories Verif
theories/Base.v
theories/Utf8.v
theories/Sha256.v
theories/LockupMath.v
theories/World.v
theories/Fee.v
theories/Lockup.v
theories/Merkle.v
theories/Borsh.v
theories/Tactics.v
theories/Inversion.v
theories/InversionCreate.v
theories/StreamSpec.v
theories/StreamMath.v
theories/History.v
theories/Outside.v
theories/Frame.v
theories/Frame2.v
theories/Frame3.v
theories/Step.v
theories/StreamStep.v
theories/LockupInv.v
theories/MerkleInv.v
theories/Keccak.v
theories/Facts.v
theories/Seeds.v
theories/KeysInv.v
theories/Toy.v
theories/ToyRun.v
theories/PropSchedule.v
theories/PayExact.v
theories/Observe.v
theories/PropStream.v
theories/PropHistory.v
theories/Live.v
theories/PropLive.v
theories/PropOrder.v
theories/PropAggregate.v
theories/PropNft.v
theories/PropCreateLive.v
theories/PropFeeMath.v
theories/PropFees.v
theories/PropConserve.v
theories/PropConsent.v
theories/TreeSpec.v
theories/MerkleClient.v
theories/PropTree.v
theories/PropClaim.v
theories/PropClient.v
theories/PropCampaign.v
theories/PropClawback.v
theories/PropErrors.v
theories/PropFunded.v
theories/PropLog.v
theories/PropWait.v
theories/BorshProofs.v
theories/PropBorsh.v
theories/PropEvents.v
theories/PropOpen.v
theories/PropInit.v
theories/PropWritable.v
theories/PropLocal.v
theories/Wire.v
theories/PropWire.v
theories/PropSubst.v
theories/PropCommute.v
theories/PropCosts.v
theories/PropReplay.v
theories/PropLamports.v
theories/PropBooks.v
theories/PropTokens.v
theories/PropRentState.v
theories/PropBurn.v
theories/PropMisc.v
theories/PropExact.v
theories/PropReason.v
theories/PropSettle.v
theories/PropShares.v
theories/PropCaller.v
theories/PropPhase.v
theories/PropShift.v
theories/PropHolder.v
theories/PropSplit.v
theories/PropExt.v
theories/PropOutside.v
theories/Transaction.v
theories/PropTransaction.v
theories/RepoTests.v
