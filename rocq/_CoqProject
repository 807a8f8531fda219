-Q theories Verif

theories/Base.v
theories/State.v
theories/Rlp.v
theories/Vm.v
theories/Instructions.v
theories/Precompiles.v
theories/Interpreter.v
theories/StateSpec.v
theories/StateProofs.v
theories/NumericProofs.v
theories/PropState.v
theories/ArithProofs.v
theories/PropArith.v
theories/EvmStep.v
theories/EvmLocal.v
theories/EvmPlan.v
theories/EvmPlanProofs.v
theories/EvmCallProofs.v
theories/EvmFrame.v
theories/EvmAccounts.v
theories/EvmRule.v
theories/EvmExamples.v
theories/PropExec.v
theories/PropGas.v
theories/PropAccounts.v
theories/EvmInv.v
theories/EvmPlain.v
theories/PropSafe.v
theories/InstrSpec.v
theories/InstrProofs.v
theories/PropInstr.v
theories/PropCalls.v
theories/PropFrames.v
theories/PrecompileSpec.v
theories/PropPrecompiles.v
theories/PropBlake2.v
theories/PropRefund.v
theories/PropDelegation.v
theories/RlpProofs.v
theories/PropRlp.v
theories/Bloom.v
theories/PropBloom.v
theories/Trie.v
theories/TrieProofs.v
theories/PropTrie.v
theories/Transactions.v
theories/PropTx.v
theories/Blocks.v
theories/Requests.v
theories/Fork.v
theories/PropFees.v
theories/PropBlocks.v
theories/ForkProofs.v
theories/PropWithdrawals.v
theories/ForkCriteria.v
theories/PropForks.v
theories/ForkExamples.v
theories/PropChain.v
theories/PropHeader.v
theories/TxProofs.v
theories/PropTransaction.v
theories/PropOuter.v
theories/PropHistory.v
theories/PropAnchored.v
theories/TotalProofs.v
theories/PropCommit.v
theories/PropBody.v
theories/PropTotal.v
theories/StateDb.v
theories/PropStateDb.v
theories/Ethash.v
theories/PropEthash.v
theories/Pow.v
theories/PropDifficulty.v
theories/PropPow.v
theories/PropOmmers.v
theories/PropRewards.v
theories/PropPowExamples.v
theories/Hexadecimal.v
theories/PropHex.v
theories/Genesis.v
theories/PropGenesis.v
theories/PowTx.v
theories/PropPowTx.v
theories/PropPowRun.v
theories/PropPowBody.v
theories/PowVm.v
theories/PowVmPlan.v
theories/PowVmOps.v
theories/PowVmCalls.v
theories/PowVmFrame.v
theories/PowVmRule.v
theories/PowVmInv.v
theories/PropPowVm.v
theories/PowVmKeep.v
theories/PropPowFrames.v
theories/PropPowReplay.v
theories/Merge.v
theories/PropMerge.v
theories/PropPowTotal.v
theories/PropPowEmpty.v
theories/PropPowRefund.v
theories/PropPowSafe.v
theories/PowInstrSpec.v
theories/PowInstrProofs.v
theories/PropPowInstr.v
theories/PropPowCalls.v
theories/PropPowLife.v
theories/PropPowPre.v
theories/PropPos.v
theories/PropWire.v
theories/Curve.v
theories/Fermat.v
theories/PropCurve.v
theories/PropConsent.v
theories/PropPowConsent.v
theories/PropCapable.v
theories/PropPowCapable.v
theories/OptimizedPow.v
theories/PropOptimized.v
theories/ForkConfig.v
theories/PropForkConfig.v
