-Q theories Verif
theories/Base.v
theories/Types.v
theories/Emit.v
theories/Encode.v
theories/SpecX86.v
theories/EmitFacts.v
theories/BitFacts.v
theories/Wf.v
theories/MemFacts.v
theories/SpecAddr.v
theories/LegacyFacts.v
theories/VexFacts.v
theories/EncThms.v
theories/PropEncode.v
theories/State.v
theories/Code.v
theories/Label.v
theories/Gen.v
theories/Wp.v
theories/CodeFacts.v
theories/Append.v
theories/SpecMem.v
theories/SpecLabel.v
theories/LabelFacts.v
theories/LabelInv.v
theories/LabelEmit.v
theories/LabelDefine.v
theories/LabelStep.v
theories/LabelStep2.v
theories/LabelStep3.v
theories/LabelReady.v
theories/LabelHist.v
theories/LabelThms.v
theories/LabelThms2.v
theories/LabelThms3.v
theories/LabelThms4.v
theories/Stable.v
theories/LabelThms5.v
theories/Grow.v
theories/LabelThms6.v
theories/NoExc.v
theories/NoExcEnc.v
theories/LabelThms7.v
theories/LabelThms8.v
theories/DefsKept.v
theories/CodeThms.v
theories/RunCheck.v
theories/PropCode.v
theories/PropLabel.v
theories/PropRefuted.v
theories/Mnemonic.v
theories/MnemonicAvx.v
theories/MnemonicOmit.v
theories/MnemonicJmp.v
theories/SpecIsa.v
theories/IsaRows.v
theories/SpecInsn.v
theories/IsaFacts.v
theories/VexShapes.v
theories/VexShapes2.v
theories/VexTac.v
theories/VexShapes3.v
theories/GatherFacts.v
theories/VexTables.v
theories/VexShort.v
theories/NoShare.v
theories/EncSel.v
theories/ArgCheck.v
theories/PropIsa.v
theories/PropIsaRefuted.v
theories/SpecLeg.v
theories/LegFacts.v
theories/LegShapes.v
theories/LegGpr.v
theories/LegGpr2.v
theories/LegGpr3.v
theories/LegGpr4.v
theories/LegGpr5.v
theories/LegTables.v
theories/LegTables2.v
theories/PropLeg.v
theories/SpecReg.v
theories/RegFacts.v
theories/PropReg.v
theories/Mmap.v
theories/SpecPage.v
theories/MemProofs.v
theories/PropMem.v
theories/Pack.v
theories/SpecPack.v
theories/PackProofs.v
theories/PropPack.v
theories/SpecSeg.v
theories/SegProofs.v
theories/PropSeg.v
theories/SpecExpr.v
theories/ExprProofs.v
theories/PropExpr.v
theories/Cpu.v
theories/SpecCpu.v
theories/CpuProofs.v
theories/CpuTopo.v
theories/SpecTopo.v
theories/TopoProofs.v
theories/PropTopo.v
theories/NameTables.v
theories/Names.v
theories/SpecNames.v
theories/NamesProofs.v
theories/PropNames.v
theories/MinFacts.v
theories/MinTables.v
theories/PropMin.v
theories/SpecMods.v
theories/ModsProofs.v
theories/SpecProf.v
theories/ProfProofs.v
theories/PropMods.v
theories/ErrTables.v
theories/Errors.v
theories/SpecErr.v
theories/ErrProofs.v
theories/PropErr.v
theories/ApxSse.v
theories/PropApxSse.v
theories/PropCpu.v
theories/StackFrame.v
theories/SpecFrame.v
theories/FrameProofs.v
theories/PropFrame.v
theories/SpecApx.v
theories/ApxFacts.v
theories/ApxShapes.v
theories/ApxShapes2.v
theories/ApxShapes3.v
theories/ApxShapes4.v
theories/ApxShapes5.v
theories/ApxTables.v
theories/PropApx.v
theories/SpecCond.v
theories/CondFacts.v
theories/CondTables.v
theories/CondProofs.v
theories/CountJmp.v
theories/PropCond.v
theories/SpecExec.v
theories/SpecVec.v
theories/VecIsa.v
theories/ExecFacts.v
theories/ExecProofs.v
theories/PropExec.v
theories/ExecMore.v
theories/PropExec2.v
theories/VecSize.v
theories/PropVecSize.v
theories/SpecRip.v
theories/RipFacts.v
theories/RipTables.v
theories/RipThms.v
theories/PropRip.v
theories/SpecHigh.v
theories/HighFacts.v
theories/PropHigh.v
theories/SpecLen.v
theories/LenFacts.v
theories/LenTables.v
theories/SpecSize.v
theories/SizeFacts.v
theories/SizeTables.v
theories/PropSize.v
theories/SpecAlias.v
theories/AliasTables.v
theories/AliasFacts.v
theories/PropAlias.v
theories/SpecFixed.v
theories/FixedTables.v
theories/FixedFacts.v
theories/PropFixed.v
theories/SpecMix.v
theories/SseFacts.v
theories/SseShapes.v
theories/MixTac.v
theories/MixShapes.v
theories/MixTables.v
theories/MixTables2.v
theories/PropMix.v
theories/SpecExcept.v
theories/VexMore.v
theories/KTile.v
theories/PropVexMore.v
theories/NoShareAll.v
theories/PropShare.v
theories/Encode32.v
theories/Mnemonic32.v
theories/MnemonicAvx32.v
theories/MnemonicOmit32.v
theories/Spec32.v
theories/Sim32.v
theories/Sim32b.v
theories/Sim32c.v
theories/SpecB32.v
theories/Sim32d.v
theories/Sim32Tables.v
theories/B32Facts.v
theories/PropB32.v
theories/SpecStart32.v
theories/Start32.v
theories/Start32b.v
theories/Start32c.v
theories/Start32Tables.v
theories/SpecSays32.v
theories/Says32.v
theories/Say32Tables.v
theories/PropSays32.v
theories/Expr32.v
theories/PropExpr32.v
theories/SpecSse.v
theories/SseIsa.v
theories/SpecMach.v
theories/SpecProg.v
theories/PlainFacts.v
theories/ProgInsn.v
theories/ProgMach.v
theories/ProgRef.v
theories/ProgHist.v
theories/ProgSim.v
theories/ProgSum.v
theories/ProgThms.v
theories/PropProg.v
theories/Moffs.v
theories/JmpOp.v
theories/PropJmp.v
theories/SpecVecRun.v
theories/VecExec.v
theories/VecRun.v
theories/VecFacts.v
theories/VecPlain.v
theories/VecInsn.v
theories/ProgVec.v
theories/PropVec.v
theories/VmovD.v
theories/SpecSseRun.v
theories/SseRun.v
theories/SseInsn.v
theories/SseMean.v
theories/ProgSse.v
theories/PropSse.v
theories/SpecAccept.v
theories/Accept.v
theories/AcceptNot.v
theories/PropAccept.v
theories/SpecAccept2.v
theories/Accept2.v
theories/PropAccept2.v
theories/SpecReject.v
theories/Params.v
theories/Reject.v
theories/RejectVec.v
theories/PropReject.v
theories/SpecBf.v
theories/Bf.v
theories/SpecBfRun.v
theories/BfRun.v
theories/BfMore.v
theories/PropBf.v
theories/SpecCalc.v
theories/Calc.v
theories/CalcRun.v
theories/PropCalc.v
theories/SpecDiv.v
theories/SpecDivDec.v
theories/Udiv.v
theories/UdivRun.v
theories/UdivCode.v
theories/UdivMem.v
theories/PropQuantize.v
theories/Test0.v
theories/PropTest0.v
theories/Test0b.v
theories/Test0c.v
theories/PropTest0b.v
