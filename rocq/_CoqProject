-Q theories Verif
theories/Base.v
theories/Simd.v
theories/SimdProof.v
theories/Spec.v
theories/ExtModel.v
theories/ExtDec.v
theories/ExtEnc.v
theories/Codec.v
theories/ExtThm.v
theories/Props_Ext.v
theories/PktSpec.v
theories/LutSpec.v
theories/Fmt8Spec.v
theories/FmtSpec.v
theories/FmtThm.v
theories/Props_Fmt.v
theories/PktModel.v
theories/PktDec.v
theories/PktEnc.v
theories/MbModel.v
theories/MbEnc.v
theories/Rle8Model.v
theories/Rle8Proof.v
theories/Rle8Single.v
theories/Rle8Thm.v
theories/Rle8Bad.v
theories/Props_Rle8.v
theories/LutModel.v
theories/LutProof.v
theories/SlModel.v
theories/SlProof.v
theories/SlThm.v
theories/SlBad.v
theories/Props_Sl.v
theories/ShModel.v
theories/ShProof.v
theories/ShEnc.v
theories/ShThm.v
theories/Props_Sh.v
theories/Fmt2Thm.v
theories/Props_Fmt2.v
theories/LeModel.v
theories/LeSpec.v
theories/LeTable.v
theories/LeDec.v
theories/LeEnc.v
theories/LeSize.v
theories/LeWorth.v
theories/Spec2.v
theories/LeThm.v
theories/LeExact.v
theories/RmThm.v
theories/LeBad.v
theories/LeShare.v
theories/Props_Le.v
theories/Props_Share.v
theories/PlatModel.v
theories/PlatSpec.v
theories/PlatThm.v
theories/ApiModel.v
theories/ApiThm.v
theories/Props_Plat.v
theories/SameMb.v
theories/Same8.v
theories/SameThm.v
theories/Props_Same.v
theories/MtfModel.v
theories/MtfSpec.v
theories/MtfProof.v
theories/BitMtf.v
theories/MtfThm.v
theories/Props_Mtf.v
theories/MzModel.v
theories/MzBits.v
theories/MzPack.v
theories/MzDec.v
theories/MzEnc.v
theories/MzThm.v
theories/Props_Mz.v
theories/HsModel.v
theories/HsStream.v
theories/HsEnc.v
theories/HsWrite.v
theories/HsThm.v
theories/Props_Hs.v
theories/OclModel.v
theories/OclThm.v
theories/Props_Ocl.v
theories/BpModel.v
theories/BpSpec.v
theories/BpProof.v
theories/BpThm.v
theories/Props_Bp.v
theories/Big.v
theories/BigBad.v
theories/BigOk.v
theories/BigGr.v
theories/BigOne.v
theories/BigThm.v
theories/Props_Big.v
theories/FuzzModel.v
theories/FuzzEq.v
theories/FuzzSpec.v
theories/FuzzEnum.v
theories/FuzzFill.v
theories/FuzzThm.v
theories/FuzzRun.v
theories/Props_Fuzz.v
theories/ToolTable.v
theories/ToolArgs.v
theories/ToolSpec.v
theories/ToolSel.v
theories/ToolCmd.v
theories/ToolOpt.v
theories/ToolThm.v
theories/Props_Tool.v
theories/ToolLib.v
theories/ToolRun.v
theories/ToolTab.v
theories/ToolCall.v
theories/ToolOk.v
theories/ToolBad.v
theories/Props_Run.v
theories/WrSpec.v
theories/WrModel.v
theories/WrThm.v
theories/WrThm2.v
theories/WrThm3.v
theories/Props_Wr.v
theories/EnvSpec.v
theories/EnvThm.v
theories/OverThm.v
theories/HosSpec.v
theories/HosThm.v
theories/HosThm2.v
theories/LeHos.v
theories/Props_Env.v
theories/SaveSpec.v
theories/SaveThm.v
theories/SaveMb.v
theories/SaveFam.v
theories/Save8.v
theories/SaveFam8.v
theories/SaveX128.v
theories/SaveGr.v
theories/SaveOne.v
theories/SaveRef.v
theories/Props_Save.v
theories/ReadSpec.v
theories/ReadThm.v
theories/ReadFam.v
theories/ReadX.v
theories/ReadRef.v
theories/LeRead.v
theories/LeReadOwn.v
theories/Props_Read.v
theories/AnModel.v
theories/AnSpec.v
theories/AnTrack.v
theories/AnThm.v
theories/AnThm2.v
theories/AnRec.v
theories/AnRead.v
theories/AnRef.v
theories/AnDiff.v
theories/Props_An.v
theories/DomSpec.v
theories/DomThm.v
theories/LeBest.v
theories/DomSave.v
theories/DomBad.v
theories/Props_Dom.v
theories/CutSpec.v
theories/CutThm.v
theories/CutSave.v
theories/Props_Cut.v
theories/CutStream.v
theories/AlSpec.v
theories/AlThm.v
theories/Props_Align.v
theories/CostModel.v
theories/CostSpec.v
theories/CostThm.v
theories/Props_Cost.v
theories/DcostModel.v
theories/DcostSpec.v
theories/DcostThm.v
theories/DcostLe.v
theories/Props_Dcost.v
theories/CapSpec.v
theories/CapThm.v
theories/HsSave.v
theories/GrBad.v
theories/Props_HsSave.v
theories/Props_Greedy.v
theories/Props_Buffer.v
theories/McostModel.v
theories/McostSpec.v
theories/McostMtf.v
theories/McostEnc.v
theories/McostDec.v
theories/HcostModel.v
theories/HcostThm.v
theories/RmcostModel.v
theories/RmcostThm.v
theories/Props_Mcost.v
theories/Props_Hcost.v
theories/HosSpec2.v
theories/RmHos.v
theories/FuzzRandSpec.v
theories/FuzzRand.v
theories/Props_FuzzRand.v
theories/IsaSpec.v
theories/ApiIsa.v
theories/Props_Isa.v
theories/ArchSpec.v
theories/ArchThm.v
theories/ArchLib.v
theories/ArchBad.v
theories/Props_Arch.v
theories/TruncSpec.v
theories/TruncThm.v
theories/TruncBad.v
theories/Props_Trunc.v
theories/LargeSpec.v
theories/LargeExt.v
theories/LargeThm.v
theories/Large8.v
theories/Props_Large.v
theories/TellThm.v
theories/TellLe.v
theories/TellBad.v
theories/TellKind.v
theories/Props_Tell.v
theories/StackThm.v
theories/Props_Stack.v
theories/AgainThm.v
theories/Props_Again.v
theories/DamageSpec.v
theories/DamageThm.v
theories/Props_Damage.v
theories/BlockSpec.v
theories/BlockThm.v
theories/Props_Block.v
theories/ToolBufSpec.v
theories/ToolBufThm.v
theories/ToolBuf24.v
theories/Props_ToolBuf.v
