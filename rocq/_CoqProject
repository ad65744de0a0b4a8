-Q theories Verif

theories/Base.v
theories/Mem.v
theories/PtrModel.v
theories/VecModel.v
theories/MemProofs.v
theories/VecProofs.v
theories/VecProofs2.v
theories/VecProofs3.v
theories/SpecPanic.v
theories/VecSettle.v
theories/VecProofs4.v
theories/VecxProofs.v
theories/VecProofs5.v
theories/SpecVec.v
theories/VecRun.v
theories/SpecLog.v
theories/LogProofs.v
theories/VecProofs6.v
theories/SpecSeq.v
theories/VecProofs7.v
theories/VecProofs8.v
theories/VecProofs9.v
theories/VecReach.v
theories/VecGrow.v
theories/Witness.v
theories/VecFacts.v
theories/VecFacts2.v
theories/SpecDrop.v
theories/VecFacts3.v
theories/PropertiesPtr.v
theories/PropertiesVec.v
theories/PropertiesVec2.v
theories/RcModel.v
theories/Count.v
theories/SpecRc.v
theories/RcProofs.v
theories/RcRun.v
theories/RcRun2.v
theories/RcRefine.v
theories/RcRun3.v
theories/RcFacts.v
theories/RcWrap.v
theories/PropertiesRc.v
theories/RcViewModel.v
theories/RcViewFacts.v
theories/PropertiesRcView.v
theories/ArcModel.v
theories/SpecArc.v
theories/ArcProofs.v
theories/ArcFacts.v
theories/ArcWrap.v
theories/PropertiesArc.v
theories/ScopeModel.v
theories/SpecScope.v
theories/ScopeFacts.v
theories/PropertiesScope.v
theories/SmallModel.v
theories/SmallProofs.v
theories/SmallProofs2.v
theories/SmallProofs3.v
theories/SpecSmall.v
theories/SmallRun.v
theories/SpecSmallPanic.v
theories/SmallRun2.v
theories/SmallProofs4.v
theories/SmallFacts.v
theories/PropertiesSmall.v
theories/SpecUtf.v
theories/UtfModel.v
theories/UtfProofs.v
theories/StrModel.v
theories/StrProofs.v
theories/SpecStr.v
theories/StrProofs2.v
theories/StrProofs3.v
theories/StrProofs4.v
theories/StrRun.v
theories/StrFacts.v
theories/PropertiesString.v
theories/UrcModel.v
theories/SpecUrc.v
theories/UrcProofs.v
theories/UrcProofs2.v
theories/UrcFacts.v
theories/UrcFacts2.v
theories/UrcFacts3.v
theories/UrcWrap.v
theories/PropertiesUrc.v
theories/SpecCalm.v
theories/CalmFacts.v
theories/PropertiesCalm.v
theories/CalmRcFacts.v
theories/PropertiesCalmRc.v
theories/SpecCalmArc.v
theories/CalmArcFacts.v
theories/PropertiesCalmArc.v
theories/SpecCalmUrc.v
theories/CalmUrcFacts.v
theories/PropertiesCalmUrc.v
theories/BoxModel.v
theories/SpecBox.v
theories/BoxFacts.v
theories/PropertiesBox.v
theories/NewModel.v
theories/SpecNew.v
theories/NewFacts.v
theories/PropertiesNew.v
theories/SpareModel.v
theories/SpareFacts.v
theories/PropertiesSpare.v
theories/FmtModel.v
theories/SpecFmt.v
theories/FmtFacts.v
theories/PropertiesFmt.v
theories/OrdModel.v
theories/SpecOrd.v
theories/OrdProofs.v
theories/ArcOrdModel.v
theories/SpecArcOrd.v
theories/ArcOrdProofs.v
theories/ArcOrdProofs2.v
theories/ArcOrdProofs3.v
theories/ArcOrdProofs4.v
theories/ArcOrdProofs5.v
theories/ArcOrdProofs6.v
theories/ArcOrdProofs7.v
theories/ArcOrdProofs8.v
theories/ArcOrdProofs9.v
theories/ArcOrdFacts.v
theories/PropertiesArcOrd.v
theories/UrcOrdModel.v
theories/SpecUrcOrd.v
theories/UrcOrdProofs.v
theories/UrcOrdProofs2.v
theories/UrcOrdProofs3.v
theories/UrcOrdProofs4.v
theories/UrcOrdProofs5.v
theories/UrcOrdProofs6.v
theories/UrcOrdProofs7.v
theories/UrcOrdFacts.v
theories/PropertiesUrcOrd.v
theories/LogProofs2.v
theories/LogFacts.v
theories/PropertiesLog.v
theories/CastModel.v
theories/CastFacts.v
theories/PropertiesCast.v
theories/PanicFacts.v
theories/PropertiesPanic.v
theories/SpecStop.v
theories/PanicFacts2.v
theories/PropertiesPanic2.v
theories/PanicFacts3.v
theories/PropertiesPanic3.v
theories/MarkModel.v
theories/MarkProofs.v
theories/MarkFacts.v
theories/PropertiesMark.v
theories/DrainFacts.v
theories/PropertiesDrain.v
theories/SpecDebug.v
theories/DebugModel.v
theories/DebugFacts.v
theories/PropertiesDebug.v
theories/SmallZst.v
theories/ZstFacts.v
theories/PropertiesZst.v
theories/ZstComp.v
theories/ZstComp2.v
theories/ZstFacts2.v
theories/PropertiesZst2.v
theories/SpecDedup.v
theories/DedupFacts.v
theories/PropertiesDedup.v
