-Q theories Verif
theories/Base.v
theories/PBase.v
theories/MBicycle.v
theories/SBicycle.v
theories/SSort.v
theories/PBicycle.v
theories/PBicycle2.v
theories/PSort.v
theories/TBicycle.v
theories/MVec.v
theories/MInertia.v
theories/SInertia.v
theories/PInertia.v
theories/PInertia2.v
theories/PInertia3.v
theories/TInertia.v
theories/MString.v
theories/MGeometry.v
theories/SGeometry.v
theories/PString.v
theories/PGeometry.v
theories/PGeometry2.v
theories/PGeometry3.v
theories/TGeometry.v
theories/MHeap.v
theories/MSets.v
theories/MModels.v
theories/SModels.v
theories/PHeap.v
theories/PModels.v
theories/PModels2.v
theories/PModels3.v
theories/PSets.v
theories/PSets2.v
theories/PSets3.v
theories/PModels4.v
theories/TModels.v
theories/MIo.v
theories/SIo.v
theories/PIo.v
theories/PIo2.v
theories/PIo3.v
theories/PIo4.v
theories/PIo5.v
theories/PIo6.v
theories/SIo3.v
theories/PIo7.v
theories/TIo.v
theories/MPeriod.v
theories/SPeriod.v
theories/PPeriod.v
theories/PPeriod2.v
theories/PPeriod3.v
theories/TPeriod.v
theories/MPeriod2.v
theories/SPeriod2.v
theories/PPeriod4.v
theories/PPeriod5.v
theories/PPeriod6.v
theories/TPeriod2.v
theories/MMain.v
theories/SMain.v
theories/PMain.v
theories/PMain2.v
theories/PMain3.v
theories/PMain4.v
theories/PMain5.v
theories/PMain6.v
theories/PMain7.v
theories/TMain.v
theories/MState.v
theories/SState.v
theories/PState.v
theories/PState2.v
theories/PState3.v
theories/PState4.v
theories/TState.v
theories/MTable.v
theories/STable.v
theories/PTable.v
theories/PTable2.v
theories/PTable3.v
theories/PTable4.v
theories/PTable6.v
theories/PTable5.v
theories/TTable.v
theories/MPlot.v
theories/SPlot.v
theories/PPlot.v
theories/TPlot.v
theories/MRider.v
theories/SRider.v
theories/PRider.v
theories/TRider.v
theories/MApp.v
theories/SApp.v
theories/PApp.v
theories/TApp.v
theories/MModels2.v
theories/SModels2.v
theories/PModels5.v
theories/PModels6.v
theories/PModels7.v
theories/PModels8.v
theories/PModels9.v
theories/PModels10.v
theories/PModels11.v
theories/PModels12.v
theories/TModels2.v
theories/MEig.v
theories/SEig.v
theories/PEig.v
theories/PEig2.v
theories/PEig3.v
theories/TEig.v
theories/MDraw.v
theories/SDraw.v
theories/PDraw.v
theories/PDraw2.v
theories/PDraw3.v
theories/PDraw4.v
theories/TDraw.v
theories/MDraw2.v
theories/SDraw2.v
theories/PDraw5.v
theories/PDraw6.v
theories/TDraw2.v
theories/MSets2.v
theories/SSets2.v
theories/PSets4.v
theories/TSets2.v
theories/MPlots.v
theories/SPlots.v
theories/PPlots.v
theories/PPlots2.v
theories/PPlots3.v
theories/PPlots4.v
theories/PPlots5.v
theories/PPlots6.v
theories/PPlots7.v
theories/TPlots.v
theories/MLean.v
theories/MLeanProg.v
theories/MLean2.v
theories/SLean.v
theories/PLean.v
theories/PLean2.v
theories/PLean3.v
theories/PLean4.v
theories/PLean5.v
theories/TLean.v
theories/PLPoly.v
theories/SLean2.v
theories/PLean6.v
theories/PLean7.v
theories/PLean8.v
theories/TLean2.v
theories/SSort2.v
theories/TSort2.v
theories/SStab.v
theories/PStab.v
theories/PStab2.v
theories/PStab3.v
theories/PStab4.v
theories/TStab.v
theories/MComp.v
theories/SComp.v
theories/TComp.v
theories/MStr.v
theories/TStr.v
theories/SEnd.v
theories/TEnd.v
theories/TEnd2.v
theories/PRoots.v
theories/SUnits.v
theories/PUnits.v
theories/TUnits.v
theories/MFit.v
theories/SFit.v
theories/PFit.v
theories/TFit.v
theories/MUnc.v
theories/SUnc.v
theories/PUnc.v
theories/PUnc2.v
theories/PUnc3.v
theories/PUnc4.v
theories/PUnc5.v
theories/PUnc6.v
theories/PUnc7.v
theories/PUnc8.v
theories/TUnc.v
theories/TUnc2.v
theories/SUnits2.v
theories/PUnits2.v
theories/TUnits2.v
theories/SRouth.v
theories/PRouth.v
theories/TRouth.v
theories/MFloat.v
theories/SFloat.v
theories/PFloat.v
theories/PFloat2.v
theories/PFloat3.v
theories/PFloat4.v
theories/PFloat5.v
theories/TFloat.v
theories/SSpeeds.v
theories/PSpeeds.v
theories/PNum.v
theories/MDicts.v
theories/PDicts.v
theories/PFalls.v
theories/TSpeeds.v
theories/SIo2.v
theories/TIo2.v
theories/PExist.v
theories/TExist.v
theories/SDicts.v
theories/TDicts.v
theories/MFloat2.v
theories/SFloat2.v
theories/PFloat6.v
theories/TFloat2.v
theories/SRider2.v
theories/TRider2.v
theories/TSpeeds2.v
theories/MInertia2.v
theories/SInertia2.v
theories/TInertia2.v
theories/TSpeeds3.v
theories/PPinv.v
theories/MPack.v
theories/SPack.v
theories/PPack.v
theories/PPack2.v
theories/TPack.v
