-Q theories Verif
theories/Base.v
theories/BaseLemmas.v
theories/Img.v
theories/ImgLemmas.v
theories/Types.v
theories/Reader.v
theories/BoundsM.v
theories/MakerLayout.v
theories/MakerWrite.v
theories/SpecTiles.v
theories/StampLemmas.v
theories/StartLemmas.v
theories/WriteLemmas.v
theories/SpecLayout.v
theories/LayoutLemmas.v
theories/BuildLemmas.v
theories/MakerFile.v
theories/PsfLemmas.v
theories/SpecFile.v
theories/ReadLemmas.v
theories/CalibLemmas.v
theories/FileLemmas.v
theories/MakerLemmas.v
theories/MakerLemmas2.v
theories/MakerLemmas3.v
theories/MakerLemmas4.v
theories/MakerLemmas5.v
theories/MakerLemmas6.v
theories/ExampleData.v
theories/ShapeLemmas.v
theories/PropMaker.v
theories/Composite.v
theories/SpecComposite.v
theories/CompositeLemmas.v
theories/CompositeLemmas2.v
theories/CompositeLemmas3.v
theories/PropComposite.v
theories/Fast3tree.v
theories/Uberseg.v
theories/SpecUberseg.v
theories/FtLemmas.v
theories/FtLemmas2.v
theories/UbersegLemmas.v
theories/UbersegLemmas2.v
theories/UbersegLemmas3.v
theories/UbersegLemmas4.v
theories/PropUberseg.v
theories/Outlier.v
theories/SpecOutlier.v
theories/OutlierLemmas.v
theories/OutlierLemmas2.v
theories/OutlierLemmas3.v
theories/Sky.v
theories/SpecSky.v
theories/SkyLemmas.v
theories/SpecBounds.v
theories/BoundsLemmas.v
theories/SkyLemmas2.v
theories/SkyLemmas3.v
theories/PropSky.v
theories/OutlierLemmas4.v
theories/PropOutlier.v
theories/Extract.v
theories/SpecExtract.v
theories/ExtractLemmas.v
theories/ExtractLemmas2.v
theories/ExtractLemmas3.v
theories/ExtractLemmas4.v
theories/ExtractLemmas5.v
theories/ExtractLemmas6.v
theories/ExtractLemmas7.v
theories/PropExtract.v
theories/Coadd.v
theories/SpecCoadd.v
theories/CoaddLemmas.v
theories/CoaddLemmas2.v
theories/CoaddLemmas3.v
theories/CoaddLemmas4.v
theories/CoaddLemmas5.v
theories/CoaddLemmas6.v
theories/ExampleCoadd.v
theories/CoaddLemmas7.v
theories/CoaddLemmas8.v
theories/PropCoadd.v
theories/Compare.v
theories/SpecCompare.v
theories/CompareLemmas.v
theories/CompareLemmas2.v
theories/CompareLemmas3.v
theories/ExampleCompare.v
theories/PropCompare.v
theories/CLib.v
theories/Meta.v
theories/SpecCLib.v
theories/SpecMeta.v
theories/CLibLemmas.v
theories/CLibLemmas2.v
theories/MetaLemmas.v
theories/ExampleCLib.v
theories/PropCLib.v
theories/PropMeta.v
theories/FtLemmas3.v
theories/PropTree.v
theories/CatCols.v
theories/SpecCat.v
theories/CatLemmas.v
theories/CatFile.v
theories/CatLemmas2.v
theories/CoaddLemmas9.v
theories/ExampleCat.v
theories/PropCat.v
theories/Single.v
theories/UbersegFl.v
theories/SingleLemmas.v
theories/UbersegFlLemmas.v
theories/UbersegFlLemmas2.v
theories/SpecLocal.v
theories/LocalLemmas.v
theories/LocalLemmas2.v
theories/ExampleLocal.v
theories/PropLocal.v
theories/PropSingle.v
theories/SpecRelabel.v
theories/RelabelLemmas.v
theories/ExampleRelabel.v
theories/PropRelabel.v
theories/CoaddRng.v
theories/SpecCoaddRng.v
theories/CoaddRngLemmas.v
theories/CoaddRngLemmas2.v
theories/CoaddRngLemmas3.v
theories/CoaddRngLemmas4.v
theories/CoaddRngLemmas5.v
theories/ExampleCoaddRng.v
theories/PropCoaddRng.v
theories/Typed.v
theories/SpecTyped.v
theories/TypedLemmas.v
theories/TypedLemmas2.v
theories/TypedLemmas3.v
theories/TypedLemmas4.v
theories/TypedLemmas5.v
theories/TypedLemmas6.v
theories/TypedLemmas7.v
theories/TypedLemmas8.v
theories/ExampleTyped.v
theories/TypedLemmas9.v
theories/PropTyped.v
theories/AgainLemmas.v
theories/AgainLemmas2.v
theories/AgainLemmas3.v
theories/PropAgain.v
theories/CompareLemmas4.v
theories/View.v
theories/SpecView.v
theories/ViewLemmas.v
theories/ViewLemmas2.v
theories/ViewLemmas3.v
theories/ViewLemmas4.v
theories/ViewLemmas5.v
theories/ViewLemmas6.v
theories/PropView.v
theories/Fast3treeQ.v
theories/SpecTreeQ.v
theories/TreeQLemmas.v
theories/TreeQLemmas2.v
theories/TreeQLemmas3.v
theories/TreeQLemmas4.v
theories/PropTreeQ.v
theories/FtMem.v
theories/SpecFtMem.v
theories/FtMemLemmas.v
theories/FtMemLemmas2.v
theories/FtMemLemmas3.v
theories/FtMemLemmas4.v
theories/FtMemLemmas5.v
theories/PropFtMem.v
theories/CMem.v
theories/SpecCMem.v
theories/CMemLemmas.v
theories/CMemLemmas2.v
theories/CMemLemmas3.v
theories/CMemLemmas4.v
theories/CMemLemmas5.v
theories/CMemLemmas6.v
theories/CMemLemmas7.v
theories/PropCMem.v
theories/UbersegTy.v
theories/SpecUbersegTy.v
theories/UbersegTyLemmas.v
theories/PropUbersegTy.v
theories/CLibLemmas3.v
theories/PropCAccess.v
theories/CProg.v
theories/SpecCProg.v
theories/CProgLemmas.v
theories/ExampleCProg.v
theories/PropCProg.v
theories/Scripts.v
theories/SpecScripts.v
theories/ScriptsLemmas.v
theories/ScriptsLemmas2.v
theories/ScriptsLemmas3.v
theories/PropScripts.v
theories/Config.v
theories/SpecConfig.v
theories/ConfigLemmas.v
theories/ConfigLemmas2.v
theories/ConfigLemmas3.v
theories/ConfigLemmas4.v
theories/ConfigLemmas5.v
theories/ConfigLemmas6.v
theories/PropConfig.v
theories/WcsSel.v
theories/SpecWcs.v
theories/WcsLemmas.v
theories/WcsLemmas2.v
theories/WcsLemmas3.v
theories/PropWcs.v
theories/MakerFail.v
theories/SpecFail.v
theories/FailLemmas.v
theories/FailLemmas2.v
theories/PropFail.v
theories/FlMonoLemmas.v
theories/LayoutFl.v
theories/SpecLayoutFl.v
theories/LayoutFlLemmas.v
theories/LayoutFlLemmas2.v
theories/PropLayoutFl.v
theories/CatLemmas3.v
theories/SpecSkyCut.v
theories/SkyLemmas4.v
theories/PropSkyCut.v
theories/LayoutFlLemmas3.v
theories/InfoText.v
theories/SpecInfoText.v
theories/InfoTextLemmas.v
theories/InfoTextLemmas2.v
theories/PropInfoText.v
theories/BoxLemmas.v
theories/PropBox.v
theories/CoaddFail.v
theories/SpecCoaddFail.v
theories/CoaddFailLemmas.v
theories/PropCoaddFail.v
theories/ExtractExt.v
theories/SpecExtractExt.v
theories/ExtractExtLemmas.v
theories/PropExtractExt.v
theories/Memory.v
theories/SpecMemory.v
theories/MemoryLemmas.v
theories/MemoryLemmas2.v
theories/MemoryLemmas3.v
theories/PropMemory.v
theories/MakerMem.v
theories/SpecMakerMem.v
theories/MakerMemLemmas.v
theories/PropMakerMem.v
theories/CompositeFl.v
theories/SpecCompositeFl.v
theories/CompositeFlLemmas.v
theories/CompositeFlLemmas2.v
theories/PropCompositeFl.v
theories/OutlierFl.v
theories/SpecOutlierFl.v
theories/OutlierFlLemmas.v
theories/OutlierFlLemmas2.v
theories/OutlierFlLemmas3.v
theories/OutlierFlLemmas4.v
theories/PropOutlierFl.v
theories/ExampleMaker.v
theories/ExampleUberseg.v
theories/ExampleView.v
theories/CoaddFl.v
theories/SpecCoaddFl.v
theories/CoaddFlLemmas.v
theories/CoaddFlLemmas2.v
theories/PropCoaddFl.v
theories/CompareFl.v
theories/SpecCompareFl.v
theories/CompareFlLemmas.v
theories/CompareFlLemmas2.v
theories/CompareFlLemmas3.v
theories/CompareFlLemmas4.v
theories/CompareFlLemmas5.v
theories/PropCompareFl.v
theories/OffsetFl.v
theories/SpecOffsetFl.v
theories/OffsetFlLemmas.v
theories/OffsetFlLemmas2.v
theories/OffsetFlLemmas3.v
theories/PropOffsetFl.v
theories/PsfTy.v
theories/SpecPsfTy.v
theories/PsfTyLemmas.v
theories/PsfTyLemmas2.v
theories/PsfTyLemmas3.v
theories/ExamplePsfTy.v
theories/PropPsfTy.v
theories/CText.v
theories/SpecCText.v
theories/CTextLemmas.v
theories/CTextLemmas2.v
theories/CTextLemmas3.v
theories/ExampleCText.v
theories/PropCText.v
theories/BoxFl.v
theories/SpecBoxFl.v
theories/BoxFlLemmas.v
theories/PropBoxFl.v
theories/NumExt.v
theories/SpecNumExt.v
theories/NumExtLemmas.v
theories/PropNumExt.v
theories/SpecChain.v
theories/ChainLemmas.v
theories/PropChain.v
theories/SpecChain2.v
theories/ChainLemmas2.v
theories/PropChain2.v
theories/SpecLists.v
theories/ListsLemmas.v
theories/SpecListsEx.v
theories/PropLists.v
theories/CoaddExtLemmas.v
theories/SpecCoaddExt.v
theories/CoaddExtLemmas2.v
theories/PropCoaddExt.v
theories/CmpExtLemmas.v
theories/PropCmpExt.v
theories/PsfState.v
theories/SpecPsfState.v
theories/PsfStateLemmas.v
theories/PsfStateLemmas2.v
theories/PsfStateLemmas3.v
theories/ExamplePsfState.v
theories/PropPsfState.v
theories/PsfFail.v
theories/SpecPsfFail.v
theories/PsfFailLemmas.v
theories/PsfFailLemmas2.v
theories/PsfFailLemmas3.v
theories/ExamplePsfFail.v
theories/PropPsfFail.v
theories/CmpCat.v
theories/SpecCmpCat.v
theories/CmpCatLemmas.v
theories/CmpCatLemmas2.v
theories/ExampleCmpCat.v
theories/PropCmpCat.v
theories/CoaddTarget.v
theories/SpecCoaddTarget.v
theories/CoaddTargetLemmas.v
theories/ExampleCoaddTarget.v
theories/CoaddTargetLemmas2.v
theories/PropCoaddTarget.v
theories/CoaddRange.v
theories/FromEndLemmas.v
theories/SpecCoaddRange.v
theories/CoaddRangeLemmas.v
theories/CoaddRangeLemmas2.v
theories/ExampleCoaddRange.v
theories/CoaddRangeLemmas3.v
theories/PropCoaddRange.v
theories/SpecOrder.v
theories/OrderLemmas.v
theories/ExampleOrder.v
theories/PropOrder.v
theories/SpecLeave.v
theories/LeaveLemmas.v
theories/ExampleLeave.v
theories/PropLeave.v
theories/SpecFrame.v
theories/FrameLemmas.v
theories/ExampleFrame.v
theories/PropFrame.v
theories/SpecScale.v
theories/ScaleLemmas.v
theories/ScaleLemmas2.v
theories/ScaleLemmas3.v
theories/ExampleScale.v
theories/PropScale.v
theories/SpecNet.v
theories/NetLemmas.v
theories/NetLemmas2.v
theories/ExampleNet.v
theories/PropNet.v
theories/SpecBits.v
theories/BitsLemmas.v
theories/ExampleBits.v
theories/PropBits.v
theories/SpecOwn.v
theories/OwnLemmas.v
theories/OwnLemmas2.v
theories/ExampleOwn.v
theories/PropOwn.v
