-Q theories Verif

theories/AccessCompose.v
theories/AccessExamples.v
theories/AccessModel.v
theories/AccessProofs.v
theories/AccessSpec.v
theories/AddExamples.v
theories/AddModel.v
theories/AddProofs.v
theories/AddSpec.v
theories/ArgModel.v
theories/ArgProofs.v
theories/ArgSpec.v
theories/ArgsBytes.v
theories/ArgsFlags.v
theories/ArgsFormat.v
theories/ArgsLast.v
theories/ArgsModel.v
theories/ArgsProofs.v
theories/ArgsRect.v
theories/ArgsSpec.v
theories/AskExamples.v
theories/AskModel.v
theories/AskProofs.v
theories/AskSpec.v
theories/AttIdProofs.v
theories/Base.v
theories/BgExamples.v
theories/BgModel.v
theories/BgProofs.v
theories/BgRound.v
theories/BgSpec.v
theories/BitonalExamples.v
theories/BitonalModel.v
theories/BitonalProofs.v
theories/BlobExamples.v
theories/BlobModel.v
theories/BlobProofs.v
theories/BlobSpec.v
theories/CacheConc.v
theories/CacheExamples.v
theories/CacheModel.v
theories/CacheProofs.v
theories/CapiModel.v
theories/CapiProofs.v
theories/CapiSpec.v
theories/ChanExamples.v
theories/ChanModel.v
theories/ChanNum.v
theories/ChanProofs.v
theories/ChanProofs2.v
theories/ChanSpec.v
theories/ChunkExamples.v
theories/ChunkModel.v
theories/ChunkProofs.v
theories/CodecExamples.v
theories/CodecModel.v
theories/CodecProofs.v
theories/CodesModel.v
theories/ComposeExamples.v
theories/CompositorExamples.v
theories/CompositorModel.v
theories/CompositorProofs.v
theories/CompositorSpec.v
theories/ConcModel.v
theories/ConcProofs.v
theories/CoordExamples.v
theories/CoordModel.v
theories/CoordProofs.v
theories/CoordSpec.v
theories/CopyModel.v
theories/CopyProofs.v
theories/CreateExamples.v
theories/CreateModel.v
theories/CreateNum.v
theories/CreateProofs.v
theories/CreateSpec.v
theories/CreateStats.v
theories/DateModel.v
theories/DateProofs.v
theories/DateSpec.v
theories/DecimateProofs.v
theories/DirProofs.v
theories/DispChan.v
theories/DispCustom.v
theories/DispDoc.v
theories/DispModel.v
theories/DispNum.v
theories/DispPoints.v
theories/DispSpec.v
theories/DocChan.v
theories/DocDims.v
theories/DocImage.v
theories/DocInt.v
theories/DocList.v
theories/DocModel.v
theories/DocProofs.v
theories/DocSaid.v
theories/DocScale.v
theories/DocSpec.v
theories/DocTree.v
theories/DocZT.v
theories/EditExamples.v
theories/EditInv.v
theories/EditMain.v
theories/EditModel.v
theories/EditOpen.v
theories/EditRun.v
theories/EditSeg.v
theories/EditSpec.v
theories/EditSteps.v
theories/EditStore.v
theories/EndExamples.v
theories/EndProofs.v
theories/EndScale.v
theories/EndScaleExamples.v
theories/EndScaleSpec.v
theories/EndSpec.v
theories/FileExamples.v
theories/FileLife.v
theories/FileModel.v
theories/FileProofs.v
theories/FileSpec.v
theories/FillProofs.v
theories/FloatMono.v
theories/FloatProofs.v
theories/GuidExamples.v
theories/GuidModel.v
theories/GuidProofs.v
theories/GuidSpec.v
theories/HandAttExamples.v
theories/HandAttModel.v
theories/HandAttProofs.v
theories/HandAttSpec.v
theories/HiLoModel.v
theories/HiLoProofs.v
theories/HostModel.v
theories/HostProofs.v
theories/HostProofs2.v
theories/HostProofs3.v
theories/HostProofs4.v
theories/HostSpec.v
theories/JsonExamples.v
theories/JsonInfo.v
theories/JsonModel.v
theories/JsonProofs.v
theories/JsonRead.v
theories/JsonSpec.v
theories/JsonWrite.v
theories/JxrExamples.v
theories/JxrModel.v
theories/JxrNum.v
theories/JxrProofs.v
theories/JxrSpec.v
theories/LayerProofs.v
theories/LifeModel.v
theories/LifeProofs.v
theories/LifeProofs2.v
theories/LifeProofs3.v
theories/LifeProofs4.v
theories/LifeSpec.v
theories/LockModel.v
theories/LockProofs.v
theories/LutExamples.v
theories/LutModel.v
theories/LutProofs.v
theories/LutSpec.v
theories/LutSplines.v
theories/LutToe.v
theories/Md5Model.v
theories/Md5Proofs.v
theories/Md5Spec.v
theories/MemProofs.v
theories/NumModel.v
theories/NumNode.v
theories/NumProofs.v
theories/NumRound.v
theories/NumSpec.v
theories/NumText.v
theories/OptsExamples.v
theories/OptsModel.v
theories/OptsProofs.v
theories/OptsSpec.v
theories/OptsUse.v
theories/OrderProofs.v
theories/PickExamples.v
theories/PickModel.v
theories/PickProofs.v
theories/PickSpec.v
theories/PixLoopProofs.v
theories/PixelExamples.v
theories/PixelModel.v
theories/PixelProofs.v
theories/PixelSpec.v
theories/PropAccess.v
theories/PropAdd.v
theories/PropArgText.v
theories/PropArgs.v
theories/PropAsk.v
theories/PropAttachment.v
theories/PropBg.v
theories/PropBitonal.v
theories/PropBlob.v
theories/PropCache.v
theories/PropCapi.v
theories/PropChan.v
theories/PropCodec.v
theories/PropCompose.v
theories/PropCompositor.v
theories/PropConc.v
theories/PropCoord.v
theories/PropCreate.v
theories/PropDate.v
theories/PropDims.v
theories/PropDisp.v
theories/PropDoc.v
theories/PropEdit.v
theories/PropEnd.v
theories/PropFile.v
theories/PropGuid.v
theories/PropHandAtt.v
theories/PropHost.v
theories/PropJson.v
theories/PropJxr.v
theories/PropLife.v
theories/PropLock.v
theories/PropLut.v
theories/PropMd5.v
theories/PropNum.v
theories/PropOpts.v
theories/PropPick.v
theories/PropPixel.v
theories/PropPugi.v
theories/PropRange.v
theories/PropReader.v
theories/PropRect.v
theories/PropReserve.v
theories/PropScale.v
theories/PropScan.v
theories/PropShow.v
theories/PropSite.v
theories/PropSpline.v
theories/PropStat.v
theories/PropStream.v
theories/PropSubMeta.v
theories/PropText.v
theories/PropView.v
theories/PropWriter.v
theories/PropXml.v
theories/PropZstd.v
theories/PugiBuild.v
theories/PugiModel.v
theories/PugiProofs.v
theories/PugiRound.v
theories/PugiSpec.v
theories/PugiTree.v
theories/PyrProofs.v
theories/RangeDbl.v
theories/RangeDoc.v
theories/RangeModel.v
theories/RangeProofs.v
theories/RangeSpec.v
theories/ReadProofs.v
theories/ReaderExamples.v
theories/ReaderModel.v
theories/ReaderParts.v
theories/ReaderProofs.v
theories/ReaderSpec.v
theories/RectModel.v
theories/RectProofs.v
theories/ReserveExamples.v
theories/ReserveMain.v
theories/ReserveModel.v
theories/ReserveProofs.v
theories/ReserveSpec.v
theories/SFloatProofs.v
theories/ScaleCompose.v
theories/ScaleExamples.v
theories/ScaleModel.v
theories/ScaleNum.v
theories/ScaleProofs.v
theories/ScaleSpec.v
theories/ScanExamples.v
theories/ScanModel.v
theories/ScanProofs.v
theories/ScanSpec.v
theories/ShowExamples.v
theories/ShowModel.v
theories/ShowProofs.v
theories/ShowSpec.v
theories/SiteExamples.v
theories/SiteModel.v
theories/SiteProofs.v
theories/SiteSpec.v
theories/SplineExamples.v
theories/SplineModel.v
theories/SplineProofs.v
theories/SplineSpec.v
theories/StatExamples.v
theories/StatModel.v
theories/StatProofs.v
theories/StatSpec.v
theories/StreamExamples.v
theories/StreamModel.v
theories/StreamProofs.v
theories/StrictProofs.v
theories/SubMetaExamples.v
theories/SubMetaModel.v
theories/SubMetaProofs.v
theories/SubMetaSpec.v
theories/TextExamples.v
theories/TextModel.v
theories/TextProofs.v
theories/TextProofs2.v
theories/TextProofs3.v
theories/TextSpec.v
theories/ViewExamples.v
theories/ViewModel.v
theories/ViewProofs.v
theories/ViewScale.v
theories/ViewSpec.v
theories/WeightProofs.v
theories/WriterCrash.v
theories/WriterExamples.v
theories/WriterFin.v
theories/WriterInv.v
theories/WriterLimits.v
theories/WriterMain.v
theories/WriterModel.v
theories/WriterOpen.v
theories/WriterProofs.v
theories/WriterSession.v
theories/WriterSpec.v
theories/XmlModel.v
theories/XmlNumbers.v
theories/XmlPaths.v
theories/XmlProofs.v
theories/XmlSpec.v
theories/XmlValues.v
theories/ZstdModel.v
theories/ZstdProofs.v
