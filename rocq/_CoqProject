-Q theories Verif
theories/Base.v
theories/Str.v
theories/B64Spec.v
theories/B64Model.v
theories/B64Facts.v
theories/B64Dec.v
theories/B64Dec2.v
theories/B64Thm.v
theories/B64Props.v
theories/PathModel.v
theories/PathFacts.v
theories/PathProps.v
theories/PathStatProps.v
theories/Dec.v
theories/XmlText.v
theories/MeasModel.v
theories/FloatFacts.v
theories/TolFacts.v
theories/MeasFacts.v
theories/MeasFacts2.v
theories/MeasProps.v
theories/DiffModel.v
theories/DiffMid.v
theories/DiffMid2.v
theories/DiffMid3.v
theories/DiffMid4.v
theories/DiffGen.v
theories/DiffIds.v
theories/DiffSpec.v
theories/DiffFacts.v
theories/DiffPrint.v
theories/DiffProps.v
theories/VisitModel.v
theories/VisitProps.v
theories/XmlModel.v
theories/ReadModel.v
theories/RegModel.v
theories/ReadFacts.v
theories/ReadBack.v
theories/ReadProps.v
theories/ArgFacts.v
theories/ArgProps.v
theories/NoThrow.v
theories/RegSpec.v
theories/RegFacts.v
theories/RegStart.v
theories/RegMain.v
theories/RegProps.v
theories/RegProps2.v
theories/RegRound.v
theories/RegProps3.v
theories/ImgModel.v
theories/ImgFacts.v
theories/ImgSpec.v
theories/ImgBox.v
theories/ImgPixel.v
theories/ImgRun.v
theories/ImgMore.v
theories/ImgFloat.v
theories/ImgProps.v
theories/ItkModel.v
theories/ItkSpec.v
theories/ItkSim.v
theories/ItkRun.v
theories/ItkMain.v
theories/ItkNames.v
theories/ItkProps.v
theories/ItkArgProps.v
theories/ItkPipeProps.v
theories/ItkRunProps.v
theories/ItkSizeProps.v
theories/ItkRound.v
theories/ItkRoundProps.v
theories/ApiModel.v
theories/ApiSpec.v
theories/ApiFacts.v
theories/ApiRun.v
theories/ApiProps.v
theories/NumModel.v
theories/NumSpec.v
theories/NumFacts.v
theories/NumReal.v
theories/NumProps.v
theories/NumRun.v
theories/NumProps2.v
theories/ConfProps.v
theories/RepoTests.v
theories/ChangeProps.v
theories/WatchModel.v
theories/WatchProps.v
theories/ImgFileProps.v
theories/LineSpec.v
theories/LineProps.v
theories/ElemProps.v
theories/FileProps.v
theories/ReportSpec.v
theories/ReportProps.v
theories/PixModel.v
theories/PixSpec.v
theories/PixFacts.v
theories/PixRun.v
theories/PixProps.v
theories/ReuseProps.v
theories/VersionSpec.v
theories/VersionProps.v
theories/CutProps.v
theories/FullModel.v
theories/FullSpec.v
theories/FullFacts.v
theories/FullProps.v
theories/ItkReuseModel.v
theories/ItkReuseFacts.v
theories/ItkReuseProps.v
theories/LimitModel.v
theories/LimitProps.v
theories/SwapProps.v
theories/EolProps.v
theories/TextProps.v
theories/ProcModel.v
theories/ProcFacts.v
theories/ProcSys.v
theories/ProcItkFacts.v
theories/ProcNames.v
theories/ProcItkNames.v
theories/ProcProps.v
theories/HeapModel.v
theories/HeapFacts.v
theories/HeapXml.v
theories/HeapRun.v
theories/HeapProps.v
theories/ErrModel.v
theories/ErrFacts.v
theories/ErrSpec.v
theories/ErrReader.v
theories/ErrRun.v
theories/ErrProps.v
theories/ErrProps2.v
theories/BufModel.v
theories/BufFacts.v
theories/BufActs.v
theories/BufGentle.v
theories/BufEqual.v
theories/BufFile.v
theories/BufSpec.v
theories/BufSteps.v
theories/BufOps.v
theories/BufStep.v
theories/BufLife.v
theories/BufProps.v
theories/BufProps2.v
theories/CasesBase.v
theories/CasesDiff.v
theories/CasesRead.v
theories/CasesImg.v
theories/CasesItk.v
theories/CasesMore.v
theories/DiffMemModel.v
theories/DiffMemFacts.v
theories/DiffMemBuild.v
theories/DiffMemRun.v
theories/DiffMemProps.v
theories/CutItkProps.v
theories/ItkLimitModel.v
theories/ItkLimitProps.v
theories/ItkChangeProps.v
theories/ItkTellProps.v
theories/ItkErrModel.v
theories/ItkErrSpec.v
theories/ItkErrFacts.v
theories/ItkErrRun.v
theories/ItkErrProps.v
theories/PipeModel.v
theories/PipeFacts.v
theories/PipeProps.v
theories/IntModel.v
theories/IntFacts.v
theories/IntProps.v
theories/FullItkModel.v
theories/FullItkSpec.v
theories/FullItkFacts.v
theories/FullItkProps.v
theories/ExnModel.v
theories/ExnSpec.v
theories/ExnProps.v
theories/InModel.v
theories/InSpec.v
theories/InProps.v
theories/PosProps.v
theories/RetSpec.v
theories/RetFacts.v
theories/RetProps.v
theories/RetItkProps.v
theories/InItkModel.v
theories/InItkSpec.v
theories/InItkProps.v
theories/MetProps.v
theories/ChainProps.v
