-Q theories Verif
theories/AccuracyClaims.v
theories/AccuracyProofs.v
theories/AccuracyTables.v
theories/Analysis.v
theories/AnalysisClaims.v
theories/AnalysisProofs.v
theories/Base.v
theories/BaseProofs.v
theories/BindingClaims.v
theories/BindingJs.v
theories/BindingObjects.v
theories/BindingProofs.v
theories/BindingReadme.v
theories/BindingRun.v
theories/Bindings.v
theories/Build.v
theories/BuildClaims.v
theories/BuildInstallProofs.v
theories/BuildProofs.v
theories/BuildResultProofs.v
theories/BuildSettingProofs.v
theories/Cli.v
theories/CliClaims.v
theories/CliFilm.v
theories/CliOptions.v
theories/CliProofs.v
theories/CliRun.v
theories/ClientProofs.v
theories/CodeProofs.v
theories/CompareProofs.v
theories/CopyProofs.v
theories/CrossingClaims.v
theories/CrossingProofs.v
theories/CubicClaims.v
theories/CubicProofs.v
theories/Demo.v
theories/DemoFormats.v
theories/DemoImages.v
theories/DemoLibraries.v
theories/DetectClaims.v
theories/DetectProofs.v
theories/EndClaims.v
theories/EndProofs.v
theories/EndText.v
theories/ErrorProofs.v
theories/FastSize.v
theories/FfmpegProofs.v
theories/FileProofs.v
theories/FilmProofs.v
theories/FilterProofs.v
theories/Flt.v
theories/FltProofs.v
theories/FormatClaims.v
theories/FormatProofs.v
theories/FrameProofs.v
theories/HandleClaims.v
theories/HandleMore.v
theories/HandleProofs.v
theories/Handles.v
theories/History.v
theories/Image.v
theories/ImageApi.v
theories/ImageClaims.v
theories/ImageHistory.v
theories/ImageSafe.v
theories/InterpolateClaims.v
theories/InterpolateKernels.v
theories/InterpolateProofs.v
theories/InverseClaims.v
theories/JpegProofs.v
theories/Kiss.v
theories/KissAccuracy.v
theories/KissClaims.v
theories/KissExact.v
theories/KissFactor.v
theories/KissInverse.v
theories/KissInverseExact.v
theories/KissInverseProofs.v
theories/KissInverseTransform.v
theories/KissPrecision.v
theories/KissPrecisionProofs.v
theories/KissProofs.v
theories/KissRound.v
theories/KissTransform.v
theories/LanczosClaims.v
theories/LanczosProofs.v
theories/Library.v
theories/LibraryClaims.v
theories/LibraryProofs.v
theories/MagickProofs.v
theories/Methods.v
theories/MethodsProofs.v
theories/OpenProofs.v
theories/OrderClaims.v
theories/OrderProofs.v
theories/Pfm.v
theories/PfmFilm.v
theories/Pgm.v
theories/PgmFilm.v
theories/PngProofs.v
theories/Precision.v
theories/PrecisionClaims.v
theories/PrecisionErrorProofs.v
theories/PrecisionProofs.v
theories/PrintProofs.v
theories/Printf.v
theories/ProfileProofs.v
theories/ProgramProofs.v
theories/PropAccuracy.v
theories/PropAnalysis.v
theories/PropBinding.v
theories/PropBuild.v
theories/PropCli.v
theories/PropCrossing.v
theories/PropCubic.v
theories/PropDetect.v
theories/PropEnd.v
theories/PropFormat.v
theories/PropHandle.v
theories/PropImage.v
theories/PropInterpolate.v
theories/PropInverse.v
theories/PropKiss.v
theories/PropLanczos.v
theories/PropLibrary.v
theories/PropOrder.v
theories/PropPrecision.v
theories/PropRefusal.v
theories/PropScalar.v
theories/PropSession.v
theories/PropSize.v
theories/PropText.v
theories/PropTool.v
theories/PropTrig.v
theories/PropTurned.v
theories/PropUtil.v
theories/PropVisualize.v
theories/RefusalClaims.v
theories/RefusalProofs.v
theories/Relax.v
theories/Resdetect.v
theories/ResultsProofs.v
theories/RoundProofs.v
theories/ScalarClaims.v
theories/ScanProofs.v
theories/SeekProofs.v
theories/SelectProofs.v
theories/Session.v
theories/SessionClaims.v
theories/SessionProofs.v
theories/SizeClaims.v
theories/SizeProofs.v
theories/Sizes.v
theories/Spec.v
theories/SpecAccuracy.v
theories/SpecAnalysis.v
theories/SpecBindings.v
theories/SpecBuild.v
theories/SpecCli.v
theories/SpecCrossing.v
theories/SpecCubic.v
theories/SpecDetect.v
theories/SpecEnd.v
theories/SpecFormats.v
theories/SpecHandles.v
theories/SpecImage.v
theories/SpecInterpolate.v
theories/SpecInverse.v
theories/SpecKissPrecision.v
theories/SpecLanczos.v
theories/SpecLibrary.v
theories/SpecOrder.v
theories/SpecPrecision.v
theories/SpecRefusal.v
theories/SpecReport.v
theories/SpecSession.v
theories/SpecSizes.v
theories/SpecTables.v
theories/SpecTablesPrecision.v
theories/SpecText.v
theories/SpecTools.v
theories/SpecTransform.v
theories/SpecTurned.v
theories/SpecUtil.v
theories/SpecVisualize.v
theories/StatProofs.v
theories/StatRun.v
theories/Stdio.v
theories/StdioProofs.v
theories/SuiteBindings.v
theories/SuiteCli.v
theories/SuiteFiles.v
theories/SuiteLib.v
theories/SuiteReaders.v
theories/Tables.v
theories/TablesPrecision.v
theories/TablesPrecisionProofs.v
theories/TablesProofs.v
theories/TextClaims.v
theories/TextProofs.v
theories/TextRuns.v
theories/ToolClaims.v
theories/Tools.v
theories/TrigClaims.v
theories/TurnedClaims.v
theories/TurnedProofs.v
theories/UpscaleDetect.v
theories/UpscaleProofs.v
theories/Util.v
theories/UtilClaims.v
theories/UtilProofs.v
theories/Visualize.v
theories/VisualizeClaims.v
theories/VisualizeProofs.v
theories/WorldProofs.v
theories/Y4m.v
theories/Y4mFilm.v
