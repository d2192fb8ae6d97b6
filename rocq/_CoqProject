-Q theories Verif
theories/Base.v
theories/BaseLemmas.v
theories/ReaderModel.v
theories/ReaderSpec.v
theories/ReaderProofs.v
theories/ReaderMain.v
theories/PropertiesReader.v
theories/UncModel.v
theories/UncSpec.v
theories/UncProofs.v
theories/UncProofs2.v
theories/UncProofs3.v
theories/UnckModel.v
theories/UnckProofs.v
theories/SensorModel.v
theories/SensorSpec.v
theories/SensorProofs.v
theories/PropertiesUnc.v
theories/MuModel.v
theories/SampleModel.v
theories/SampleSpec.v
theories/MuProofs.v
theories/SampleProofs.v
theories/SampleProofs2.v
theories/SampleMain.v
theories/SampleMain2.v
theories/SampleMain3.v
theories/PropertiesSample.v
theories/TransformModel.v
theories/TransformSpec.v
theories/TransformProofs.v
theories/TransformProofs2.v
theories/TransformMain.v
theories/TransformMain2.v
theories/TransformMain3.v
theories/PropertiesTransform.v
theories/EvalModel.v
theories/EvalSpec.v
theories/EvalProofs.v
theories/EvalMain.v
theories/HistModel.v
theories/HistProofs.v
theories/PropertiesEval.v
theories/GNModel.v
theories/GNSpec.v
theories/GNAlgebra.v
theories/GNTerms.v
theories/GNAdjoint.v
theories/GNMain.v
theories/GNResidual.v
theories/GNLoop.v
theories/GNTotal.v
theories/GNOutput.v
theories/PropertiesGN.v
theories/GNForward.v
theories/GNForward2.v
theories/GNDeriv.v
theories/PropertiesGN2.v
theories/PCModel.v
theories/PCSpec.v
theories/PCAlgebra.v
theories/PCMatrix.v
theories/PCSide.v
theories/PCWeights.v
theories/PCWeights2.v
theories/PCWeights3.v
theories/PCJac.v
theories/PCJac2.v
theories/PCLoop.v
theories/PCWhite.v
theories/PropertiesPC.v
theories/HRModel.v
theories/HRSpec.v
theories/HRText.v
theories/HRProofs.v
theories/PropertiesHR.v
theories/VisModel.v
theories/VisSpec.v
theories/VisProofs.v
theories/PropertiesVis.v
theories/OpModel.v
theories/OpSpec.v
theories/OpProofs.v
theories/PropertiesOp.v
theories/SimModel.v
theories/SimSpec.v
theories/SimProofs.v
theories/SimProofs2.v
theories/PropertiesSim.v
theories/InstModel.v
theories/InstSpec.v
theories/InstProofs.v
theories/InstProofs2.v
theories/InstProofs3.v
theories/PropertiesInst.v
theories/CheckModel.v
theories/CheckSpec.v
theories/CheckProofs.v
theories/CheckProofs2.v
theories/CheckProofs3.v
theories/CheckProofs4.v
theories/CheckProofs5.v
theories/PropertiesCheck.v
theories/WModel.v
theories/WSpec.v
theories/WProofs.v
theories/WProofs2.v
theories/WProofs3.v
theories/WProofs4.v
theories/WProofs5.v
theories/PropertiesW.v
theories/BTModel.v
theories/BTSpec.v
theories/BTProofs.v
theories/PropertiesBT.v
theories/DirModel.v
theories/DirSpec.v
theories/DirProofs.v
theories/PropertiesDir.v
theories/LsmrModel.v
theories/LsmrSpec.v
theories/LsmrAlg.v
theories/LsmrInv.v
theories/LsmrStep.v
theories/LsmrMain.v
theories/LsmrLoop.v
theories/PropertiesLsmr.v
theories/MinresModel.v
theories/MinresProofs.v
theories/MinresPivot.v
theories/PropertiesMinres.v
theories/SaveModel.v
theories/SaveSpec.v
theories/SaveProofs.v
theories/PropertiesSave.v
theories/AvModel.v
theories/AvSpec.v
theories/AvProofs.v
theories/AvProofs2.v
theories/AvProofs3.v
theories/AvProofs4.v
theories/AvProofs5.v
theories/AvProofs6.v
theories/AvProofs7.v
theories/PropertiesAv.v
theories/CompModel.v
theories/PropertiesComp.v
theories/PmhModel.v
theories/PmhSpec.v
theories/PmhProofs.v
theories/PmhProofs2.v
theories/PmhProofs3.v
theories/PmhProofs4.v
theories/PropertiesPmh.v
theories/IOModel.v
theories/IOSpec.v
theories/IOProofs.v
theories/IOProofs2.v
theories/IOProofs3.v
theories/IOProofs4.v
theories/IOProofs5.v
theories/PropertiesIO.v
theories/LsmrMono.v
theories/EivModel.v
theories/EivSpec.v
theories/EivProofs.v
theories/EivProofs2.v
theories/EivProofs3.v
theories/EivProofs4.v
theories/LsmrEigen.v
theories/EivCase.v
theories/EivCase2.v
theories/EivCase3.v
theories/MinresFinite.v
theories/MinresTwo.v
theories/EivCase4.v
theories/EivSpec2.v
theories/EivProofs9.v
theories/PropertiesEiv.v
theories/FullModel.v
theories/FullSpec.v
theories/FullProofs.v
theories/FullProofs2.v
theories/FullProofs3.v
theories/FullProofs4.v
theories/FullProofs5.v
theories/FullProofs6.v
theories/FullProofs7.v
theories/FullProofs8.v
theories/FullProofs9.v
theories/Routines.v
theories/FullCase.v
theories/PropertiesFull.v
theories/LsfModel.v
theories/LsfSpec.v
theories/LsfProofs.v
theories/LsfProofs2.v
theories/LsfProofs3.v
theories/LsfProofs4.v
theories/PropertiesLsf.v
theories/KtModel.v
theories/KtSpec.v
theories/KtProofs.v
theories/KtProofs2.v
theories/PropertiesKt.v
theories/MvModel.v
theories/MvSpec.v
theories/MvProofs.v
theories/MvProofs2.v
theories/MvProofs3.v
theories/PropertiesMv.v
theories/ConvModel.v
theories/ConvSpec.v
theories/ConvSpec2.v
theories/ConvProofs.v
theories/ConvProofs2.v
theories/ConvProofs3.v
theories/ConvProofs4.v
theories/ConvProofs5.v
theories/ConvProofs6.v
theories/ConvProofs7.v
theories/ConvProofs8.v
theories/ConvProofs9.v
theories/ConvProofs10.v
theories/ConvProofs11.v
theories/ConvProofs12.v
theories/ConvProofs13.v
theories/ConvProofs14.v
theories/ConvProofs15.v
theories/ConvProofs16.v
theories/ConvProofs17.v
theories/PropertiesConv.v
theories/SdModel.v
theories/SdSpec.v
theories/SdProofs.v
theories/SdProofs2.v
theories/SdProofs3.v
theories/SdProofs4.v
theories/SdProofs5.v
theories/SdProofs6.v
theories/SdProofs7.v
theories/PropertiesSd.v
theories/SdSpec2.v
theories/SdProofs8.v
theories/SdProofs9.v
theories/PropertiesSd2.v
theories/HpcModel.v
theories/HpcSpec.v
theories/HpcProofs.v
theories/HpcProofs2.v
theories/HpcCase.v
theories/PropertiesHpc.v
theories/ReprModel.v
theories/ReprSpec.v
theories/ReprProofs.v
theories/ReprProofs2.v
theories/PropertiesRepr.v
theories/McModel.v
theories/McSpec.v
theories/McProofs.v
theories/ToolModel.v
theories/ToolSpec.v
theories/ToolProofs.v
theories/PropertiesTool.v
theories/TrainModel.v
theories/TrainSpec.v
theories/TrainProofs.v
theories/TrainProofs2.v
theories/TrainProofs3.v
theories/PropertiesTrain.v
theories/FtModel.v
theories/FtSpec.v
theories/FtProofs.v
theories/FtProofs2.v
theories/PropertiesFt.v
theories/FoModel.v
theories/FoSpec.v
theories/FoProofs.v
theories/FoProofs2.v
theories/PropertiesFo.v
theories/FrModel.v
theories/FrSpec.v
theories/FrProofs.v
theories/FrProofs2.v
theories/FrProofs3.v
theories/PropertiesFr.v
theories/FdModel.v
theories/FdSpec.v
theories/FdProofs.v
theories/PropertiesFd.v
theories/FwModel.v
theories/FwSpec.v
theories/FwProofs.v
theories/FwProofs2.v
theories/PropertiesFw.v
