-Q theories Verif
theories/Prelude.v
theories/BytesModel.v
theories/FloatModel.v
theories/AttrModel.v
theories/StoreModel.v
theories/DenseModel.v
theories/ShuffleModel.v
theories/GridModel.v
theories/TextModel.v
theories/CsvModel.v
theories/SortModel.v
theories/FilterModel.v
theories/PredModel.v
theories/BagModel.v
theories/ArffModel.v
theories/BytesProofs.v
theories/AttrSpec.v
theories/AttrProofs.v
theories/StoreProofs.v
theories/DenseSpec.v
theories/DenseProofs.v
theories/CsvSpec.v
theories/SwapProofs.v
theories/GridSpec.v
theories/GridProofs.v
theories/TextProofs.v
theories/CsvProofs.v
theories/ArffSpec.v
theories/ArffText.v
theories/ArffProofs.v
theories/ArffWrite.v
theories/CsvProps.v
theories/ArffProps.v
theories/AttrProps.v
theories/ConfModel.v
theories/Id3Model.v
theories/RuleModel.v
theories/RuleSpec.v
theories/FloatProofs.v
theories/FloatOrder.v
theories/KdModel.v
theories/KnnModel.v
theories/KnnSpec.v
theories/Id3Spec.v
theories/RuleProofs.v
theories/RuleRefs.v
theories/BagSpec.v
theories/BagFit.v
theories/TableProofs.v
theories/PredProofs.v
theories/KdSpec.v
theories/HeapProofs.v
theories/KdProofs.v
theories/KdProps.v
theories/KnnProofs.v
theories/KnnProps.v
theories/Id3Proofs.v
theories/ConfSpec.v
theories/ConfProofs.v
theories/PruneProofs.v
theories/TreeProofs.v
theories/Id3Props.v
theories/CartModel.v
theories/BagProofs.v
theories/DenseCheck.v
theories/ConfMacroProofs.v
theories/FoldSpec.v
theories/FoldProofs.v
theories/ConfProps.v
theories/CartSpec.v
theories/CartProofs.v
theories/CartGrow.v
theories/CartFit.v
theories/GiniProofs.v
theories/CartProps.v
theories/BagVote.v
theories/FilterSpec.v
theories/SortSpec.v
theories/SortProofs.v
theories/FilterProofs.v
theories/BagOva.v
theories/BagProps.v
theories/NbModel.v
theories/NbSpec.v
theories/NbProofs.v
theories/NbFit.v
theories/NbPredict.v
theories/NbProps.v
theories/BagNbProps.v
theories/BinModel.v
theories/BinProofs.v
theories/BytesProps.v
theories/ChiModel.v
theories/ChiSpec.v
theories/ChiFloat.v
theories/ChiProofs.v
theories/ChiMergeProofs.v
theories/ChiQuad.v
theories/ChiProps.v
theories/ChiRowsSpec.v
theories/ChiRowsProofs.v
theories/ChiRowsProps.v
theories/IsoModel.v
theories/IsoSpec.v
theories/IsoProofs.v
theories/ClusModel.v
theories/ClusSpec.v
theories/ClusProofs.v
theories/ClusGrid.v
theories/IsoScore.v
theories/ClusMap.v
theories/ClusProps.v
theories/ConvProofs.v
theories/ConvProps.v
theories/CopyModel.v
theories/CopySpec.v
theories/CopyProofs.v
theories/CopyProps.v
theories/CsvOutModel.v
theories/MetricModel.v
theories/MetricSpec.v
theories/NeuralModel.v
theories/NeuralSpec.v
theories/NeuralProofs.v
theories/PercModel.v
theories/LinSpec.v
theories/MetricProofs.v
theories/MetricReal.v
theories/LinModel.v
theories/LinReal.v
theories/LinProofs.v
theories/LayerModel.v
theories/LayerSpec.v
theories/LayerProofs.v
theories/LayerTrain.v
theories/LayerPredict.v
theories/CsvOutSpec.v
theories/CsvOutProofs.v
theories/CsvOutProps.v
theories/DenseProps.v
theories/EntModel.v
theories/EntSpec.v
theories/EntProofs.v
theories/EntLink.v
theories/EntFloat.v
theories/DiscModel.v
theories/DiscFloat.v
theories/DiscSpec.v
theories/DiscProofs.v
theories/DiscProps.v
theories/EmModel.v
theories/EmSpec.v
theories/EmProofs.v
theories/EmFit.v
theories/EmProps.v
theories/EntLog.v
theories/RuleProps.v
theories/EntRules.v
theories/EntProps.v
theories/FilterProps.v
theories/ForestProps.v
theories/GridProps.v
theories/Id3FitModel.v
theories/Id3FitProofs.v
theories/Id3FitProps.v
theories/IsoSplit.v
theories/IsoForest.v
theories/IsoOracle.v
theories/IsoProps.v
theories/NeuralFloat.v
theories/NeuralReal.v
theories/NeuralProps.v
theories/LayerFloat.v
theories/LinProps.v
theories/LayerTwo.v
theories/LayerProps.v
theories/SvcModel.v
theories/LibModel.v
theories/LibSpec.v
theories/LibProofs.v
theories/LibTrain.v
theories/LibGrid.v
theories/LibProps.v
theories/MetricFloat.v
theories/MetricProps.v
theories/SerModel.v
theories/SerSpec.v
theories/SerProofs.v
theories/SaveModel.v
theories/SaveSpec.v
theories/SaveProofs.v
theories/SaveTrees.v
theories/SaveOthers.v
theories/SaveBag.v
theories/SaveFiles.v
theories/SaveCodec.v
theories/OvaSaveModel.v
theories/OvaSaveSpec.v
theories/OvaSaveProofs.v
theories/OvaSaveLib.v
theories/OvaSaveFit.v
theories/OvaSaveMulti.v
theories/SerCodec.v
theories/SerProps.v
theories/SaveKinds.v
theories/SaveProps.v
theories/OvaSaveProps.v
theories/PcaModel.v
theories/PcaSpec.v
theories/PcaProofs.v
theories/PcaProps.v
theories/PercProofs.v
theories/PercProps.v
theories/SortProps.v
theories/StoreProps.v
theories/SvcProps.v
theories/TreeFit.v
theories/TreeFitProps.v
