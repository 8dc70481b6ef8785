-Q theories Verif

theories/Base.v
theories/BaseFacts.v
theories/BatchModel.v
theories/BatchProofs.v
theories/BatchProps.v
theories/DictModel.v
theories/DictFacts.v
theories/GraphModel.v
theories/GraphSpec.v
theories/GraphProofs.v
theories/GraphProps.v
theories/NodeModel.v
theories/NodeSpec.v
theories/NodeProofs.v
theories/EditModel.v
theories/EditSpec.v
theories/EditProofs.v
theories/NodeProps.v
theories/EditProps.v
theories/GradModel.v
theories/GradSpec.v
theories/GradProofs.v
theories/GradProps.v
theories/UpdateModel.v
theories/UpdateSpec.v
theories/UpdateProofs.v
theories/UseParamsProofs.v
theories/UpdateProps.v
theories/CopyModel.v
theories/CopySpec.v
theories/CopyProofs.v
theories/CopyProps.v
theories/SerialModel.v
theories/SerialSpec.v
theories/SerialProofs.v
theories/RoundTripProofs.v
theories/SerialCheckProofs.v
theories/SerialProps.v
theories/ConcModel.v
theories/ConcProofs.v
theories/ConcSpec.v
theories/ConcProps.v
theories/CtxModel.v
theories/CtxSpec.v
theories/CtxProofs.v
theories/CtxProps.v
theories/NumModel.v
theories/NumR.v
theories/NumQ.v
theories/OptModel.v
theories/OptSpec.v
theories/OptProofs.v
theories/OptRealProofs.v
theories/OptProps.v
theories/SchedModel.v
theories/SchedSpec.v
theories/SchedProofs.v
theories/SchedRealProofs.v
theories/SchedProps.v
theories/SeqModel.v
theories/SeqSpec.v
theories/SeqProofs.v
theories/PaddedProofs.v
theories/PackProofs.v
theories/SeqProps.v
theories/AdaptModel.v
theories/AdaptSpec.v
theories/AdaptProofs.v
theories/WithArrayProofs.v
theories/AdaptProps.v
theories/MatModel.v
theories/ReduceModel.v
theories/MatSpec.v
theories/ReduceSpec.v
theories/MatProofs.v
theories/ReduceProofs.v
theories/ReduceMaxProofs.v
theories/ReduceFirstProofs.v
theories/ReduceProps.v
theories/Seq2colModel.v
theories/Seq2colSpec.v
theories/Seq2colProofs.v
theories/Seq2colBackProofs.v
theories/Seq2colProps.v
theories/KernelModel.v
theories/KernelSpec.v
theories/KernelProofs.v
theories/GatherProofs.v
theories/KernelProps.v
theories/GatherProps.v
theories/SparseModel.v
theories/SparseSpec.v
theories/SparseProofs.v
theories/SparseProps.v
theories/HashModel.v
theories/HashSpec.v
theories/HashProofs.v
theories/HashProps.v
theories/EmbedModel.v
theories/EmbedProofs.v
theories/EmbedSpec.v
theories/EmbedProps.v
theories/CombModel.v
theories/CombSpec.v
theories/CombProofs.v
theories/CombBuiltProofs.v
theories/CombProps.v
theories/CombDiffProofs.v
theories/AliasModel.v
theories/AliasSpec.v
theories/AliasProofs.v
theories/AliasProps.v
theories/BidiModel.v
theories/BidiSpec.v
theories/BidiProofs.v
theories/BidiProps.v
theories/DenseModel.v
theories/DenseSpec.v
theories/MkProofs.v
theories/LinearProofs.v
theories/ActLayerProofs.v
theories/MaxoutLayerProofs.v
theories/LayerNormProofs.v
theories/DenseProofs.v
theories/DenseProps.v
theories/DropModel.v
theories/DropSpec.v
theories/DropProofs.v
theories/DropProps.v
theories/ActModel.v
theories/ActSpec.v
theories/ActProofs.v
theories/ActGeluProofs.v
theories/ActLayersProofs.v
theories/ActProps.v
theories/SoftModel.v
theories/SoftSpec.v
theories/SoftProofs.v
theories/SoftSeqProofs.v
theories/SoftProps.v
theories/LossModel.v
theories/LossSpec.v
theories/CatProofs.v
theories/CatProps.v
theories/LossProofs.v
theories/CosineProofs.v
theories/LossProps.v
theories/LstmModel.v
theories/LstmSpec.v
theories/LstmProofs.v
theories/LstmProps.v
theories/LstmKernelModel.v
theories/LstmKernelSpec.v
theories/LstmFwdProofs.v
theories/LstmBwdProofs.v
theories/LstmKernelProps.v
theories/ResizeModel.v
theories/ResizeSpec.v
theories/ResizeProofs.v
theories/ResizeProps.v
theories/NestModel.v
theories/NestSpec.v
theories/NestProofs.v
theories/NestProps.v
theories/UniqModel.v
theories/UniqSpec.v
theories/UniqProofs.v
theories/UniqProps.v
theories/ShapeModel.v
theories/ShapeSpec.v
theories/ShapeProofs.v
theories/ShapeProps.v
theories/ScalerModel.v
theories/ScalerSpec.v
theories/ScalerProofs.v
theories/ScalerProps.v
theories/TrainModel.v
theories/TrainSpec.v
theories/TrainProofs.v
theories/TrainProps.v
theories/OptRadamProofs.v
theories/InitModel.v
theories/InitSpec.v
theories/InitProofs.v
theories/InitProps.v
theories/InitReadyProofs.v
theories/InitFrameProofs.v
theories/InitChainProofs.v
theories/CudaModel.v
theories/CudaSpec.v
theories/CudaProofs.v
theories/CudaRowProofs.v
theories/CudaMaxProofs.v
theories/CudaSeqProofs.v
theories/CudaWinProofs.v
theories/CudaBackProofs.v
theories/CudaMapProofs.v
theories/CudaMeanProofs.v
theories/CudaProps.v
theories/CudaActModel.v
theories/CudaActSpec.v
theories/CudaActProofs.v
theories/ErfProofs.v
theories/CudaGeluProofs.v
theories/CudaActProps.v
theories/CudaHashModel.v
theories/CudaHashProofs.v
theories/CudaHashProps.v
theories/AttnModel.v
theories/AttnSpec.v
theories/AttnProofs.v
theories/AttnReduceProofs.v
theories/AttnCauchyProofs.v
theories/AttnMainProofs.v
theories/AttnProps.v
theories/WrapModel.v
theories/WrapSpec.v
theories/WrapProofs.v
theories/WrapMainProofs.v
theories/WrapProps.v
theories/FillModel.v
theories/FillSpec.v
theories/FillProofs.v
theories/FillProps.v
theories/MapperModel.v
theories/MapperSpec.v
theories/MapperProofs.v
theories/MapperProps.v
theories/ForeignModel.v
theories/ForeignSpec.v
theories/ForeignProofs.v
theories/ForeignProps.v
theories/ViewModel.v
theories/ViewSpec.v
theories/ViewProofs.v
theories/ViewGemmProofs.v
theories/ViewProps.v
theories/PosModel.v
theories/PosSpec.v
theories/PosProofs.v
theories/PosProps.v
theories/DeviceModel.v
theories/DeviceSpec.v
theories/DeviceProofs.v
theories/DeviceMoveProofs.v
theories/DeviceProps.v
theories/OptBuildModel.v
theories/OptBuildSpec.v
theories/OptBuildProofs.v
theories/OptBuildProps.v
theories/WInitModel.v
theories/WInitSpec.v
theories/WInitProofs.v
theories/WInitShapeProofs.v
theories/WInitWrapProofs.v
theories/WInitLayerProofs.v
theories/WInitProps.v
theories/InstrModel.v
theories/InstrSpec.v
theories/InstrProofs.v
theories/InstrProps.v
theories/ValidModel.v
theories/ValidSpec.v
theories/ValidProofs.v
theories/ValidProps.v
theories/MakeModel.v
theories/MakeSpec.v
theories/MakeProofs.v
theories/MakeProps.v
theories/BlasModel.v
theories/BlasSpec.v
theories/BlasProofs.v
theories/BlasProps.v
theories/MypyModel.v
theories/MypySpec.v
theories/MypyProofs.v
theories/MypyProps.v
theories/BuildModel.v
theories/BuildSpec.v
theories/BuildProofs.v
theories/BuildWitProofs.v
theories/BuildProps.v
theories/DiskModel.v
theories/DiskSpec.v
theories/DiskProofs.v
theories/DiskProps.v
theories/TorchBuildModel.v
theories/TorchBuildSpec.v
theories/TorchBuildProofs.v
theories/TorchBuildProps.v
theories/KerasModel.v
theories/KerasSpec.v
theories/KerasProofs.v
theories/KerasProps.v
theories/LstmBpttSpec.v
theories/LstmBpttProofs.v
theories/LstmBpttCodeProofs.v
theories/LstmBpttMainProofs.v
theories/LstmBpttDeepProofs.v
theories/LstmBpttProps.v
theories/CudaIntModel.v
theories/CudaIntSpec.v
theories/CudaIntProofs.v
theories/CudaIntKernelProofs.v
theories/CudaIntSeqProofs.v
theories/CudaIntProps.v
theories/LstmLayerModel.v
theories/LstmLayerSpec.v
theories/LstmLayerProofs.v
theories/LstmLayerGradProofs.v
theories/LstmLayerProps.v
theories/FloatModel.v
theories/FloatSpec.v
theories/FloatFacts.v
theories/FloatIntProofs.v
theories/FloatProofs.v
theories/FloatMaxProofs.v
theories/FloatTables.v
theories/FloatProps.v
theories/GlueModel.v
theories/GlueSpec.v
theories/GlueProofs.v
theories/GlueProps.v
theories/IdModel.v
theories/IdSpec.v
theories/IdProofs.v
theories/IdProps.v
theories/InitWidthSpec.v
theories/InitWidthProofs.v
theories/RegModel.v
theories/RegSpec.v
theories/RegProofs.v
theories/RegProps.v
theories/FloatSubProofs.v
theories/CudaIntExactProofs.v
theories/CudaIntWindowProofs.v
