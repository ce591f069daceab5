-Q theories Verif
theories/Base.v
theories/Num.v
theories/Witness.v
theories/DataModel.v
theories/DataSpec.v
theories/DataProofs.v
theories/SeqProofs.v
theories/SeriesProofs.v
theories/NormProofs.v
theories/DataProps.v
theories/NumOrder.v
theories/ToolsModel.v
theories/ToolsProofs.v
theories/ToolsProps.v
theories/WaitModel.v
theories/WaitSpec.v
theories/WaitProofs.v
theories/WaitProps.v
theories/StatModel.v
theories/StatSpec.v
theories/StatProofs.v
theories/Float32.v
theories/StatReal.v
theories/StatProps.v
theories/ActModel.v
theories/ActProofs.v
theories/ActProps.v
theories/NeuronModel.v
theories/LayerModel.v
theories/NetModel.v
theories/NetSpec.v
theories/NeuronProofs.v
theories/LayerProofs.v
theories/GradProofs.v
theories/DenseProofs.v
theories/GradProps.v
theories/RoundProps.v
theories/FactoryModel.v
theories/SafeProofs.v
theories/SafeLayers.v
theories/FactorySpec.v
theories/FactoryProofs.v
theories/FilterSpec.v
theories/SafeNet.v
theories/BuildProofs.v
theories/FactoryProps.v
theories/FilterProofs.v
theories/HistProofs.v
theories/FilterProps.v
theories/LocalProps.v
theories/LayerExamples.v
theories/PoolProofs.v
theories/PoolProps.v
theories/LOptSpec.v
theories/LOptProps.v
theories/PureSpec.v
theories/PureProps.v
theories/RecSpec.v
theories/RecProps.v
theories/BackSpec.v
theories/BackProps.v
theories/TrainModel.v
theories/TrainSpec.v
theories/TrainProofs.v
theories/TrainSafe.v
theories/TrainUser.v
theories/TrainLogs.v
theories/TrainPresent.v
theories/TrainProps.v
theories/AsyncModel.v
theories/AsyncProps.v
theories/SaveModel.v
theories/SaveSpec.v
theories/SaveProofs.v
theories/EqModel.v
theories/EqProofs.v
theories/AlikeProofs.v
theories/AlikeTrain.v
theories/SaveProps.v
theories/EqOutputs.v
theories/EqSame.v
theories/EqProps.v
theories/TrainLater.v
theories/CopyModel.v
theories/CopySpec.v
theories/CopyProofs.v
theories/CopyProps.v
theories/VisualModel.v
theories/VisualSpec.v
theories/VisualProofs.v
theories/VisualFloat.v
theories/VisualProps.v
theories/EvalSpec.v
theories/EvalProofs.v
theories/EvalSized.v
theories/CountProofs.v
theories/EvalProps.v
theories/AsyncWaitModel.v
theories/AsyncWaitProps.v
theories/TrainUses.v
theories/EvalCall.v
theories/EvalCallProps.v
theories/SampleSpec.v
theories/SampleProps.v
theories/SummaryModel.v
theories/SummarySpec.v
theories/SummaryProofs.v
theories/SummaryProps.v
theories/ValidProps.v
theories/F1Spec.v
theories/F1Proofs.v
theories/F1Float.v
theories/F1Props.v
theories/F1Best.v
theories/F1Eval.v
theories/VisitSpec.v
theories/VisitProofs.v
theories/VisitProps.v
theories/AcceptSpec.v
theories/AcceptProofs.v
theories/AcceptProps.v
theories/NegProps.v
theories/NormFloat.v
theories/NormProps.v
theories/BatchProofs.v
theories/MixSpec.v
theories/MixProofs.v
theories/MixLayers.v
theories/MixKinds.v
theories/MixRec.v
theories/MixFilter.v
theories/MixPool.v
theories/MixBuilt.v
theories/MixProps.v
theories/RecTrainSpec.v
theories/RecFrozen.v
theories/RecTrainProps.v
theories/ScaleSpec.v
theories/ScaleProofs.v
theories/ScaleChain.v
theories/ScaleProps.v
theories/SoftSpec.v
theories/SoftProps.v
theories/ActFloatProps.v
theories/FiniteSpec.v
theories/FiniteProofs.v
theories/FiniteLayers.v
theories/FiniteNet.v
theories/FiniteProps.v
theories/AccSpec.v
theories/AccProofs.v
theories/AccLayers.v
theories/AccNet.v
theories/AccProps.v
theories/FiniteValid.v
theories/LearnSpec.v
theories/LearnProofs.v
theories/LearnProps.v
theories/RaceModel.v
theories/RaceProofs.v
theories/RaceProps.v
theories/LearnSpoil.v
theories/LookSpec.v
theories/LookProofs.v
theories/LookProps.v
theories/FreqSpec.v
theories/FreqProps.v
theories/ShareModel.v
theories/ShareProofs.v
theories/ShareProps.v
theories/VisualLocal.v
theories/VisualLocalProps.v
theories/MiniSpec.v
theories/MiniProofs.v
theories/MiniStill.v
theories/MiniLin.v
theories/MiniProps.v
theories/ResumeSpec.v
theories/ResumeProofs.v
theories/ResumeProps.v
theories/TestOrderSpec.v
theories/TestOrderProofs.v
theories/TestOrderProps.v
theories/FieldSpec.v
theories/FieldProofs.v
theories/FieldProps.v
theories/KeepSpec.v
theories/KeepProofs.v
theories/KeepProps.v
theories/CrashModel.v
theories/CrashSpec.v
theories/CrashProofs.v
theories/CrashProps.v
theories/NeutralSpec.v
theories/NeutralProofs.v
theories/NeutralFloat.v
theories/NeutralProps.v
theories/NeutralTrainSpec.v
theories/NeutralTrain.v
theories/NeutralTrainProps.v
theories/RateSpec.v
theories/RateProofs.v
theories/RateNet.v
theories/RateBuilt.v
theories/RateTrain.v
theories/RateUsers.v
theories/RateProps.v
theories/FrozenSpec.v
theories/FrozenProofs.v
theories/FrozenUsers.v
theories/FrozenLayers.v
theories/FrozenProps.v
