-Q theories Verif
theories/Base.v
theories/BaseR.v
theories/L_Sum.v
theories/L_Order.v
theories/L_Quantile.v
theories/M_Estimation.v
theories/M_Framework.v
theories/S_Framework.v
theories/S_Estimation.v
theories/M_Splitting.v
theories/S_Splitting.v
theories/L_VarEst.v
theories/L_Estimation.v
theories/L_Framework.v
theories/L_FwAlg.v
theories/L_FwConcat.v
theories/L_FwExpr.v
theories/L_Inference.v
theories/L_FwRefute.v
theories/L_Sensitivity.v
theories/L_FwExamples.v
theories/L_FwProps.v
theories/P_Framework.v
theories/P_Inference.v
theories/P_Sensitivity.v
theories/P_Estimation.v
theories/L_Splitting.v
theories/L_Resampling.v
theories/L_ClusterSplit.v
theories/P_Splitting.v
theories/M_CrossFit.v
theories/S_CrossFit.v
theories/L_CrossFit.v
theories/L_CrossPath.v
theories/L_CrossProps.v
theories/L_CrossExamples.v
theories/P_CrossFit.v
theories/M_Model.v
theories/S_Model.v
theories/L_Model.v
theories/L_ModelStep.v
theories/L_ModelLoop.v
theories/L_ModelInv.v
theories/L_ModelReach.v
theories/L_ModelFit.v
theories/S_Lifecycle.v
theories/L_ModelProps.v
theories/L_ModelHist.v
theories/L_ModelExamples.v
theories/P_Model.v
theories/S_Valid.v
theories/L_ModelValid.v
theories/L_ModelWitness.v
theories/P_ModelValid.v
theories/S_ClusterVar.v
theories/L_ClusterVar.v
theories/P_ClusterVar.v
theories/M_Scores.v
theories/S_Scores.v
theories/L_Scores.v
theories/L_ScoresDid.v
theories/L_ScoresSens.v
theories/S_Weights.v
theories/L_Weights.v
theories/L_ScoresWitness.v
theories/L_ScoresGuard.v
theories/P_Scores.v
theories/P_ScoresSens.v
theories/M_Gain.v
theories/S_Gain.v
theories/L_Gain.v
theories/P_Gain.v
theories/S_Debias.v
theories/L_Debias.v
theories/P_Debias.v
theories/M_Multi.v
theories/S_Multi.v
theories/L_Multi.v
theories/L_Contrast.v
theories/P_Multi.v
theories/M_Blp.v
theories/S_Blp.v
theories/L_Blp.v
theories/L_Gate.v
theories/L_BlpWitness.v
theories/P_Blp.v
theories/M_Rdd.v
theories/S_Rdd.v
theories/L_Rdd.v
theories/P_Rdd.v
theories/M_Quantile.v
theories/S_Quantile.v
theories/L_QScore.v
theories/L_QNested.v
theories/L_QWitness.v
theories/P_Quantile.v
theories/M_Data.v
theories/S_Data.v
theories/L_Data.v
theories/L_DataOps.v
theories/L_DataProps.v
theories/L_DataArrays.v
theories/L_DataWitness.v
theories/L_EmptyD.v
theories/P_Data.v
theories/M_Tune.v
theories/S_Tune.v
theories/L_Tune.v
theories/L_TuneLeak.v
theories/L_TuneWitness.v
theories/L_TuneArgs.v
theories/P_Tune.v
theories/M_Nuis.v
theories/M_Classes.v
theories/S_Nuis.v
theories/L_Nuis.v
theories/L_NuisModels.v
theories/L_NuisNested.v
theories/L_NuisFree.v
theories/L_NuisTargets.v
theories/S_NuisFit.v
theories/L_NuisFit.v
theories/S_Classes.v
theories/L_Classes.v
theories/L_ClassFits.v
theories/L_ClassDid.v
theories/L_ClassSens.v
theories/L_ClassCluster.v
theories/L_SensFits.v
theories/L_NuisWitness.v
theories/L_NuisCases.v
theories/L_NuisGuard.v
theories/P_Nuis.v
theories/M_Local.v
theories/S_Local.v
theories/L_Local.v
theories/L_LocalFit.v
theories/L_Lpq.v
theories/L_LpqWitness.v
theories/P_Local.v
theories/S_Checks.v
theories/L_Checks.v
theories/L_Success.v
theories/L_FitSuccess.v
theories/L_ChecksWitness.v
theories/P_Checks.v
theories/L_ClassesWitness.v
theories/P_Classes.v
theories/M_Init.v
theories/M_QObject.v
theories/M_WrapObject.v
theories/S_WrapObject.v
theories/S_QObject.v
theories/L_QInit.v
theories/L_QFit.v
theories/L_NlObject.v
theories/L_PqObject.v
theories/L_LpqObject.v
theories/L_QSuccess.v
theories/L_QObjectWitness.v
theories/S_Init.v
theories/S_InitSplit.v
theories/L_Init.v
theories/L_InitArgs.v
theories/L_InitAccept.v
theories/L_InitMade.v
theories/L_ClassClusterAll.v
theories/L_InitFit.v
theories/L_InitSplit.v
theories/L_InitErrors.v
theories/L_InitAll.v
theories/L_InitAcceptAll.v
theories/L_InitErrorsAll.v
theories/L_FitSuccess2.v
theories/S_FitSuccess.v
theories/L_NestedSuccess.v
theories/L_ClusterSuccess.v
theories/L_InitWitness.v
theories/L_InitAllWitness.v
theories/L_InitFitCl.v
theories/L_ClusterSuccessAll.v
theories/L_InitFitClWitness.v
theories/P_Init.v
theories/P_InitFit.v
theories/P_InitFitCl.v
theories/M_TuneClasses.v
theories/S_TuneClasses.v
theories/L_TuneClasses.v
theories/L_TuneFit.v
theories/L_TuneSuccess.v
theories/L_TuneFitWitness.v
theories/P_TuneClasses.v
theories/M_Summary.v
theories/S_Summary.v
theories/L_Summary.v
theories/L_SummaryWitness.v
theories/P_Summary.v
theories/L_InitData.v
theories/P_InitData.v
theories/M_Bench.v
theories/S_Bench.v
theories/L_BenchData.v
theories/L_BenchMake.v
theories/L_BenchFit.v
theories/L_Bench.v
theories/L_BenchNew.v
theories/L_BenchWitness.v
theories/P_Bench.v
theories/S_Loss.v
theories/L_Loss.v
theories/L_LossFit.v
theories/L_LossEnd.v
theories/L_LossMore.v
theories/L_LossWitness.v
theories/P_Loss.v
theories/M_RddInit.v
theories/S_RddInit.v
theories/L_RddInit.v
theories/L_RddMore.v
theories/L_RddWitness.v
theories/P_RddInit.v
theories/M_Dummy.v
theories/S_External.v
theories/L_External.v
theories/L_ExternalIrm.v
theories/L_ExternalDid.v
theories/L_ExternalNeed.v
theories/L_ExternalEnd.v
theories/L_ExternalWitness.v
theories/P_External.v
theories/M_Cate.v
theories/S_Cate.v
theories/L_Cate.v
theories/L_CateFit.v
theories/L_CateEnd.v
theories/L_CateCases.v
theories/L_OlsExists.v
theories/L_CateWitness.v
theories/P_Cate.v
theories/P_QObject.v
theories/L_WrapObject.v
theories/L_WrapQte.v
theories/L_WrapQteFit.v
theories/L_WrapApos.v
theories/L_WrapEnd.v
theories/L_WrapWitness.v
theories/P_WrapObject.v
theories/M_Callable.v
theories/S_Callable.v
theories/L_Callable.v
theories/L_CallableEnd.v
theories/L_CallableWitness.v
theories/P_Callable.v
theories/M_Datasets.v
theories/S_Datasets.v
theories/L_Datasets.v
theories/L_DatasetsModels.v
theories/L_DatasetsMore.v
theories/L_DatasetsOracle.v
theories/L_DatasetsWitness.v
theories/P_Datasets.v
theories/L_DatasetsFit.v
theories/L_DatasetsFitWitness.v
theories/P_DatasetsFit.v
theories/S_Units.v
theories/L_Units.v
theories/L_UnitsFit.v
theories/L_UnitsFit2.v
theories/L_UnitsWitness.v
theories/P_Units.v
theories/S_Equal.v
theories/L_Equal.v
theories/L_EqualFit.v
theories/L_EqualFit2.v
theories/L_EqualWitness.v
theories/L_EqualSub.v
theories/L_EqualSubWitness.v
theories/P_Equal.v
theories/S_RowOrder.v
theories/L_RowOrder.v
theories/L_RowOrderFit.v
theories/L_RowOrderFit2.v
theories/L_RowOrderWitness.v
theories/P_RowOrder.v
theories/S_Alone.v
theories/L_Alone.v
theories/L_AloneWitness.v
theories/P_Alone.v
theories/M_Shared.v
theories/S_Shared.v
theories/L_Shared.v
theories/L_SharedClass.v
theories/L_SharedMore.v
theories/L_SharedWitness.v
theories/P_Shared.v
theories/L_SharedX.v
theories/L_SharedXWitness.v
theories/P_SharedX.v
theories/S_Unused.v
theories/L_Unused.v
theories/L_UnusedWitness.v
theories/L_UnusedWrap.v
theories/P_Unused.v
theories/S_Bounded.v
theories/L_Bounded.v
theories/L_BoundedTreated.v
theories/L_BoundedWitness.v
theories/P_Bounded.v
