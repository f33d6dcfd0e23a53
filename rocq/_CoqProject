-Q theories Verif
theories/Outcome.v
theories/Dbl.v
theories/Types.v
theories/ListOps.v
theories/HeapList.v
theories/Soil.v
theories/Giuh.v
theories/Fronts.v
theories/Infil.v
theories/Move.v
theories/State.v
theories/Update.v
theories/Exact.v
theories/Lib.v
theories/Spec_Common.v
theories/Spec_Giuh.v
theories/Spec_List.v
theories/Spec_ListRun.v
theories/Spec_Heap.v
theories/Spec_Column.v
theories/Spec_Update.v
theories/Pf_Giuh.v
theories/Pf_List.v
theories/Pf_Heap.v
theories/Pf_Dbl.v
theories/Pf_Pow.v
theories/Pf_Column.v
theories/Pf_Surface.v
theories/Pf_SurfaceAny.v
theories/Pf_Update.v
theories/Pf_Ledger.v
theories/Pf_Signs.v
theories/Pf_Clock.v
theories/Pf_Infil.v
theories/Ex_Saturated.v
theories/Ex_Unsaturated.v
theories/Ex_NaN.v
theories/Ex_Steps.v
theories/Ex_Surface.v
theories/Ex_Ledger.v
theories/Ex_Clock.v
theories/Spec_Profile.v
theories/Pf_Profile.v
theories/Pf_Structure.v
theories/Pf_SafeMove.v
theories/Spec_Soil.v
theories/Spec_Frozen.v
theories/Pf_Soil.v
theories/Pf_SoilAny.v
theories/Pf_Geff.v
theories/Pf_Frozen.v
theories/Ex_Soil.v
theories/Ex_Dry.v
theories/Prop_Surface.v
theories/Prop_Ledger.v
theories/Prop_Clock.v
theories/Prop_Giuh.v
theories/Prop_List.v
theories/Prop_Heap.v
theories/Prop_Soil.v
theories/Spec_Storage.v
theories/Pf_Storage.v
theories/Pf_SafeUpdate.v
theories/Pf_SafeHistory.v
theories/Ex_Safety.v
theories/Ex_TwoLayers.v
theories/Prop_Profile.v
theories/Pf_Merge.v
theories/Pf_Cross.v
theories/Pf_Repair.v
theories/Ex_Storage.v
theories/Prop_Storage.v
theories/Spec_Velocity.v
theories/Spec_Balance.v
theories/Pf_Velocity.v
theories/Pf_Layers.v
theories/Pf_Balance.v
theories/Ex_Velocity.v
theories/Prop_Flow.v
theories/Bmi.v
theories/Spec_Bmi.v
theories/Spec_Calib.v
theories/Pf_Bmi.v
theories/Pf_BmiMem.v
theories/Pf_BmiRun.v
theories/Pf_Calib.v
theories/Ex_Calib.v
theories/Ex_Bmi.v
theories/Prop_Bmi.v
theories/Prop_Calib.v
theories/Config.v
theories/Spec_Config.v
theories/Pf_Text.v
theories/Pf_Config.v
theories/Pf_Lines.v
theories/Pf_Init.v
theories/Pf_InitState.v
theories/Pf_Table.v
theories/Pf_InitExact.v
theories/Pf_ConfigThm.v
theories/Pf_InitTotal.v
theories/Pf_Scan.v
theories/Pf_ConfigMore.v
theories/Ex_Config.v
theories/Prop_Config.v
theories/Life.v
theories/Spec_Life.v
theories/Pf_Life.v
theories/Pf_LifeRun.v
theories/Ex_Life.v
theories/Prop_Life.v
theories/Driver.v
theories/Spec_Driver.v
theories/Pf_Forcing.v
theories/Spec_Run.v
theories/Pf_Run.v
theories/Pf_RunExact.v
theories/Pf_DriverRun.v
theories/Pf_DriverBalance.v
theories/Ex_Driver.v
theories/Prop_Driver.v
theories/Spec_Geff.v
theories/Pf_GeffInt.v
theories/Pf_Aet.v
theories/Ex_Geff.v
theories/Prop_Geff.v
theories/Binary64.v
theories/Spec_Binary64.v
theories/Pf_Binary64.v
theories/Pf_Counts.v
theories/Ex_Clock64.v
theories/Ex_Binary64.v
theories/Prop_Binary64.v
theories/DepthList.v
theories/Spec_Depth.v
theories/Pf_Depth.v
theories/Pf_DepthHeap.v
theories/Pf_DepthInsert.v
theories/Prop_Depth.v
theories/Spec_Single.v
theories/Pf_Single.v
theories/Pf_SingleMerge.v
theories/Pf_SingleStop.v
theories/Pf_Alone.v
theories/Ex_Single.v
theories/Prop_Single.v
theories/Spec_Advance.v
theories/Pf_Advance.v
theories/Ex_Advance.v
theories/Prop_Advance.v
theories/Spec_SubSingle.v
theories/Pf_SubSingle.v
theories/Ex_SubSingle.v
theories/Prop_SubSingle.v
theories/Spec_Growth.v
theories/Pf_Growth.v
theories/Ex_Growth.v
theories/Prop_Growth.v
theories/Spec_LedgerFp.v
theories/Pf_LedgerFp.v
theories/Ex_LedgerFp.v
theories/Prop_LedgerFp.v
theories/Pf_GiuhFp.v
theories/Prop_GiuhFp.v
theories/Pf_Drying.v
theories/Pf_HeadEnds.v
theories/Ex_Drying.v
theories/Prop_Drying.v
theories/Spec_OneLayer.v
theories/Pf_OneLayer.v
theories/Spec_OneConfig.v
theories/Pf_OneConfig.v
theories/Spec_OneProgram.v
theories/Pf_OneProgram.v
theories/Ex_OneLayer.v
theories/Prop_OneLayer.v
theories/Pf_Fuel.v
theories/Spec_Fuel.v
theories/Prop_Fuel.v
theories/Spec_Ends.v
theories/Pf_GeffEnds.v
theories/Pf_NoFuel.v
theories/Pf_TmbEnds.v
theories/Pf_SubEnds.v
theories/Pf_RunEnds.v
theories/Prop_Ends.v
theories/HeapFronts.v
theories/HeapUpdate.v
theories/Spec_Refine.v
theories/Pf_Lay.v
theories/Pf_Lay2.v
theories/Pf_Refine.v
theories/Pf_Refine2.v
theories/Pf_Refine3.v
theories/Pf_Refine4.v
theories/Pf_Refine5.v
theories/Pf_Refine6.v
theories/Ex_Refine.v
theories/Prop_Refine.v
theories/Spec_Physical.v
theories/Pf_Physical.v
theories/Pf_Physical2.v
theories/Pf_Physical3.v
theories/Pf_Physical4.v
theories/Ex_Physical.v
theories/Prop_Physical.v
theories/Spec_Shares.v
theories/Pf_Shares.v
theories/Pf_Books.v
theories/Ex_Books.v
theories/Prop_Books.v
theories/Spec_Meet.v
theories/Pf_Level.v
theories/Pf_Level2.v
theories/Ex_Meet.v
theories/Prop_Meet.v
theories/Grid.v
theories/Pf_Grid.v
theories/Prop_Grid.v
theories/Spec_Motion.v
theories/Pf_Motion.v
theories/Pf_Motion2.v
theories/Pf_Motion3.v
theories/Ex_Motion.v
theories/Prop_Motion.v
theories/TableFile.v
theories/Spec_Table.v
theories/Pf_TableFile.v
theories/Prop_TableFile.v
theories/Output.v
theories/Spec_Output.v
theories/Pf_Output.v
theories/Ex_Output.v
theories/Prop_Output.v
theories/Spec_Upright.v
theories/Pf_Drier.v
theories/Pf_Drier2.v
theories/Prop_Upright.v
theories/Spec_Layered.v
theories/Pf_Layered.v
theories/Pf_Layered2.v
theories/Pf_Layered3.v
theories/Ex_Layered.v
theories/Ex_LayeredRain.v
theories/Prop_Layered.v
theories/Spec_Rest.v
theories/Pf_Rest.v
theories/Pf_Rest2.v
theories/Pf_Rest3.v
theories/Pf_Rest4.v
theories/Ex_Rest.v
theories/Prop_Rest.v
theories/Spec_Storm.v
theories/Pf_Storm.v
theories/Pf_Storm2.v
theories/Pf_Storm3.v
theories/Pf_Storm4.v
theories/Pf_Storm5.v
theories/Pf_Storm6.v
theories/Prop_Storm.v
theories/Spec_Drought.v
theories/Pf_Drought.v
theories/Pf_Drought2.v
theories/Prop_Drought.v
theories/Spec_Influence.v
theories/Pf_Influence.v
theories/Prop_Influence.v
theories/Spec_Split.v
theories/Pf_Split.v
theories/Pf_Split2.v
theories/Prop_Split.v
theories/UnitTest.v
theories/Spec_UnitTest.v
theories/Pf_UnitTest.v
theories/Prop_UnitTest.v
theories/Pf_MoreRain.v
theories/Ex_MoreRain.v
theories/Prop_MoreRain.v
theories/Spec_Relayer.v
theories/Pf_Relayer.v
theories/Pf_Relayer2.v
theories/Pf_Relayer3.v
theories/Ex_Relayer.v
theories/Prop_Relayer.v
theories/Spec_Recalib.v
theories/Pf_Recalib.v
theories/Ex_Recalib.v
theories/Prop_Recalib.v
theories/Spec_Discharge.v
theories/Pf_Discharge.v
theories/Ex_Discharge.v
theories/Prop_Discharge.v
theories/Alloc.v
theories/Spec_Alloc.v
theories/Pf_Alloc.v
theories/Prop_Alloc.v
theories/Spec_Frost.v
theories/Pf_Frost.v
theories/Pf_Frost2.v
theories/Pf_Frost3.v
theories/Pf_Frost4.v
theories/Ex_Frost.v
theories/Prop_Frost.v
theories/Spec_NewFront.v
theories/Pf_NewFront.v
theories/Ex_NewFront.v
theories/Prop_NewFront.v
theories/Pf_Frost5.v
theories/Spec_Ponding.v
theories/Pf_Ponding.v
theories/Pf_Ponding2.v
theories/Ex_Ponding.v
theories/Prop_Ponding.v
theories/Spec_Speed.v
theories/Pf_Speed.v
theories/Pf_Speed2.v
theories/Ex_Speed.v
theories/Prop_Speed.v
theories/Spec_RoundMono.v
theories/Pf_RoundMono.v
theories/Ex_RoundMono.v
theories/Prop_RoundMono.v
theories/Pf_InfilAny.v
theories/Prop_InfilAny.v
theories/Spec_DryStart.v
theories/Pf_DryStart.v
theories/Ex_DryStart.v
theories/Prop_DryStart.v
theories/Spec_SatRound.v
theories/Pf_SatRound.v
theories/Ex_SatRound.v
theories/Prop_SatRound.v
theories/Spec_StartRound.v
theories/Pf_StartRound.v
theories/Ex_StartRound.v
theories/Prop_StartRound.v
theories/Spec_SaneRun.v
theories/Pf_SaneBase.v
theories/Pf_SaneMove.v
theories/Pf_SaneStep.v
theories/Pf_SaneHist.v
theories/Pf_SaneStart.v
theories/Pf_SaneRead.v
theories/Pf_SaneProgram.v
theories/Ex_SaneRun.v
theories/Prop_SaneRun.v
theories/Pf_MoreRainAny.v
theories/Ex_MoreRainAny.v
theories/Prop_MoreRainAny.v
theories/Pf_DemandNum.v
theories/Prop_DemandNum.v
theories/Spec_GeffNum.v
theories/Pf_GeffNum.v
theories/Prop_GeffNum.v
theories/Pf_GiuhAny.v
theories/Ex_GiuhAny.v
theories/Prop_GiuhAny.v
theories/Pf_SurfNum.v
theories/Ex_NegInfil.v
theories/Prop_SurfNum.v
theories/Pf_DryNum.v
theories/Pf_CreateNum.v
theories/Prop_DryNum.v
theories/Spec_CapNum.v
theories/Pf_CapNum.v
theories/Prop_CapNum.v
