-Q theories Verif
theories/F64.v
theories/F64Facts.v
theories/Prelude.v
theories/Num.v
theories/Np.v
theories/Handlers.v
theories/Swarms.v
theories/Operators.v
theories/Generators.v
theories/Topology.v
theories/Optimizers.v
theories/Spec.v
theories/ListFacts.v
theories/NpFacts.v
theories/ShapeFacts.v
theories/RunFacts.v
theories/PbestFacts.v
theories/GbestFacts.v
theories/RunBest.v
theories/RunMain.v
theories/RunResults.v
theories/RunStop.v
theories/RunMono.v
theories/RunRaise.v
theories/TopoFacts.v
theories/TopoGraphs.v
theories/RunMisc.v
theories/TopoRun.v
theories/Demo.v
theories/Witness.v
theories/RunClaims.v
theories/Examples.v
theories/PropertiesRun.v
theories/PropertiesTopo.v
theories/F64More.v
theories/SpecHandlers.v
theories/HandlerFacts.v
theories/BhFloat.v
theories/BhReal.v
theories/BhClaims.v
theories/BhClaims2.v
theories/VhFacts.v
theories/VelFacts.v
theories/VhClaims.v
theories/ExamplesHandlers.v
theories/PropertiesHandlers.v
theories/RunInv.v
theories/BoxRun.v
theories/VelRun.v
theories/NoopRun.v
theories/GenFacts.v
theories/StartRun.v
theories/ExamplesMotion.v
theories/PropertiesMotion.v
theories/SpecOpts.v
theories/OptFacts.v
theories/OptReal.v
theories/OptRun.v
theories/Trajectory.v
theories/BinFacts.v
theories/ExamplesOpts.v
theories/PropertiesOpts.v
theories/Search.v
theories/SpecSearch.v
theories/SearchFacts.v
theories/SearchRun.v
theories/OneWay.v
theories/ExamplesSearch.v
theories/PropertiesSearch.v
theories/Objectives.v
theories/SpecObj.v
theories/ObjFacts.v
theories/ObjReal.v
theories/ObjFormula.v
theories/ObjFloat.v
theories/RealFacts.v
theories/ObjCross.v
theories/ExtremeValue.v
theories/ObjHolder.v
theories/ObjTable.v
theories/ObjFour.v
theories/ObjEgg.v
theories/ObjEggMin.v
theories/ObjEggClaim.v
theories/Tools.v
theories/ToolFacts.v
theories/ExamplesObj.v
theories/PropertiesObj.v
theories/SpecDyn.v
theories/Textbook.v
theories/BinaryMotion.v
theories/Strategies.v
theories/Prefixes.v
theories/Ranks.v
theories/Handled.v
theories/Ties.v
theories/ExamplesDyn.v
theories/PropertiesDyn.v
theories/Heap.v
theories/SpecHeap.v
theories/HeapFacts.v
theories/HeapRun.v
theories/ExamplesHeap.v
theories/PropertiesHeap.v
theories/Entries.v
theories/SpecTame.v
theories/Tame.v
theories/FiniteRun.v
theories/Rounding.v
theories/ExamplesTame.v
theories/PropertiesTame.v
theories/SpecRun.v
theories/Collapse.v
theories/Locality.v
theories/Mean.v
theories/Accept.v
theories/ExamplesRun.v
theories/PropertiesMore.v
theories/RunningMin.v
theories/Shapes.v
theories/SpecPlot.v
theories/Plots.v
theories/ExamplesPlot.v
theories/PropertiesPlot.v
theories/Report.v
theories/SpecReport.v
theories/ReportFacts.v
theories/ExamplesReport.v
theories/PropertiesReport.v
theories/SpecLike.v
theories/Like.v
theories/SpecReorder.v
theories/Reorder.v
theories/ExamplesReorder.v
theories/PropertiesReorder.v
theories/SpecMirror.v
theories/MirrorFacts.v
theories/Mirror.v
theories/ExamplesMirror.v
theories/PropertiesMirror.v
theories/SpecRank.v
theories/Rank.v
theories/ExamplesRank.v
theories/PropertiesRank.v
theories/SpecShuffle.v
theories/ShuffleFacts.v
theories/ShuffleTopo.v
theories/Shuffle.v
theories/ExamplesShuffle.v
theories/PropertiesShuffle.v
theories/SpecEverybody.v
theories/EverybodyTopo.v
theories/Everybody.v
theories/ExamplesEverybody.v
theories/PropertiesEverybody.v
theories/SpecForget.v
theories/Forget.v
theories/ExamplesForget.v
theories/PropertiesForget.v
theories/SpecAlone.v
theories/SameFacts.v
theories/Alone.v
theories/ExamplesAlone.v
theories/PropertiesAlone.v
theories/SpecCoast.v
theories/CoastFacts.v
theories/Coast.v
theories/ExamplesCoast.v
theories/PropertiesCoast.v
theories/HeapWrite.v
theories/SpecWrite.v
theories/WriteRun.v
theories/ExamplesWrite.v
theories/PropertiesWrite.v
theories/Attrs.v
theories/SpecAttrs.v
theories/AttrsFacts.v
theories/ExamplesAttrs.v
theories/PropertiesAttrs.v
theories/SpecReflect.v
theories/ReflectEnd.v
theories/ExamplesReflect.v
theories/PropertiesReflect.v
theories/SpecScale.v
theories/ScaleFacts.v
theories/Scale.v
theories/ExamplesScale.v
theories/PropertiesScale.v
theories/DType.v
theories/SpecDType.v
theories/DTypeFacts.v
theories/ExamplesDType.v
theories/PropertiesDType.v
theories/LiveOptions.v
theories/SpecLive.v
theories/LiveFacts.v
theories/ExamplesLive.v
theories/PropertiesLive.v
theories/SmallBounds.v
theories/SpecSmall.v
theories/SmallFacts.v
theories/ExamplesSmall.v
theories/PropertiesSmall.v
theories/OneDim.v
theories/SpecOne.v
theories/OneFacts.v
theories/ExamplesOne.v
theories/PropertiesOne.v
theories/SpecSafe.v
theories/SafeFacts.v
theories/SafeMore.v
theories/ExamplesSafe.v
theories/PropertiesSafe.v
theories/Broadcast.v
theories/SpecBroadcast.v
theories/BroadcastFacts.v
theories/ExamplesBroadcast.v
theories/PropertiesBroadcast.v
theories/Axes.v
theories/SpecAxes.v
theories/AxesFacts.v
theories/ExamplesAxes.v
theories/PropertiesAxes.v
