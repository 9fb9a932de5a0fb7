-Q theories Verif
theories/Base.v
theories/Heap.v
theories/HeapProofs.v
theories/PQueue.v
theories/PQueueProofs.v
theories/SpecPQ.v
theories/PQHist.v
theories/PropsPQ.v
theories/Queue.v
theories/QueueEffects.v
theories/QueueEvents.v
theories/QueueSteps.v
theories/QueueInv.v
theories/SpecQueue.v
theories/QueueFlow.v
theories/QueueHist.v
theories/QueueClaims1.v
theories/PropsQueue1.v
theories/QueueData.v
theories/QueueRows.v
theories/QueueClaims3.v
theories/QueueClaims2.v
theories/QueueTotal.v
theories/PropsQueue2.v
theories/Fetch.v
theories/FetchProofs.v
theories/QueueClaims4.v
theories/QueueLoss.v
theories/QueueClaims5.v
theories/InfoStop.v
theories/PropsQueue3.v
theories/SpecAct.v
theories/QueueActs.v
theories/PropsQueue4.v
theories/Network.v
theories/NetQueue.v
theories/NetSteps.v
theories/NetInv.v
theories/SpecNet.v
theories/NetReach.v
theories/NetClaims4.v
theories/NetFlow.v
theories/NetClaims1.v
theories/NetClaims2.v
theories/NetClaims3.v
theories/NetLoop.v
theories/NetTotal.v
theories/NetExamples.v
theories/NetData.v
theories/PropsNet1.v
theories/Dict.v
theories/UnionFind.v
theories/SpecUF.v
theories/UnionFindProofs.v
theories/PropsUF.v
theories/Graph.v
theories/SpecGraph.v
theories/GraphProofs.v
theories/GraphClaims.v
theories/GraphNet.v
theories/GraphIndex.v
theories/PropsGraph.v
theories/SpecBuild.v
theories/GraphBuild.v
theories/PropsBuild.v
theories/Routing.v
theories/SpecRoute.v
theories/RoutingProofs.v
theories/RoutingGen.v
theories/PropsRoute.v
theories/GraphGen.v
theories/SpecGen.v
theories/GraphGenProofs.v
theories/GraphRankProofs.v
theories/PropsGen.v
theories/Measure.v
theories/PropsMeasure.v
theories/Colors.v
theories/ColorProofs.v
theories/PaintProofs.v
theories/PropsColor.v
theories/Animate.v
theories/AnimateProofs.v
theories/ShowProofs.v
theories/PropsAnimate.v
theories/Drawing.v
theories/DrawProofs.v
theories/DrawNet.v
theories/DrawMake.v
theories/PropsDrawing.v
theories/SpecRefine.v
theories/NetBare.v
theories/NetRefine.v
theories/PropsNet2.v
theories/SpecStop.v
theories/NetStop.v
theories/NetNext.v
theories/NetActive.v
theories/PropsNet3.v
theories/SpecLine.v
theories/LineSteps.v
theories/LineProofs.v
theories/LineClaims.v
theories/LineRows.v
theories/LineSolo.v
theories/LineNet.v
theories/PropsLine.v
theories/SpecLittle.v
theories/LineMore.v
theories/PropsLine2.v
theories/SpecTrail.v
theories/TrailSteps.v
theories/TrailProofs.v
theories/TrailNet.v
theories/TrailData.v
theories/PropsTrail.v
theories/SpecLock.v
theories/LockProofs.v
theories/LockFree.v
theories/PropsLock.v
theories/View.v
theories/SpecView.v
theories/ViewProofs.v
theories/PropsView.v
theories/SpecCopy.v
theories/CopyProofs.v
theories/PropsCopy.v
theories/SpecOrder.v
theories/OrderProofs.v
theories/PropsOrder.v
theories/GraphRead.v
theories/PropsRead.v
theories/Portions.v
theories/PropsPortions.v
theories/Options.v
theories/PropsOptions.v
theories/SpecLittleNet.v
theories/LittleNet.v
theories/PropsLittleNet.v
theories/SpecTraffic.v
theories/Traffic.v
theories/Tandem.v
theories/PropsTraffic.v
theories/SpecCounts.v
theories/Marks.v
theories/Counts.v
theories/PropsCounts.v
theories/Switch.v
theories/PropsSwitch.v
theories/SpecDrain.v
theories/Drain.v
theories/PropsDrain.v
theories/SpecClock.v
theories/Clock.v
theories/ClockNet.v
theories/PropsClock.v
theories/SpecBlind.v
theories/Blind.v
theories/BlindNet.v
theories/PropsBlind.v
theories/SpecParts.v
theories/Parts.v
theories/PropsParts.v
theories/SpecLay.v
theories/Lay.v
theories/LayNet.v
theories/PropsLay.v
theories/SpecAgain.v
theories/Again.v
theories/AgainNet.v
theories/SpecRenew.v
theories/Renew.v
theories/PropsAgain.v
theories/SpecRelax.v
theories/Relax.v
theories/RelaxNet.v
theories/RelaxMore.v
theories/PropsRelax.v
theories/SpecLimit.v
theories/Limit.v
theories/PropsLimit.v
theories/SpecFree.v
theories/Free.v
theories/FreeNet.v
theories/PropsFree.v
theories/SpecSoft.v
theories/Soft.v
theories/PropsSoft.v
theories/SpecPast.v
theories/Past.v
theories/PastNet.v
theories/PropsPast.v
theories/SpecCalls.v
theories/Calls.v
theories/CallsNet.v
theories/PropsCalls.v
