-Q theories Verif
theories/Model/Py.v
theories/Model/Num.v
theories/Model/Enums.v
theories/Model/Heap.v
theories/Model/Geometry.v
theories/Model/Lane.v
theories/Model/Links.v
theories/Model/SignalsObjects.v
theories/Model/Road.v
theories/Model/OpenDrive.v
theories/Model/Generators.v
theories/Model/Xml.v
theories/Model/Write.v
theories/Model/Api.v
theories/Inst/Quarter.v
theories/Inst/Real.v
theories/Spec/SpecGeometry.v
theories/Proof/DrivesFacts.v
theories/Proof/Clothoid.v
theories/Spec/SpecPlanView.v
theories/Proof/GeomReal.v
theories/Proof/Monad.v
theories/Spec/SpecChain.v
theories/Proof/PlanViewFacts.v
theories/Proof/PlanViewReal.v
theories/Proof/PolyReal.v
theories/Properties/PGeometry.v
theories/Properties/PPlanView.v
theories/Spec/SpecNetwork.v
theories/Proof/DictFacts.v
theories/Proof/NetFrame.v
theories/Proof/Network.v
theories/Properties/PNetwork.v
theories/Spec/SpecState.v
theories/Spec/SpecHistory.v
theories/Spec/SpecLanes.v
theories/Spec/SpecKeeps.v
theories/Proof/Reach.v
theories/Proof/Steps.v
theories/Proof/History.v
theories/Proof/Invariants.v
theories/Proof/LinkerFacts.v
theories/Properties/PHistory.v
theories/Proof/LaneLinks.v
theories/Proof/Generate.v
theories/Properties/PLaneLinks.v
theories/Spec/SpecGenerate.v
theories/Properties/PGenerators.v
theories/Properties/PGeneratorsReal.v
theories/Spec/SpecJunction.v
theories/Proof/JunctionFacts.v
theories/Properties/PJunction.v
theories/Spec/SpecJunctionRoads.v
theories/Proof/JunctionRoads.v
theories/Properties/PJunctionRoads.v
theories/Properties/PJunctionPairs.v
theories/Properties/PJunctionRoadsReal.v
theories/Spec/SpecObjects.v
theories/Properties/PObjects.v
theories/Properties/PMarks.v
theories/Spec/SpecEnums.v
theories/Spec/SpecXml.v
theories/Proof/ReadXml.v
theories/Spec/SpecWrite.v
theories/Spec/SpecLayout.v
theories/Proof/Layout.v
theories/Properties/PLayout.v
theories/Proof/WriteXml.v
theories/Proof/WriteNames.v
theories/Proof/SchemaFacts.v
theories/Properties/PWrite.v
theories/Properties/PXml.v
theories/Spec/SpecAgain.v
theories/Proof/Again.v
theories/Properties/PAgain.v
theories/Spec/SpecRoadChain.v
theories/Proof/RoadChain.v
theories/Spec/SpecLinkOrder.v
theories/Proof/LinkAll.v
theories/Proof/LinkOrder.v
theories/Proof/LinkKinds.v
theories/Properties/PRoadChain.v
theories/Properties/PLinkOrder.v
theories/Spec/SpecFrame.v
theories/Proof/Frame.v
theories/Properties/PFrame.v
theories/Spec/SpecLocal.v
theories/Spec/SpecFail.v
theories/Proof/Local.v
theories/Proof/Fail.v
theories/Properties/PLocal.v
theories/Properties/PFail.v
theories/Proof/KeepFacts.v
theories/Properties/PKeeps.v
theories/Spec/SpecGetters.v
theories/Properties/PGetters.v
theories/Spec/SpecCreate.v
theories/Properties/PCreate.v
theories/Inst/Float.v
theories/Spec/SpecFloat.v
theories/Proof/FloatFacts.v
theories/Properties/PFloat.v
theories/Spec/SpecByHand.v
theories/Proof/ByHand.v
theories/Properties/PByHand.v
theories/Properties/PLookup.v
theories/Model/Run.v
theories/Spec/SpecRun.v
theories/Spec/SpecSchema.v
theories/Spec/SpecSchemaOrder.v
theories/Properties/PRun.v
theories/Properties/PSchema.v
theories/Properties/PSchemaOrder.v
theories/Spec/SpecFlow.v
theories/Proof/Flow.v
theories/Proof/FlowRun.v
theories/Proof/Crossing.v
theories/Properties/PFlow.v
theories/Proof/LocalAny.v
theories/Properties/PLocalAny.v
theories/Spec/SpecRefs.v
theories/Properties/PRefs.v
theories/Properties/PFlowCrossing.v
theories/Properties/PSucceeds.v
theories/Tests/RepoTests.v
theories/Tests/RepoGeometry.v
