-Q theories Verif
theories/TypeListModel.v
theories/TypeListSpec.v
theories/TypeListProofs.v
theories/PropTypeList.v
theories/AnyModel.v
theories/AnyInv.v
theories/AnySteps.v
theories/AnyOps.v
theories/AnyMove.v
theories/AnyLife.v
theories/AnyAssign.v
theories/AnyRefs.v
theories/AnyHistory.v
theories/AnyLogSpec.v
theories/AnyLog.v
theories/AnyExec.v
theories/AnyNoAllocSpec.v
theories/AnyNoAlloc.v
theories/AnyNoAllocExamples.v
theories/PropAnyNoAlloc.v
theories/AnyFacts.v
theories/AnyFacts2.v
theories/AnySteal.v
theories/AnyDestroyed.v
theories/AnyExamples.v
theories/AnyRefuted.v
theories/PropAnySafety.v
theories/AnyLocalSpec.v
theories/AnyLocal.v
theories/AnyValueSpec.v
theories/AnyValue.v
theories/AnyCostSpec.v
theories/AnyCost.v
theories/PropAnyValues.v
theories/PropAnyExc.v
theories/PropAnyPlace.v
theories/PropAnyAlloc.v
theories/PropAnyRefs.v
theories/DescModel.v
theories/DescSpec.v
theories/DescProofs.v
theories/DescExamples.v
theories/PropDesc.v
theories/VtableModel.v
theories/VtableProofs.v
theories/PropVtable.v
theories/PolyModel.v
theories/PolySpec.v
theories/PolyProofs.v
theories/PolyFacts.v
theories/PolyFacts2.v
theories/PolyExamples.v
theories/PolyRefuted.v
theories/PropPoly.v
theories/AnyLocalExamples.v
theories/PropAnyLocal.v
theories/AnyValueExamples.v
theories/PropAnyValue.v
theories/PropAnyCost.v
theories/VisitModel.v
theories/VisitSpec.v
theories/FlatMapProofs.v
theories/VisitProofs.v
theories/VisitExamples.v
theories/PropVisit.v
theories/SwitchModel.v
theories/SwitchSpec.v
theories/SwitchProofs.v
theories/SwitchExamples.v
theories/PropSwitch.v
theories/VisitorModel.v
theories/VisitorSpec.v
theories/VisitorProofs.v
theories/VisitorExamples.v
theories/PropVisitor.v
theories/UniqueModel.v
theories/UniqueSpec.v
theories/UniqueProofs.v
theories/UniqueExamples.v
theories/PropUnique.v
theories/SwarmModel.v
theories/SwarmSpec.v
theories/SwarmProofs.v
theories/SwarmExamples.v
theories/PropSwarm.v
theories/DpvModel.v
theories/DpvSpec.v
theories/DpvProofs.v
theories/DpvIterModel.v
theories/DpvMoreProofs.v
theories/DpvLawProofs.v
theories/DpvExamples.v
theories/PropDpv.v
theories/CastModel.v
theories/CastSpec.v
theories/CastProofs.v
theories/CastExamples.v
theories/PropCast.v
theories/CallModel.v
theories/CallSpec.v
theories/CallProofs.v
theories/CallExamples.v
theories/PropCall.v
theories/FieldsModel.v
theories/FieldsSpec.v
theories/FieldsProofs.v
theories/FieldsExamples.v
theories/PropFields.v
theories/CapModel.v
theories/CapSpec.v
theories/CapProofs.v
theories/MoveModel.v
theories/MoveSpec.v
theories/MoveProofs.v
theories/CapExamples.v
theories/PropCap.v
theories/DpvAllocModel.v
theories/DpvAllocSpec.v
theories/DpvAllocProofs.v
theories/DpvAllocExamples.v
theories/DpvAllocMore.v
theories/PropDpvAlloc.v
theories/RebindModel.v
theories/RebindSpec.v
theories/RebindProofs.v
theories/RebindHash.v
theories/RebindExamples.v
theories/PropRebind.v
theories/MacroModel.v
theories/MacroSpec.v
theories/MacroProofs.v
theories/MacroExamples.v
theories/PropMacro.v
theories/ConsModel.v
theories/ConsSpec.v
theories/ConsResolve.v
theories/ConsProofs.v
theories/ConsExamples.v
theories/PropCons.v
theories/MethodModel.v
theories/MethodSpec.v
theories/MethodProofs.v
theories/MethodExamples.v
theories/MethodRefuted.v
theories/PropMethod.v
theories/NormModel.v
theories/NormSpec.v
theories/NormProofs.v
theories/PropNorm.v
theories/DpvExprModel.v
theories/DpvExprSpec.v
theories/DpvExprProofs.v
theories/DpvExprSim.v
theories/DpvExprExamples.v
theories/PropDpvExpr.v
theories/DpvProgModel.v
theories/DpvProgSpec.v
theories/DpvAlgoModel.v
theories/DpvProgProofs.v
theories/DpvProgExamples.v
theories/PropDpvProg.v
theories/BindModel.v
theories/BindSpec.v
theories/BindExamples.v
theories/BindProofs.v
theories/PropBind.v
theories/OverloadModel.v
theories/OverloadSpec.v
theories/OverloadProofs.v
theories/InserterModel.v
theories/InserterProofs.v
theories/OverloadExamples.v
theories/PropOverload.v
theories/RefConsModel.v
theories/RefConsSpec.v
theories/RefConsProofs.v
theories/RefConsExamples.v
theories/PropRefCons.v
theories/ConformMeta.v
theories/ConformAny.v
theories/ConformMore.v
theories/ConformVec.v
theories/ConformCons.v
theories/ConformRefs.v
theories/InnerModel.v
theories/InnerSpec.v
theories/InnerProofs.v
theories/InnerExamples.v
theories/PropInner.v
theories/LayoutModel.v
theories/LayoutSpec.v
theories/LayoutProofs.v
theories/PropLayout.v
theories/NestModel.v
theories/NestSpec.v
theories/NestProofs.v
theories/NestFocus.v
theories/NestSteps.v
theories/NestExamples.v
theories/PropNest.v
theories/UsesModel.v
theories/UsesSpec.v
theories/UsesProofs.v
theories/UsesExamples.v
theories/PropUses.v
theories/NoexceptModel.v
theories/NoexceptSpec.v
theories/NoexceptProofs.v
theories/PropNoexcept.v
theories/VectorModel.v
theories/VectorSpec.v
theories/VectorProofs.v
theories/VectorExamples.v
theories/PropVector.v
theories/KeyModel.v
theories/KeySpec.v
theories/KeyHistory.v
theories/KeyProofs.v
theories/KeyTreeProofs.v
theories/KeyExamples.v
theories/PropKey.v
theories/ArrangeModel.v
theories/ArrangeSpec.v
theories/ArrangeProofs.v
theories/ArrangeExamples.v
theories/PropArrange.v
theories/StdModel.v
theories/StdSpec.v
theories/StdResolve.v
theories/StdProofs.v
theories/StdExamples.v
theories/PropStd.v
theories/StructModel.v
theories/StructSpec.v
theories/StructProofs.v
theories/StructExamples.v
theories/PropStruct.v
theories/VisitCostModel.v
theories/VisitCostProofs.v
theories/PropVisitCost.v
theories/AtomicModel.v
theories/AtomicSpec.v
theories/AtomicProofs.v
theories/AtomicWeak.v
theories/AtomicExamples.v
theories/PropAtomic.v
theories/FollowSpec.v
theories/FollowProofs.v
theories/FollowLife.v
theories/FollowPointers.v
theories/FollowExamples.v
theories/PropFollow.v
theories/DescKeyModel.v
theories/DescKeySpec.v
theories/DescKeyProofs.v
theories/DescKeyTable.v
theories/DescKeyHandlers.v
theories/DescKeyExamples.v
theories/PropDescKey.v
