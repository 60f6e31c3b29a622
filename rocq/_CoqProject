-Q theories Verif

theories/Base/Outcome.v
theories/Base/OutcomeFacts.v
theories/Base/Scalar.v
theories/Model/Quadrature.v
theories/Model/Primitive.v
theories/Model/Radial.v
theories/Model/S2Tables.v
theories/Model/S2.v
theories/Model/BoundTransform.v
theories/Model/Composite.v
theories/Model/Batcher.v
theories/Model/Heap.v
theories/Model/Lifetime.v
theories/Model/Factory.v
theories/Base/RScalar.v
theories/Spec/QuadSpec.v
theories/Spec/Sums.v
theories/Spec/SphereSpec.v
theories/Proofs/Tab.v
theories/Proofs/PrimitiveFacts.v
theories/Proofs/Sizes.v
theories/Proofs/SumFacts.v
theories/Proofs/CompositeFacts.v
theories/Proofs/PrunedFacts.v
theories/Proofs/S2Facts.v
theories/Base/QScalar.v
theories/Spec/TraitsSpec.v
theories/Spec/SphereReal.v
theories/Proofs/TraitsFacts.v
theories/Proofs/CompositeProps.v
theories/Proofs/CompositeEdge.v
theories/Proofs/AngularFacts.v
theories/Spec/SphereInt.v
theories/Spec/SpaceSpec.v
theories/Spec/FloatSpec.v
theories/Proofs/FloatSphere.v
theories/Proofs/PiBounds.v
theories/Proofs/FloatErr.v
theories/Spec/LibmSpec.v
theories/Proofs/ChebFloat.v
theories/Proofs/ChebFloat3.v
theories/Proofs/PerezFloat.v
theories/Proofs/RadialFloat.v
theories/Proofs/RadialFloatRule.v
theories/Proofs/RadialFloatSchemes.v
theories/Proofs/RadialFloatShape.v
theories/Proofs/RadialFloatLib.v
theories/Props/ChebFloat.v
theories/Props/RadialFloat.v
theories/Proofs/SphereIntFacts.v
theories/Proofs/HarmStable.v
theories/Proofs/HarmOrtho.v
theories/Proofs/HarmBase.v
theories/Proofs/Limb.v
theories/Proofs/LimbCheck.v
theories/Proofs/LimbSound.v
theories/Proofs/LimbLoad.v
theories/Model/GridCode.v
theories/Model/GridsLL.v
theories/Model/GridsDelley.v
theories/Model/GridsAB.v
theories/Model/GridsWomersley.v
theories/Model/Grids.v
theories/Proofs/GridSym.v
theories/Proofs/GridCheck.v
theories/Proofs/GridRun.v
theories/Proofs/GridShape.v
theories/Proofs/GridCheckLL.v
theories/Proofs/GridCheckDelley.v
theories/Proofs/GridCheckAB.v
theories/Proofs/GridCheckWom.v
theories/Proofs/GridFiles.v
theories/Proofs/GridExact.v
theories/Spec/PolySpec.v
theories/Proofs/NearSphere.v
theories/Proofs/GridLoad.v
theories/Props/Sizes.v
theories/Props/Traits.v
theories/Props/Angular.v
theories/Props/Composite.v
theories/Base/FScalar.v
theories/Spec/BatchSpec.v
theories/Spec/HeapSpec.v
theories/Spec/LifetimeSpec.v
theories/Proofs/ListNat.v
theories/Proofs/BatchFacts.v
theories/Proofs/RefineFacts.v
theories/Proofs/FloatFacts.v
theories/Proofs/BatchProps.v
theories/Proofs/BatchFloat.v
theories/Proofs/BatchAccess.v
theories/Proofs/HeapFacts.v
theories/Proofs/BatchEx.v
theories/Props/Batcher.v
theories/Spec/FactorySpec.v
theories/Proofs/NameFacts.v
theories/Proofs/FactoryFacts.v
theories/Proofs/PruningFacts.v
theories/Proofs/FactoryEx.v
theories/Proofs/PrunedRelease.v
theories/Proofs/Space.v
theories/Proofs/Compose.v
theories/Props/Factory.v
theories/Props/Release.v
theories/Props/Space.v
theories/Props/FloatSphere.v
theories/Props/Compose.v
theories/Spec/RuleSpec.v
theories/Proofs/MirrorFacts.v
theories/Proofs/FloatOps.v
theories/Proofs/UniformFloat.v
theories/Props/FloatRules.v
theories/Spec/RealRules.v
theories/Proofs/TrigSums.v
theories/Proofs/ChebReal.v
theories/Proofs/ChebInt.v
theories/Proofs/ChebExact.v
theories/Proofs/TrapReal.v
theories/Proofs/PerezJorda.v
theories/Proofs/Legendre.v
theories/Proofs/LegendreZeros.v
theories/Proofs/LegendreAngles.v
theories/Spec/LegendreSpec.v
theories/Proofs/GLNewton.v
theories/Proofs/GLRule.v
theories/Proofs/Lobatto.v
theories/Proofs/LobattoAngles.v
theories/Proofs/LobattoNewton.v
theories/Proofs/LobattoRule.v
theories/Proofs/LegendreFloat.v
theories/Props/Legendre.v
theories/Proofs/UniformOne.v
theories/Props/OneDim.v
theories/Spec/IntervalSpec.v
theories/Proofs/BoundFacts.v
theories/Spec/RadialSpec.v
theories/Spec/GridFloatSpec.v
theories/Proofs/RadialReal.v
theories/Proofs/RadialRule.v
theories/Proofs/LitFloat.v
theories/Proofs/RadialBounds.v
theories/Proofs/AngularFloat.v
theories/Proofs/GridFloat.v
theories/Proofs/GridFloatSum.v
theories/Proofs/LegendreRound.v
theories/Proofs/GLBasin.v
theories/Proofs/GLFloat.v
theories/Proofs/GLFloatRule.v
theories/Proofs/LobFloat.v
theories/Proofs/LobFloatRule.v
theories/Proofs/LifetimeFacts.v
theories/Proofs/LifetimeEx.v
theories/Props/Radial.v
theories/Props/Grids.v
theories/Props/GridFloat.v
theories/Props/GLFloat.v
theories/Props/LobFloat.v
theories/Proofs/PolyGrid.v
theories/Props/Poly.v
theories/Spec/MomentSpec.v
theories/Proofs/Moments.v
theories/Proofs/MomentGrid.v
theories/Proofs/MomentLimit.v
theories/Proofs/MomentFloat.v
theories/Props/Moments.v
theories/Props/Lifetime.v
theories/Model/SpecHeap.v
theories/Spec/OwnSpec.v
theories/Proofs/OwnFacts.v
theories/Proofs/OwnSim.v
theories/Proofs/OwnEx.v
theories/Props/Ownership.v
theories/Spec/SeparateSpec.v
theories/Proofs/SplitFloat.v
theories/Proofs/BatchSplit.v
theories/Proofs/BatchApart.v
theories/Props/Separate.v
theories/Spec/SymSpec.v
theories/Proofs/Symmetry.v
theories/Proofs/SymFloat.v
theories/Props/Symmetry.v
theories/Model/Partition.v
theories/Spec/PartSpec.v
theories/Proofs/Partition.v
theories/Props/Partition.v
theories/Spec/ErrorSpec.v
theories/Proofs/Interp.v
theories/Proofs/Bernstein.v
theories/Proofs/GaussError.v
theories/Proofs/GaussErrorFloat.v
theories/Props/GaussError.v
theories/Spec/SphereErrSpec.v
theories/Proofs/SphereErr.v
theories/Proofs/GridErr.v
theories/Props/SphereErr.v
theories/Model/BoundFloat.v
theories/Spec/BoundFloatSpec.v
theories/Proofs/BoundFloat.v
theories/Proofs/BoundFloatThm.v
theories/Props/BoundFloat.v
theories/Spec/TrapFloatSpec.v
theories/Proofs/TrapFloat.v
theories/Proofs/TrapFloatThm.v
theories/Proofs/TrapFloatEx.v
theories/Props/TrapFloat.v
theories/Spec/RadialErrSpec.v
theories/Proofs/EulerMac.v
theories/Proofs/RadialErr.v
theories/Proofs/AngleErr.v
theories/Proofs/RadialErrGrid.v
theories/Proofs/RadialErrEx.v
theories/Proofs/RadialErrFloat.v
theories/Props/RadialErr.v
theories/Spec/MovedSpec.v
theories/Proofs/Moved.v
theories/Proofs/MovedGrid.v
theories/Proofs/MovedEx.v
theories/Props/Moved.v
theories/Spec/MappedSpec.v
theories/Proofs/Mapped.v
theories/Proofs/MappedGauss.v
theories/Proofs/MappedHalf.v
theories/Proofs/MappedEx.v
theories/Props/Mapped.v
theories/Spec/LineSpec.v
theories/Proofs/Line.v
theories/Proofs/LineRule.v
theories/Proofs/LineEx.v
theories/Props/Line.v
theories/Proofs/MappedCheb.v
theories/Props/MappedCheb.v
