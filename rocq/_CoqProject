-Q theories Verif
theories/Py.v
theories/Lattice.v
theories/Cluster.v
theories/Perc.v
theories/Run.v
theories/View.v
theories/Spec.v
theories/LatSpec.v
theories/ViewSpec.v
theories/PyFacts.v
theories/Torus.v
theories/Geometry.v
theories/LatFacts.v
theories/Inv.v
theories/Merge.v
theories/History.v
theories/Count.v
theories/Fresh.v
theories/Select.v
theories/State.v
theories/Step.v
theories/Reach.v
theories/GeomProps.v
theories/Micro.v
theories/StateProps.v
theories/StateProps2.v
theories/Wrap.v
theories/Seq.v
theories/Comm.v
theories/RunBase.v
theories/RunProps.v
theories/RunProps2.v
theories/Cycle.v
theories/Cand.v
theories/CandRun.v
theories/CandProps.v
theories/Lines.v
theories/Normal.v
theories/Stop.v
theories/Real.v
theories/Entropy.v
theories/Order.v
theories/Label.v
theories/SelfTest.v
theories/Reinit.v
theories/SelfWitness.v
theories/Exact.v
theories/Sim.v
theories/Replay.v
theories/Files.v
theories/Unbiased.v
theories/EnsSpec.v
theories/UtilSpec.v
theories/Ens.v
theories/Util.v
theories/Drivers.v
theories/ViewProps.v
theories/Seeded.v
theories/Script.v
theories/Critical.v
theories/Drive.v
theories/SummarySpec.v
theories/Summary.v
theories/Demo.v
theories/TwoRows.v
theories/Witness.v
theories/EnsWitness.v
theories/FilesWitness.v
theories/Float.v
theories/FloatProps.v
theories/FloatEnt.v
theories/CurveSpec.v
theories/Curves.v
theories/ShortEns.v
theories/Late.v
theories/Grow.v
theories/TestSuite.v
theories/SuiteProps.v
theories/SuiteWitness.v
theories/Programs.v
theories/ProgSpec.v
theories/ProgProps.v
theories/ProgProps2.v
theories/SymSpec.v
theories/Describe.v
theories/Symmetry.v
theories/ChanceSpec.v
theories/Chance.v
theories/Break.v
theories/BreakFacts.v
theories/BreakReset.v
theories/BreakKeep.v
theories/BreakSpec.v
theories/BreakProps.v
theories/BreakPoints.v
theories/Extra.v
theories/RootSpec.v
theories/Root.v
theories/MergeV1.v
theories/PoolSpec.v
theories/PoolProps.v
theories/L1ChanceSpec.v
theories/L1Chance.v
theories/L2Chance.v
theories/World.v
theories/WorldSpec.v
theories/WorldProps.v
theories/Shared.v
theories/SharedSpec.v
theories/SharedProps.v
theories/Arrays.v
theories/ArraysSpec.v
theories/ArraysProps.v
theories/IidSpec.v
theories/Iid.v
theories/GeomSpec.v
theories/GeomMore.v
theories/Couple.v
theories/RulesLawSpec.v
theories/RulesLaw.v
theories/RulesJoint.v
theories/RulesSymSpec.v
theories/RulesSym.v
theories/Heap.v
theories/HeapSpec.v
theories/HeapFacts.v
theories/HeapMerge.v
theories/HeapStep.v
theories/HeapPlace.v
theories/HeapRun.v
theories/HeapReset.v
theories/HeapProps.v
theories/HeapDemo.v
theories/AverageSpec.v
theories/Average.v
theories/AverageProps.v
theories/BreakMore.v
theories/BreakMoreSpec.v
theories/BreakMoreFacts.v
theories/BreakMoreProps.v
theories/Element.v
theories/ElementSpec.v
theories/ElementProps.v
theories/Bare.v
theories/BareSpec.v
theories/BareProps.v
theories/Raw.v
theories/RawSpec.v
theories/RawProps.v
theories/CanonSpec.v
theories/Canon.v
theories/Thin.v
theories/MeanSpec.v
theories/Mean.v
theories/CritSpec.v
theories/Crit.v
theories/Savetxt.v
theories/SavetxtSpec.v
theories/SavetxtProps.v
theories/SavetxtCrit.v
theories/SavetxtWitness.v
theories/FloatMeanSpec.v
theories/FloatMean.v
theories/SavetxtMean.v
theories/SampleSpec.v
theories/Sample.v
theories/Expected.v
theories/Props_Geometry.v
theories/Props_State.v
theories/Props_Wrap.v
theories/Props_Run.v
theories/Props_Cand.v
theories/Props_Normal.v
theories/Props_Entropy.v
theories/Props_Order.v
theories/Props_Shuffle.v
theories/Props_Ens.v
theories/Props_Util.v
theories/Props_Files.v
theories/Props_Label.v
theories/Props_View.v
theories/Props_Drive.v
theories/Props_Float.v
theories/Props_Curve.v
theories/Props_Suite.v
theories/Props_Program.v
theories/Props_Symmetry.v
theories/Props_Chance.v
theories/Props_Break.v
theories/Props_Pool.v
theories/Props_Later.v
theories/Props_World.v
theories/Props_Shared.v
theories/Props_Arrays.v
theories/Props_Iid.v
theories/Props_GeomMore.v
theories/Props_RulesLaw.v
theories/Props_RulesSym.v
theories/Props_Heap.v
theories/Props_Average.v
theories/Props_BreakMore.v
theories/Props_Element.v
theories/Props_Bare.v
theories/Props_Raw.v
theories/Props_Canon.v
theories/Props_Mean.v
theories/Props_Crit.v
theories/Props_Savetxt.v
theories/Props_SaveMean.v
theories/Props_Sample.v
theories/Props_Expected.v
