-Q theories Verif
theories/Py.v
theories/Num.v
theories/Diagram.v
theories/Topology.v
theories/Equilibrium.v
theories/History.v
theories/Fixtures.v
theories/PyFacts.v
theories/DiagramFacts.v
theories/TopologyFacts.v
theories/SpecTopology.v
theories/BuildFacts.v
theories/ChainFacts.v
theories/ChainFacts2.v
theories/SpecDiagram.v
theories/HistoryFacts.v
theories/DiagramThms.v
theories/WeldFacts.v
theories/TopologyThms.v
theories/SequenceThms.v
theories/SpecEquilibrium.v
theories/EqFacts.v
theories/FormFacts.v
theories/ReadyThms.v
theories/RVec.v
theories/EqThms.v
theories/CoordsThms.v
theories/EquilibriumNp.v
theories/SpecNumpy.v
theories/NpFacts.v
theories/NpThms.v
theories/SpecStatics.v
theories/TypedFacts.v
theories/QueryThms.v
theories/StaticsFacts.v
theories/StaticsThms.v
theories/SpecUnique.v
theories/UniqueThms.v
theories/RestThms.v
theories/SpecTransform.v
theories/TransformThms.v
theories/FloatThms.v
theories/SpecInfluence.v
theories/InfluenceThms.v
theories/SpecSymmetry.v
theories/SymmetryThms.v
theories/Messages.v
theories/SpecMessages.v
theories/SpecMet.v
theories/SpecFloats.v
theories/Remote.v
theories/SpecRemote.v
theories/SpecHand.v
theories/IterThms.v
theories/Constraints.v
theories/SpecConstraints.v
theories/ConFacts.v
theories/ConThms.v
theories/Optimizer.v
theories/SpecOptimizer.v
theories/SpecBounds.v
theories/OptFacts.v
theories/OptThms.v
theories/SolveThms.v
theories/ReportThms.v
theories/BoundThms.v
theories/Serialize.v
theories/SpecSerialize.v
theories/SerializeThms.v
theories/Mesh.v
theories/SpecMesh.v
theories/MeshThms.v
theories/Prop_Data.v
theories/Artists.v
theories/SpecArtists.v
theories/ArtistThms.v
theories/Labels.v
theories/SpecLabels.v
theories/LabelThms.v
theories/Components.v
theories/SpecComponents.v
theories/ComponentThms.v
theories/SettingThms.v
theories/CountThms.v
theories/MessageThms.v
theories/PartThms.v
theories/SketchThms.v
theories/SpecGoals.v
theories/GoalThms.v
theories/WitnessCon.v
theories/Prop_Constraints.v
theories/Witness.v
theories/WitnessEq.v
theories/WitnessNp.v
theories/WitnessDraw.v
theories/Prop_Drawing.v
theories/WitnessOpt.v
theories/WitnessBounds.v
theories/Prop_Optimization.v
theories/Prop_Bounds.v
theories/Prop_Equilibrium.v
theories/WitnessInfluence.v
theories/WitnessSymmetry.v
theories/Prop_Influence.v
theories/WitnessMessages.v
theories/Prop_Messages.v
theories/HandThms.v
theories/MetThms.v
theories/WitnessMet.v
theories/Prop_Met.v
theories/RemoteThms.v
theories/WitnessRemote.v
theories/Prop_Remote.v
theories/WitnessUnique.v
theories/Prop_Unique.v
theories/Prop_Labels.v
theories/ViewerObject.v
theories/SpecViewer.v
theories/ViewerThms.v
theories/WitnessViewer.v
theories/Prop_Viewer.v
theories/SpecSections.v
theories/SectionThms.v
theories/WitnessSections.v
theories/Prop_Sections.v
theories/FloatFacts.v
theories/Prop_Floats.v
theories/Prop_Numpy.v
theories/Prop_Diagram.v
theories/Prop_Topology.v
theories/WitnessComponents.v
theories/Prop_Components.v
theories/RunTests.v
theories/Files.v
theories/SpecFiles.v
theories/FilesThms.v
theories/WitnessFiles.v
theories/Prop_Files.v
theories/SpecSmooth.v
theories/SmoothThms.v
theories/SpecGradient.v
theories/PolyThms.v
theories/GradientThms.v
theories/SmoothNpThms.v
theories/WitnessSmooth.v
theories/WitnessGradient.v
theories/Prop_Smooth.v
theories/Prop_Gradient.v
theories/SpecReport.v
theories/SolveOut.v
theories/PrintThms.v
theories/WitnessPrint.v
theories/Prop_Report.v
