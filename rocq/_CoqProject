-Q theories Verif
theories/AmbModel.v
theories/AmbProofs.v
theories/AmbProps.v
theories/AmbSpec.v
theories/AnalysisModel.v
theories/AnalysisProofs.v
theories/AnalysisProofs2.v
theories/AnalysisProps.v
theories/AnalysisSpec.v
theories/AnalysisWitness.v
theories/AssemblyModel.v
theories/AssemblyProofs.v
theories/AssemblyProps.v
theories/AssemblySpec.v
theories/AssemblyWitness.v
theories/Base.v
theories/BranchModel.v
theories/BranchProofs.v
theories/BranchProps.v
theories/BranchSpec.v
theories/BusModel.v
theories/BusProofs.v
theories/BusProps.v
theories/BusSpec.v
theories/BusWitness.v
theories/CellModel.v
theories/CellProofs.v
theories/CellProps.v
theories/CellSpec.v
theories/CellWitness.v
theories/CharLoadModel.v
theories/CharLoadProofs.v
theories/CharLoadProps.v
theories/CharLoadSpec.v
theories/CharMapProofs.v
theories/CharModel.v
theories/CharProofs.v
theories/CharProps.v
theories/CharSpec.v
theories/CharWitness.v
theories/CheckedModel.v
theories/CheckedProofs.v
theories/CheckedProps.v
theories/CheckedSpec.v
theories/ChemExModel.v
theories/ChemExProofs.v
theories/ChemExProps.v
theories/ChemExSpec.v
theories/ChemExWitness.v
theories/ChemExWitness2.v
theories/CombModel.v
theories/CombProofs.v
theories/CombProofs2.v
theories/CombProofs3.v
theories/CombProps.v
theories/CombProps2.v
theories/CombSpec.v
theories/CombWitness.v
theories/CompSpecModel.v
theories/CompSpecProofs.v
theories/CompSpecProps.v
theories/CompSpecSpec.v
theories/CompSpecWitness.v
theories/ConeModel.v
theories/ConeProofs.v
theories/ConeProps.v
theories/ConeSpec.v
theories/ConnSpecModel.v
theories/ConnSpecProofs.v
theories/ConnSpecProofs2.v
theories/ConnSpecProps.v
theories/ConnSpecSpec.v
theories/ConnSpecWitness.v
theories/DictModel.v
theories/DictProofs.v
theories/DictProps.v
theories/DictSpec.v
theories/DictWitness.v
theories/DocEqModel.v
theories/DocEqProofs.v
theories/DocEqProofs2.v
theories/DocEqProofs3.v
theories/DocEqProps.v
theories/DocEqQProps.v
theories/DocModel.v
theories/DocProofs.v
theories/DocProps.v
theories/DocSpec.v
theories/DocWitness.v
theories/EngModel.v
theories/EngProofs.v
theories/EngProps.v
theories/EngSpec.v
theories/EngWitness.v
theories/EntropyModel.v
theories/EntropyProofs.v
theories/EntropyProps.v
theories/EntropySpec.v
theories/EntropyWitness.v
theories/EqnModel.v
theories/EqnProofs.v
theories/EqnProofs2.v
theories/EqnProofs3.v
theories/EqnProofs4.v
theories/EqnProofs5.v
theories/EqnProps.v
theories/EqnSolvedProps.v
theories/EqnSpec.v
theories/EqnWitness.v
theories/ExPrintModel.v
theories/ExPrintProofs.v
theories/ExPrintProps.v
theories/ExPrintSpec.v
theories/ExergyModel.v
theories/ExergyProofs.v
theories/ExergyProofs2.v
theories/ExergyProps.v
theories/ExergyProps2.v
theories/ExergySpec.v
theories/ExergyWitness.v
theories/FeasProofs.v
theories/FeasProps.v
theories/FeasSpec.v
theories/FlueProofs.v
theories/FlueProps.v
theories/FlueSpec.v
theories/FluidModel.v
theories/FluidProofs.v
theories/FluidProofs2.v
theories/FluidProps.v
theories/FluidSpec.v
theories/FluidWitness.v
theories/FluidWitness2.v
theories/FricProofs.v
theories/FricProps.v
theories/FricSpec.v
theories/InitModel.v
theories/InitProofs.v
theories/InitProps.v
theories/InitSpec.v
theories/IoModel.v
theories/IoProofs.v
theories/IoProofs2.v
theories/IoProofs3.v
theories/IoProofs4.v
theories/IoProofs5.v
theories/IoProofs6.v
theories/IoProofs7.v
theories/IoProps.v
theories/IoProps2.v
theories/IoSpec.v
theories/IoSpec2.v
theories/IoWitness.v
theories/JacBusModel.v
theories/JacBusProofs.v
theories/JacBusProps.v
theories/JacBusSpec.v
theories/JacBusWitness.v
theories/JacModel.v
theories/JacProofs.v
theories/JacProofs2.v
theories/JacProofs3.v
theories/JacProofs4.v
theories/JacProps.v
theories/JacProps2.v
theories/JacSolvedProofs.v
theories/JacSolvedProps.v
theories/JacSolvedSpec.v
theories/JacSpec.v
theories/JacWitness.v
theories/LinProofs.v
theories/LogModel.v
theories/LogProofs.v
theories/LogProps.v
theories/LogSpec.v
theories/MarkModel.v
theories/MarkProofs.v
theories/MarkProofs2.v
theories/MarkProps.v
theories/MarkSpec.v
theories/MarkWitness.v
theories/MassModel.v
theories/MassProofs.v
theories/MassProps.v
theories/MassSpec.v
theories/MassWitness.v
theories/MbModel.v
theories/MbProofs.v
theories/MbProofs2.v
theories/MbProps.v
theories/MbSpec.v
theories/MixModel.v
theories/MixProofs.v
theories/MixProofs2.v
theories/MixProofs3.v
theories/MixProofs4.v
theories/MixProps.v
theories/MixProps2.v
theories/MixSpec.v
theories/MixSpec2.v
theories/MixWitness.v
theories/ModeModel.v
theories/ModeProofs.v
theories/ModeProofs2.v
theories/ModeProofs3.v
theories/ModeProofs4.v
theories/ModeProofs5.v
theories/ModeProofs6.v
theories/ModeProofs7.v
theories/ModeProps.v
theories/ModeProps2.v
theories/ModeSpec.v
theories/ModeSpec2.v
theories/ModeWitness.v
theories/NetUnitsModel.v
theories/NewtonModel.v
theories/NewtonProofs.v
theories/NewtonProps.v
theories/NewtonSpec.v
theories/NumDerivModel.v
theories/NumDerivProofs.v
theories/NumDerivProps.v
theories/OffData.v
theories/OffEqProps.v
theories/OffModel.v
theories/OffProofs.v
theories/OffProofs2.v
theories/OffProofs3.v
theories/OffProps.v
theories/OffSpec.v
theories/OptModel.v
theories/OptProofs.v
theories/OptProofs2.v
theories/OptProps.v
theories/OptSpec.v
theories/OptWitness.v
theories/PhModel.v
theories/PhProofs.v
theories/PhProps.v
theories/PhSpec.v
theories/PlantModel.v
theories/PlantProofs.v
theories/PlantProofs2.v
theories/PlantProofs3.v
theories/PlantProps.v
theories/PlantSpec.v
theories/PlantWitness.v
theories/PlotModel.v
theories/PlotProofs.v
theories/PlotProps.v
theories/PlotSpec.v
theories/PrepModel.v
theories/PrepProofs.v
theories/PrepProps.v
theories/PrepSpec.v
theories/PrintModel.v
theories/PrintProofs.v
theories/PrintProofs2.v
theories/PrintProps.v
theories/PrintSpec.v
theories/PrintWitness.v
theories/ProgressModel.v
theories/ProgressProofs.v
theories/ProgressProps.v
theories/RegModel.v
theories/RegProofs.v
theories/RegProps.v
theories/RegSpec.v
theories/RepTexModel.v
theories/RepTexProofs.v
theories/RepTexProps.v
theories/RepTexSpec.v
theories/ReportModel.v
theories/ReportProofs.v
theories/ReportProofs2.v
theories/ReportProps.v
theories/ReportSpec.v
theories/SankeyModel.v
theories/SankeyProofs.v
theories/SankeyProofs2.v
theories/SankeyProofs3.v
theories/SankeyProofs4.v
theories/SankeyProofs5.v
theories/SankeyProofs6.v
theories/SankeyProps.v
theories/SankeyProps2.v
theories/SankeySpec.v
theories/SetAttrProofs.v
theories/SetAttrProps.v
theories/SetAttrSpec.v
theories/SetAttrWitness.v
theories/SolarModel.v
theories/SolarProofs.v
theories/SolarProps.v
theories/SolarSpec.v
theories/SolveModel.v
theories/SolveProofs.v
theories/SolveProps.v
theories/SolveSpec.v
theories/SpecTabModel.v
theories/SpecTabProofs.v
theories/SpecTabProofs2.v
theories/SpecTabProps.v
theories/SpecTabSpec.v
theories/SpecTabWitness.v
theories/StartProofs.v
theories/StartProofs2.v
theories/StartProps.v
theories/StartSpec.v
theories/StartWitness.v
theories/StateAgainProofs.v
theories/StateAgainProofs2.v
theories/StateAgainProps.v
theories/StateAgainSpec.v
theories/StateAgainWitness.v
theories/StateModel.v
theories/StateOrderProofs.v
theories/StateOrderProps.v
theories/StateOrderSpec.v
theories/StateOrderWitness.v
theories/StateProofs.v
theories/StateProofs2.v
theories/StateProofs3.v
theories/StateProofs4.v
theories/StateProofs5.v
theories/StateProofs6.v
theories/StateProps.v
theories/StateSpec.v
theories/StateUnitsProofs.v
theories/StateUnitsProofs2.v
theories/StateUnitsProps.v
theories/StateUnitsSpec.v
theories/StateUnitsWitness.v
theories/StateWitness.v
theories/StepModel.v
theories/StepProofs.v
theories/StepProps.v
theories/StepSpec.v
theories/SubsysModel.v
theories/SubsysProofs.v
theories/SubsysProps.v
theories/SubsysSpec.v
theories/TableModel.v
theories/TableProofs.v
theories/TableProps.v
theories/TableSpec.v
theories/TopoModel.v
theories/TopoProofs.v
theories/TopoProps.v
theories/TopoSpec.v
theories/UdeModel.v
theories/UdeProofs.v
theories/UdeProps.v
theories/UdeSpec.v
theories/UnitsModel.v
theories/UnitsProofs.v
theories/UnitsProps.v
theories/UnitsSpec.v
theories/UpdateModel.v
theories/UpdateProofs.v
theories/UpdateProofs2.v
theories/UpdateProps.v
theories/UpdateSpec.v
theories/UpdateWitness.v
theories/VarSpaceModel.v
theories/VarSpaceProofs.v
theories/VarSpaceProps.v
theories/VarSpaceSpec.v
theories/VarSpaceWitness.v
theories/WrapDfs.v
theories/WrapModel.v
theories/WrapProofs.v
theories/WrapProps.v
theories/WrapSpec.v
theories/WrapWitness.v
theories/XrefModel.v
theories/XrefProofs.v
theories/XrefProofs2.v
theories/XrefProofs3.v
theories/XrefProofs4.v
theories/XrefProps.v
theories/XrefSpec.v
theories/XrefWitness.v
