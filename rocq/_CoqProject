-Q theories Verif
theories/Base.v
theories/BaseFacts.v
theories/Num.v
theories/NumFacts.v
theories/ToolboxModel.v
theories/ToolboxSpec.v
theories/ToolboxProofs.v
theories/ToolboxProps.v
theories/ParallelModel.v
theories/ParallelSpec.v
theories/ParallelProofs.v
theories/ParallelProps.v
theories/SortLib.v
theories/IOModel.v
theories/IOSpec.v
theories/IOProofs.v
theories/IOProofs2.v
theories/IOProps.v
theories/CombiningModel.v
theories/CombiningProofs.v
theories/CombiningProps.v
theories/EosToolboxModel.v
theories/EosToolboxSpec.v
theories/EosToolboxProofs.v
theories/EosToolboxProps.v
theories/PartialDensityModel.v
theories/PartialDensityProps.v
theories/LoggerModel.v
theories/LoggerProps.v
theories/RSum.v
theories/PRModel.v
theories/PRSpec.v
theories/PRProofs.v
theories/PRProps.v
theories/PRThermo.v
theories/SaftToolboxModel.v
theories/SaftToolboxProps.v
theories/SwModel.v
theories/SwProofs.v
theories/SwProofs2.v
theories/SwAbsent.v
theories/SwProps.v
theories/MieExtModel.v
theories/MieExtProps.v
theories/MieModel.v
theories/MieProofs.v
theories/MieProps.v
theories/XikaModel.v
theories/XikaProps.v
theories/AssocModel.v
theories/AssocProofs.v
theories/AssocProofs2.v
theories/BondingModel.v
theories/BondingProps.v
theories/BondingVolProps.v
theories/AssocProps.v
theories/PhaseEqModel.v
theories/PhaseEqProps.v
theories/IsothermModel.v
theories/IsothermProps.v
theories/DensityModel.v
theories/DensityProps.v
theories/FlashModel.v
theories/FlashProps.v
theories/FlashLimitsProps.v
theories/PrangeModel.v
theories/PrangeProps.v
theories/BubbleDewModel.v
theories/BubbleDewProps.v
theories/CalcTypesModel.v
theories/CalcTypesSpec.v
theories/CalcTypesProofs.v
theories/CalcTypesProps.v
theories/FitObjModel.v
theories/FitObjProps.v
theories/FitSetupModel.v
theories/FitSetupProps.v
theories/FitRunModel.v
theories/FitRunProps.v
theories/FitMoreProps.v
theories/GlobalModel.v
theories/GlobalProps.v
theories/HildebrandModel.v
theories/HildebrandProps.v
theories/SaftEosModel.v
theories/SaftEosProps.v
theories/SaftQuadProps.v
theories/SaftLimitsProps.v
theories/SaftVirialProps.v
theories/SaftScaleProps.v
theories/InnerModel.v
theories/InnerProps.v
theories/SatModel.v
theories/SatProps.v
theories/DataSetModel.v
theories/DataSetProps.v
theories/ConsistModel.v
theories/GibbsDuhemProps.v
theories/ConsistProps.v
theories/MainModel.v
theories/MainProps.v
theories/GlobalOptsModel.v
theories/GlobalOptsProps.v
theories/AssocIntModel.v
theories/AssocIntProps.v
theories/XikaSolProps.v
theories/OrderSpec.v
theories/CrossTotal.v
theories/SwPerm.v
theories/MiePerm.v
theories/PermProps.v
theories/BondVolProps.v
theories/PrangeFinds.v
theories/PrangeDew.v
theories/PrangeBubble.v
theories/PrangeFindProps.v
theories/AssocCross.v
theories/AssocCrossProps.v
theories/DataAcceptProps.v
theories/InnerGuessProps.v
theories/PRCriticalProps.v
theories/AssocOrderProps.v
theories/HelpersModel.v
theories/HelpersProps.v
theories/Maxwell.v
theories/PRSaturationProps.v
theories/PRUniqueProps.v
