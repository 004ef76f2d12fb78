-Q theories Verif
theories/BoltM.v
theories/BoltP.v
theories/BoltSpec.v
theories/BumpGas.v
theories/Csv.v
theories/CsvData.v
theories/DataP.v
theories/DataSpec.v
theories/DdtM.v
theories/DdtP.v
theories/DesignP.v
theories/DimTextM.v
theories/DimTextP.v
theories/DimTextSpec.v
theories/DoubleQ.v
theories/ExampleGas.v
theories/FitM.v
theories/FitP.v
theories/FitRoundP.v
theories/FitSpec.v
theories/FixInterval.v
theories/FlangeCellP.v
theories/FlangeFoundP.v
theories/FlangeGapP.v
theories/FlangeM.v
theories/FlangeP.v
theories/FlangeRoundP.v
theories/FlangeT.v
theories/FrameM.v
theories/FrameP.v
theories/FrameSpec.v
theories/Gas.v
theories/GasP.v
theories/HeapM.v
theories/HeapP.v
theories/IdealGas.v
theories/IeeeBlockP.v
theories/IeeeBoltP.v
theories/IeeeBoltSpec.v
theories/IeeeFlangeP.v
theories/IeeeInterpP.v
theories/IeeeM.v
theories/IeeeOrderP.v
theories/IeeeP.v
theories/IeeePiP.v
theories/IeeePipeP.v
theories/IeeeSignP.v
theories/IeeeSpec.v
theories/IeeeWindowP.v
theories/ImportM.v
theories/ImportP.v
theories/ImportSpec.v
theories/InitPressureM.v
theories/InitPressureP.v
theories/InitPressureSpec.v
theories/Interp.v
theories/InterpP.v
theories/NanAccept.v
theories/NanBlank.v
theories/NanGas.v
theories/NanLift.v
theories/NanM.v
theories/NanP.v
theories/NanSdP.v
theories/NanSdSpec.v
theories/NanSearchP.v
theories/NanSpec.v
theories/NumQ.v
theories/ObjectSpec.v
theories/PathM.v
theories/PathP.v
theories/PathSpec.v
theories/PerfectP.v
theories/PerfectSpec.v
theories/Pint.v
theories/PipeFlangeP.v
theories/PipeOrderP.v
theories/PipeP.v
theories/PoolP.v
theories/PoolSpec.v
theories/Properties_Bolt.v
theories/Properties_Data.v
theories/Properties_Ddt.v
theories/Properties_Design.v
theories/Properties_DimText.v
theories/Properties_Fit.v
theories/Properties_FitRound.v
theories/Properties_Flange.v
theories/Properties_FlangeClassDouble.v
theories/Properties_FlangeOrder.v
theories/Properties_Frame.v
theories/Properties_Ieee.v
theories/Properties_IeeeBolt.v
theories/Properties_IeeeFlange.v
theories/Properties_IeeeOrder.v
theories/Properties_Import.v
theories/Properties_InitPressure.v
theories/Properties_Limit.v
theories/Properties_Nan.v
theories/Properties_NanSd.v
theories/Properties_Objects.v
theories/Properties_Path.v
theories/Properties_Perfect.v
theories/Properties_PipeDouble.v
theories/Properties_PipeFlange.v
theories/Properties_PipeOrder.v
theories/Properties_Pool.v
theories/Properties_Reflect.v
theories/Properties_Robust.v
theories/Properties_Round.v
theories/Properties_RoundBolt.v
theories/Properties_RoundFlange.v
theories/Properties_RoundFlangeT.v
theories/Properties_RoundRunUp.v
theories/Properties_RoundSearch.v
theories/Properties_RoundStress.v
theories/Properties_RunUp.v
theories/Properties_Sd.v
theories/Properties_Search.v
theories/Properties_SearchMono.v
theories/Properties_Speed.v
theories/Properties_Stress.v
theories/Properties_StressOrder.v
theories/Properties_Text.v
theories/Properties_Thermo.v
theories/Properties_Tube.v
theories/Properties_UnitIndep.v
theories/Properties_UnitMeaning.v
theories/Properties_UnitRest.v
theories/Properties_Units.v
theories/Properties_Vector.v
theories/Properties_VectorRunUp.v
theories/Properties_VectorTube.v
theories/Properties_Warnings.v
theories/Properties_Window.v
theories/PyBase.v
theories/QLemmas.v
theories/ReflectP.v
theories/ReflectSpec.v
theories/RobustP.v
theories/RoundAreaP.v
theories/RoundBoltP.v
theories/RoundDdtP.v
theories/RoundFlangeP.v
theories/RoundFlangeTP.v
theories/RoundM.v
theories/RoundMonoP.v
theories/RoundP.v
theories/RoundPipeP.v
theories/RoundPipeSpec.v
theories/RoundRunUpP.v
theories/RoundRunUpSpec.v
theories/RoundSearchP.v
theories/RoundSearchSpec.v
theories/RoundSpec.v
theories/RoundStressP.v
theories/RoundTempSpec.v
theories/RoundTubeP.v
theories/RoundWindowP.v
theories/RunUpAnalysis.v
theories/RunUpM.v
theories/RunUpP.v
theories/RunUpSpec.v
theories/SdM.v
theories/SdP.v
theories/SdSpec.v
theories/SearchP.v
theories/SearchSpec.v
theories/Show.v
theories/Spec.v
theories/SpeedP.v
theories/SpeedSpec.v
theories/StrLemmas.v
theories/StressP.v
theories/TableSpec.v
theories/Tables.v
theories/Tests.v
theories/TextOrderSpec.v
theories/TextP.v
theories/TextSpec.v
theories/ThermoM.v
theories/ThermoP.v
theories/ThermoSpec.v
theories/TubeM.v
theories/TubeP.v
theories/UnitIndep.v
theories/UnitRest.v
theories/UnitRestSpec.v
theories/UnitSpec.v
theories/UnitsM.v
theories/UnitsP.v
theories/VariableGas.v
theories/VectorM.v
theories/VectorP.v
theories/VectorRunUpM.v
theories/VectorRunUpP.v
theories/VectorSpec.v
theories/VectorTubeM.v
theories/VectorTubeP.v
theories/VectorTubeSpec.v
theories/WeakP.v
theories/WindowM.v
theories/WindowP.v
