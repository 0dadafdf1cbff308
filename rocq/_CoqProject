-Q theories Verif
theories/Py.v
theories/StrTools.v
theories/StrSpec.v
theories/StrFacts.v
theories/StrFacts2.v
theories/StrFacts3.v
theories/PropsStr.v
theories/Network.v
theories/SearchSpec.v
theories/Search.v
theories/NetworkFacts.v
theories/SearchFacts.v
theories/SearchFacts2.v
theories/DescFacts.v
theories/Hybrid.v
theories/HybridFacts.v
theories/Conv.v
theories/ConvFacts.v
theories/NetFacts2.v
theories/PropsNet.v
theories/Converter.v
theories/EngineSpec.v
theories/EngineFacts.v
theories/EngineFacts2.v
theories/EngineFacts3.v
theories/EngineFacts4.v
theories/EngineFacts5.v
theories/EngineFacts6.v
theories/ConsistSpec.v
theories/ConsistFacts.v
theories/CleanFacts.v
theories/Affine.v
theories/Demo.v
theories/EngineFacts7.v
theories/PropsEngine.v
theories/PropsEngine2.v
theories/EngineFacts8.v
theories/CompositeSpec.v
theories/EngineFacts9.v
theories/EngineFacts10.v
theories/PropsEngine3.v
theories/OpsSpec.v
theories/Operations.v
theories/OpsFacts.v
theories/OpsFacts2.v
theories/OpsFacts3.v
theories/OpsFacts4.v
theories/PropsOps.v
theories/Dict.v
theories/Database.v
theories/FastDb.v
theories/RegionSpec.v
theories/RegionFacts.v
theories/SymAffine.v
theories/Shipped.v
theories/Units.v
theories/ShippedCert.v
theories/ShippedSpec.v
theories/ShippedCheck.v
theories/RoundSpec.v
theories/RoundCheck.v
theories/ShippedFacts.v
theories/ShippedFacts2.v
theories/ShippedFacts3.v
theories/ShippedFacts4.v
theories/KindFacts.v
theories/UnitsSpec.v
theories/UnitsFacts.v
theories/ShippedFacts5.v
theories/UnitsFacts2.v
theories/UnitsFacts3.v
theories/UnitsFacts4.v
theories/UnitsFacts5.v
theories/UnitsFacts6.v
theories/UnitsSpec2.v
theories/NumFacts.v
theories/UnitsFacts7.v
theories/PropsShipped.v
theories/PropsUnits.v
theories/PropsUnits2.v
theories/IsUnitSpec.v
theories/IsUnitFacts.v
theories/IsUnitFacts2.v
theories/PropsUnits3.v
theories/UnitsFacts8.v
theories/PropsUnits4.v
theories/Json.v
theories/JsonFacts.v
theories/JsonFacts2.v
theories/Params.v
theories/ParamsSpec.v
theories/ParamsFacts.v
theories/SwitchFacts.v
theories/ParamsFacts2.v
theories/PropsParams.v
theories/Dialogs.v
theories/DialogSpec.v
theories/DialogFacts.v
theories/PropsDialogs.v
theories/PropsPrompts.v
theories/Startup.v
theories/StartSpec.v
theories/StartFacts.v
theories/StartFacts2.v
theories/StartFacts3.v
theories/StartFacts4.v
theories/PropsStart.v
theories/Caster.v
theories/CasterSpec.v
theories/CasterFacts.v
theories/CasterFacts2.v
theories/CasterFacts3.v
theories/PropsCaster.v
theories/PathText.v
theories/Gui.v
theories/GuiSpec.v
theories/GuiFacts.v
theories/GuiFacts2.v
theories/GuiFacts3.v
theories/GuiFacts4.v
theories/GuiEngine.v
theories/GuiDemo.v
theories/PropsGui.v
theories/PropsGui2.v
theories/PathFacts.v
theories/PropsPath.v
theories/EngineInv.v
theories/NumPy.v
theories/NumPySpec.v
theories/NumPyFacts.v
theories/PropsNumPy.v
theories/Unitary.v
theories/PropsUnitary.v
theories/UnitsFacts9.v
theories/UnitsSpec3.v
theories/PropsUnits5.v
theories/Window.v
theories/PropsWindow.v
theories/Elapsed.v
theories/PropsElapsed.v
theories/DatesSpec.v
theories/Dates.v
theories/DateFacts.v
theories/PropsDates.v
theories/PropsPath2.v
theories/UnitsFacts10.v
theories/PropsUnits6.v
theories/UnitsFacts11.v
theories/PropsUnits7.v
theories/PropsUser.v
theories/ArrQty.v
theories/ArrQtyFacts.v
theories/ArrMul.v
theories/ArrMulFacts.v
theories/ArrNum.v
theories/ArrLaw.v
theories/ArrLawFacts.v
theories/Objects.v
theories/ObjectsFacts.v
theories/PropsArr.v
theories/PropsArr2.v
theories/PropsArr3.v
theories/PropsArr4.v
theories/PropsArr5.v
theories/ListVals.v
theories/PropsLists.v
theories/PropsObjects.v
theories/EngineExc.v
theories/PropsErrors.v
theories/RoundFacts.v
theories/RoundFacts2.v
theories/RoundFacts3.v
theories/PropsRound.v
theories/PropsRound2.v
theories/RoundSpec2.v
theories/RoundFacts4.v
theories/PropsRound3.v
theories/PropsRound4.v
theories/Direct.v
theories/PropsDirect.v
