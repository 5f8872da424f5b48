-Q theories Verif
theories/Res.v
theories/Fld.v
theories/Groups.v
theories/CS.v
theories/CSFacts.v
theories/Poly.v
theories/Qap.v
theories/SpecQap.v
theories/QapFacts.v
theories/Zp.v
theories/Core.v
theories/CoreFacts.v
theories/Domain.v
theories/Fermat.v
theories/Pocklington.v
theories/Bn254.v
theories/SpecSecrets.v
theories/Secrets.v
theories/SpecCore.v
theories/CoreMore.v
theories/P_Core.v
theories/Bytes.v
theories/Reader.v
theories/R1cs.v
theories/SpecR1cs.v
theories/R1csFacts.v
theories/R1csMore.v
theories/R1csReserve.v
theories/R1csJs.v
theories/R1csJsFacts.v
theories/R1csJsPanic.v
theories/P_R1cs.v
theories/Wtns.v
theories/SpecWtns.v
theories/WtnsFacts.v
theories/WtnsJs.v
theories/WtnsJsExact.v
theories/P_Wtns.v
theories/Circuit.v
theories/SpecCircuit.v
theories/CircuitFacts.v
theories/P_Circuit.v
theories/ArkSer.v
theories/ArkSerFacts.v
theories/P_Ser.v
theories/Text.v
theories/Sym.v
theories/SpecSym.v
theories/SymFacts.v
theories/P_Sym.v
theories/Inputs.v
theories/SpecInputs.v
theories/InputsFacts.v
theories/P_Inputs.v
theories/Combined.v
theories/SpecCombined.v
theories/CombinedFacts.v
theories/P_Combined.v
theories/Gcm.v
theories/SpecGcm.v
theories/GcmFacts.v
theories/Aes.v
theories/Blake3.v
theories/SpecBlake3.v
theories/Blake3Facts.v
theories/P_Gcm.v
theories/Gf128.v
theories/SpecGhash.v
theories/GhashFacts.v
theories/P_Ghash.v
theories/Utf8.v
theories/FileSys.v
theories/Commands.v
theories/SpecCommands.v
theories/CommandsFacts.v
theories/PartialEncap.v
theories/P_Commands.v
theories/JsZkenc.v
theories/JsZkencFacts.v
theories/P_JsZkenc.v
theories/SpecJs.v
theories/C44Facts.v
theories/P_JsApi.v
theories/Serial.v
theories/SpecSerial.v
theories/SerialFacts.v
theories/P_Serial.v
theories/P_AllPublic.v
theories/SpecNumerals.v
theories/P_Numerals.v
theories/WitnessCalc.v
theories/SpecWitnessCalc.v
theories/WitnessCalcFacts.v
theories/P_WitnessCalc.v
theories/JsIff.v
theories/SpecBound.v
theories/P_Bound.v
theories/P_BoundCli.v
theories/JsFull.v
theories/SpecEndToEnd.v
theories/EndToEndFacts.v
theories/P_EndToEnd.v
theories/Circom.v
theories/SpecCircom.v
theories/P_Circom.v
theories/WasmInit.v
theories/P_WasmInit.v
theories/CliArgs.v
theories/SpecCliArgs.v
theories/P_CliArgs.v
theories/Main.v
theories/P_Main.v
theories/JsNumber.v
theories/SpecJsNumber.v
theories/JsNumberFacts.v
theories/JsNumberText.v
theories/JsonText.v
theories/SpecJson.v
theories/JsonFacts.v
theories/JsonMore.v
theories/JsonObj.v
theories/JsonWrite.v
theories/P_Json.v
theories/SerialJson.v
theories/SpecSerialJson.v
theories/SerialJsonIff.v
theories/P_SerialJson.v
theories/SpecBincode.v
theories/BincodeIff.v
theories/P_Bincode.v
theories/WitnessCalcJs.v
theories/WitnessReuse.v
theories/SpecWitnessReuse.v
theories/P_WitnessReuse.v
theories/Runtime.v
theories/SpecRuntime.v
theories/P_Runtime.v
theories/SpecInputList.v
theories/P_InputList.v
theories/SpecR1csExact.v
theories/R1csExact.v
theories/R1csJsExact.v
theories/R1csErrors.v
theories/P_R1csExact.v
theories/SpecWtnsExact.v
theories/WtnsExact.v
theories/P_WtnsExact.v
theories/SpecHelp.v
theories/P_Help.v
theories/SpecReports.v
theories/P_Reports.v
theories/P_Loads.v
theories/Interfere.v
theories/P_Interfere.v
theories/P_Race.v
theories/SpecJsReports.v
theories/P_JsReports.v
theories/P_EndToEndExact.v
theories/P_JsNumber.v
theories/P_Luck.v
theories/P_AllPublicMore.v
theories/P_Hash.v
theories/SpecSudoku.v
theories/Sudoku.v
theories/SudokuFile.v
theories/SudokuFacts.v
theories/P_Sudoku.v
theories/P_SudokuRun.v
theories/Playground.v
theories/SpecPlayground.v
theories/P_Playground.v
theories/SudokuWasm.v
theories/P_SudokuInputs.v
theories/P_PlaygroundMore.v
theories/SpecCrossTool.v
theories/P_CrossTool.v
theories/P_PlaygroundFields.v
theories/Fixtures.v
theories/SpecSignature.v
theories/Signature.v
theories/SignatureFile.v
theories/P_Signature.v
theories/Program.v
theories/P_Program.v
theories/SpecAes.v
theories/AesFacts.v
theories/AesFips.v
theories/AesPerm.v
theories/P_Aes.v
theories/TwoKeys.v
theories/SpecDishonest.v
theories/P_Dishonest.v
theories/JsValues.v
theories/SpecJsValues.v
theories/P_JsValues.v
theories/Pending.v
theories/SpecPending.v
theories/P_Pending.v
theories/P_InputsMore.v
theories/SpecSymJs.v
theories/P_SymJs.v
theories/SpecWitnessErrors.v
theories/P_WitnessErrors.v
theories/SpecWitnessErrorsJs.v
theories/P_WitnessErrorsJs.v
theories/P_NonceReuse.v
theories/Package.v
theories/P_Package.v
theories/Printing.v
theories/PrintingFacts.v
theories/SpecPrinting.v
theories/Listings.v
theories/P_Printing.v
theories/SpecProgress.v
theories/Progress.v
theories/P_Progress.v
theories/SpecLossy.v
theories/P_Lossy.v
theories/SpecFailing.v
theories/P_Failing.v
theories/P_Cut.v
theories/P_Tabs.v
