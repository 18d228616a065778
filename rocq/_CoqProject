-Q theories Verif

theories/Base.v
theories/M_Errors.v
theories/P_Errors.v
theories/T_Errors.v
theories/M_Naming.v
theories/P_Naming.v
theories/T_Naming.v
theories/M_Strftime.v
theories/S_Strftime.v
theories/P_Strftime.v
theories/P_GoTime.v
theories/T_Strftime.v
theories/M_TypeGraph.v
theories/S_TypeGraph.v
theories/P_TypeGraph.v
theories/T_TypeGraph.v
theories/M_Dec.v
theories/M_Schema.v
theories/M_PyGen.v
theories/S_Conform.v
theories/S_PyGen.v
theories/S_PySer.v
theories/P_PyBase.v
theories/P_PyCap.v
theories/P_PyUnknown.v
theories/P_PyClean.v
theories/P_PyGraph.v
theories/P_PySafe.v
theories/P_PySer.v
theories/P_PyRound.v
theories/P_Float.v
theories/T_PyGen.v
theories/T_PyDemo.v
theories/M_Duration.v
theories/S_Duration.v
theories/P_Duration.v
theories/P_DurFloat.v
theories/P_DurRound.v
theories/P_DurSum.v
theories/P_DurText.v
theories/P_DurPrint.v
theories/T_Duration.v
theories/P_FloatErr.v
theories/S_DurValue.v
theories/P_DurErr.v
theories/P_DurErrPy.v
theories/T_DurErr.v
theories/M_Num.v
theories/S_Common.v
theories/P_Common.v
theories/M_GoGen.v
theories/S_GoGen.v
theories/P_GoBase.v
theories/P_GoParse.v
theories/P_GoGraph.v
theories/P_GoSafe.v
theories/P_GoSer.v
theories/T_GoGen.v
theories/M_CppTime.v
theories/M_CppGen.v
theories/S_CppGen.v
theories/P_CppTime.v
theories/P_CppBase.v
theories/P_CppParse.v
theories/P_CppGraph.v
theories/P_CppSafe.v
theories/P_CppSer.v
theories/T_CppGen.v
theories/M_Text.v
theories/S_Text.v
theories/P_Text.v
theories/P_Indent.v
theories/T_Text.v
theories/M_AutoID.v
theories/P_AutoID.v
theories/T_AutoID.v
theories/M_Walk.v
theories/S_Walk.v
theories/P_Walk.v
theories/T_Walk.v
theories/M_Validate.v
theories/S_Validate.v
theories/P_Validate.v
theories/P_ValidateType.v
theories/P_ValidateDoc.v
theories/P_Parse.v
theories/P_NoRaise.v
theories/P_ParseInv.v
theories/P_Parsed.v
theories/T_Validate.v
theories/M_LangValid.v
theories/S_LangValid.v
theories/P_LangValid.v
theories/P_GoFormats.v
theories/T_LangValid.v
theories/T_EndToEnd.v
theories/M_Main.v
theories/S_Main.v
theories/P_Main.v
theories/T_Main.v
theories/M_GoImports.v
theories/S_GoImports.v
theories/P_GoImports.v
theories/T_GoImports.v
theories/M_TypeDefs.v
theories/S_TypeDefs.v
theories/P_TypeDefs.v
theories/T_TypeDefs.v
theories/M_PyTypes.v
theories/S_PyTypes.v
theories/P_PyTypes.v
theories/T_PyTypes.v
theories/S_Interop.v
theories/P_Interop.v
theories/P_InteropLang.v
theories/P_InteropCross.v
theories/P_InteropPairs.v
theories/P_DurCross.v
theories/T_Interop.v
theories/S_Blame.v
theories/P_Blame.v
theories/P_BlamePy.v
theories/P_BlameGo.v
theories/P_BlameCpp.v
theories/P_Refs.v
theories/T_Blame.v
theories/M_PyImports.v
theories/M_CppIncludes.v
theories/S_Imports.v
theories/P_PyImports.v
theories/P_CppIncludes.v
theories/T_Imports.v
theories/S_Scope.v
theories/M_Scope.v
theories/M_PyScope.v
theories/M_GoScope.v
theories/M_CppScope.v
theories/P_Scope.v
theories/P_References.v
theories/P_PyScope.v
theories/P_BlockScope.v
theories/P_GoScope.v
theories/P_GoFunctions.v
theories/T_PyScope.v
theories/P_GoUses.v
theories/T_GoScope.v
theories/P_CppScope.v
theories/P_CppSerialize.v
theories/P_CppFunctions.v
theories/P_CppSource.v
theories/T_CppScope.v
theories/S_Compare.v
theories/S_GoTyping.v
theories/M_GoTyping.v
theories/P_GoTyping.v
theories/P_GoPackage.v
theories/T_GoTyping.v
theories/S_GoRun.v
theories/S_GoMemory.v
theories/P_GoRun.v
theories/P_GoRunSer.v
theories/P_GoRunGraph.v
theories/T_GoRun.v
theories/P_GoRunParse.v
theories/P_GoRunValue.v
theories/P_GoRunSetup.v
theories/P_GoRunFinite.v
theories/P_GoRunRoot.v
theories/P_GoRunCalled.v
theories/T_GoParse.v
theories/S_CppTyping.v
theories/M_CppTyping.v
theories/P_CppTyping.v
theories/P_CppPackage.v
theories/T_CppTyping.v
theories/S_SchemaErrors.v
theories/P_SchemaErrors.v
theories/P_SchemaErrorsDoc.v
theories/P_SchemaShape.v
theories/T_SchemaErrors.v
theories/S_CppInit.v
theories/M_CppInit.v
theories/T_CppInit.v
theories/M_CppHeader.v
theories/T_CppHeader.v
theories/G_Runs.v
theories/G_Cases.v
theories/G_GoText.v
theories/G_GoSources.v
theories/G_CppText.v
theories/G_CppSources.v
theories/G_PyText.v
theories/G_PySources.v
theories/G_Golden.v
theories/G_UnitCases.v
theories/G_Units.v
