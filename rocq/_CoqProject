-Q theories Verif
theories/Machine.v
theories/Config.v
theories/Tables.v
theories/FastTable.v
theories/Chars.v
theories/Format.v
theories/ParseNumber.v
theories/Bigint.v
theories/DecToBin.v
theories/DigitComp.v
theories/FromChars.v
theories/Ints.v
theories/WordLemmas.v
theories/Rounding.v
theories/TableCerts.v
theories/EiselTable.v
theories/EiselLemire.v
theories/ComputeFloat.v
theories/SpecFloat.v
theories/FloatBridge.v
theories/FpArith.v
theories/Clinger.v
theories/Pow10.v
theories/Props_Pow10.v
theories/SpecGrammar.v
theories/Swar.v
theories/Scan.v
theories/SpecApi.v
theories/SpecDiagnosis.v
theories/ParseSpec.v
theories/Diagnosis.v
theories/Special.v
theories/CaseCmp.v
theories/BigintSpec.v
theories/MantissaSpec.v
theories/RoundSpec.v
theories/ErrorSpec.v
theories/DigitCompSpec.v
theories/SlowPath.v
theories/ManyDigits.v
theories/Saturate.v
theories/FloatMaster.v
theories/FloatApi.v
theories/Defined.v
theories/Props_Float.v
theories/SpecRel.v
theories/FloatRel.v
theories/Props_Relations.v
theories/Props_Texts.v
theories/SpecText.v
theories/TextSpec.v
theories/Props_Grammar.v
theories/Props_Json.v
theories/Props_Flags.v
theories/Props_Separator.v
theories/Props_Spelling.v
theories/Props_Options.v
theories/Props_Custom.v
theories/Props_IntMore.v
theories/Props_Special.v
theories/Props_Parsed.v
theories/SpecInt.v
theories/SpecIntApi.v
theories/IntSpec.v
theories/IntFast.v
theories/IntApi.v
theories/Props_Ints.v
theories/Props_Int128.v
theories/Props_Ignored.v
theories/Props_Pow10Rel.v
theories/Props_Types.v
theories/Props_Narrow.v
theories/SpecInterval.v
theories/Props_Interval.v
theories/Ipv4.v
theories/SpecIpv4.v
theories/Props_Ipv4.v
theories/Bench.v
theories/RandomText.v
theories/Props_Bench.v
theories/Props_FindMax.v
theories/Props_RandomText.v
theories/Conformance.v
theories/Conformance_List.v
theories/Props_Accuracy.v
theories/SpecLists.v
theories/SpecPrint.v
theories/SpecPrintf.v
theories/Sweep.v
theories/SweepLemmas.v
theories/Props_Lists.v
theories/Props_Stream.v
theories/Props_Print.v
theories/Props_Sweep.v
theories/Props_Midpoint.v
theories/Clients.v
theories/Props_Clients.v
theories/Memory.v
theories/Props_Memory.v
theories/Props_Concurrent.v
theories/FormatOps.v
theories/Props_FormatOps.v
theories/Props_Machine.v
theories/Props_Exponent.v
theories/Props_Range.v
theories/FlocqBridge.v
theories/Props_Flocq.v
theories/Cost.v
theories/CostErase.v
theories/CostBound.v
theories/CostBound2.v
theories/Props_Cost.v
theories/TableScript.v
theories/TableProof.v
theories/TableProof2.v
theories/Legendre.v
theories/Props_Table.v
theories/Overloads.v
theories/Props_Overloads.v
theories/Amalgamate.v
theories/Props_Amalgamate.v
theories/Release.v
theories/Props_Release.v
theories/Examples.v
theories/Props_Examples.v
theories/Props_Primitives.v
theories/SpecCall.v
theories/SpecStd.v
theories/Props_Std.v
theories/Props_Exact.v
theories/Props_DigitPoint.v
theories/Props_Wchar.v
theories/Props_Call.v
theories/SpecIntCall.v
theories/Props_IntCall.v
theories/Props_Agree.v
theories/Props_Unread.v
theories/Props_Calls.v
