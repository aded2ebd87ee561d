-Q theories Verif
theories/Model/PyFloat.v
theories/Model/Py.v
theories/Model/Re.v
theories/Model/Regexes.v
theories/Model/Common.v
theories/Model/Base.v
theories/Model/Sgtin.v
theories/Model/Lgtin.v
theories/Model/Sscc.v
theories/Model/Gsrn.v
theories/Model/Gsrnp.v
theories/Model/Sgln.v
theories/Model/Grai.v
theories/Model/Gdti.v
theories/Model/Giai.v
theories/Model/Cpi.v
theories/Model/Sgcn.v
theories/Model/Itip.v
theories/Model/Gid.v
theories/Model/Usdod.v
theories/Model/Adi.v
theories/Model/Others.v
theories/Model/Parsers.v
theories/Model/Calls.v
theories/Model/Registry.v
theories/Model/Objects.v
theories/Model/Sre.v
theories/Model/RegexText.v
theories/Model/Dynamic.v
theories/Model/Syntax.v
theories/Model/PyFormat.v
theories/Model/Machine.v
theories/Model/Loader.v
theories/Source/S_adi.v
theories/Source/S_base_scheme.v
theories/Source/S_bic.v
theories/Source/S_common.v
theories/Source/S_cpi.v
theories/Source/S_epc_schemes.v
theories/Source/S_gdti.v
theories/Source/S_giai.v
theories/Source/S_gid.v
theories/Source/S_ginc.v
theories/Source/S_grai.v
theories/Source/S_gsin.v
theories/Source/S_gsrn.v
theories/Source/S_gsrnp.v
theories/Source/S_imovn.v
theories/Source/S_itip.v
theories/Source/S_lgtin.v
theories/Source/S_parsers.v
theories/Source/S_pgln.v
theories/Source/S_regex.v
theories/Source/S_sgcn.v
theories/Source/S_sgln.v
theories/Source/S_sgtin.v
theories/Source/S_sscc.v
theories/Source/S_upui.v
theories/Source/S_usdod.v
theories/Model/Reader.v
theories/Source/T_regex.v
theories/Source/T_common.v
theories/Source/T_base_scheme.v
theories/Source/T_adi.v
theories/Source/T_bic.v
theories/Source/T_cpi.v
theories/Source/T_gdti.v
theories/Source/T_giai.v
theories/Source/T_gid.v
theories/Source/T_ginc.v
theories/Source/T_grai.v
theories/Source/T_gsin.v
theories/Source/T_gsrn.v
theories/Source/T_gsrnp.v
theories/Source/T_imovn.v
theories/Source/T_itip.v
theories/Source/T_lgtin.v
theories/Source/T_pgln.v
theories/Source/T_sgcn.v
theories/Source/T_sgln.v
theories/Source/T_sgtin.v
theories/Source/T_sscc.v
theories/Source/T_upui.v
theories/Source/T_usdod.v
theories/Source/T_epc_schemes.v
theories/Source/T_parsers.v
theories/Source/T_epcpy.v
theories/Source/Texts.v
theories/Source/Program.v
theories/Source/World.v
theories/Tests/Vectors.v
theories/Tests/Runtime.v
theories/Tests/Patterns.v
theories/Tests/Tables.v
theories/Spec/Spec.v
theories/Spec/SpecTables.v
theories/Spec/SpecEscapes.v
theories/Spec/SpecGrammar.v
theories/Spec/SpecSchemes.v
theories/Spec/SpecTags.v
theories/Spec/SpecRegistry.v
theories/Spec/SpecObjects.v
theories/Spec/SpecSource.v
theories/Spec/SpecSre.v
theories/Spec/SpecExact.v
theories/Spec/SpecRespell.v
theories/Spec/SpecCollide.v
theories/Spec/SpecTexts.v
theories/Spec/SpecChain.v
theories/Spec/SpecDynamic.v
theories/Spec/SpecLayout.v
theories/Spec/SpecCoding.v
theories/Spec/SpecHex.v
theories/Spec/SpecElements.v
theories/Spec/SpecGtin.v
theories/Spec/SpecNumeric.v
theories/Spec/SpecKeys.v
theories/Spec/SpecErrors.v
theories/Spec/SpecCalls.v
theories/Spec/SpecBinding.v
theories/Proofs/Basics.v
theories/Proofs/Floats.v
theories/Proofs/Num.v
theories/Proofs/ReLemmas.v
theories/Proofs/Uni.v
theories/Proofs/Escapes.v
theories/Proofs/Checksum.v
theories/Proofs/Partition.v
theories/Proofs/Tables.v
theories/Proofs/Codecs.v
theories/Proofs/Codecs2.v
theories/Proofs/CodecSpec.v
theories/Proofs/Verify.v
theories/Proofs/Verify2.v
theories/Proofs/VerifySpec.v
theories/Proofs/Grammar.v
theories/Proofs/Ctor.v
theories/Proofs/CtorA.v
theories/Proofs/CtorB.v
theories/Proofs/CtorC.v
theories/Proofs/CtorAll.v
theories/Proofs/Keys.v
theories/Proofs/TagUri.v
theories/Proofs/TagUri2.v
theories/Proofs/TagFits.v
theories/Proofs/Layout.v
theories/Proofs/BinA.v
theories/Proofs/BinB.v
theories/Proofs/BinC.v
theories/Proofs/BinD.v
theories/Proofs/BinAll.v
theories/Proofs/PureParsers.v
theories/Proofs/Decode.v
theories/Proofs/DecodeA.v
theories/Proofs/DecodeB.v
theories/Proofs/Reencode.v
theories/Proofs/DecodeC.v
theories/Proofs/Filter.v
theories/Proofs/Hex.v
theories/Proofs/HexTrip.v
theories/Proofs/Inject.v
theories/Proofs/ElementRe.v
theories/Proofs/Elements.v
theories/Proofs/ElementBack.v
theories/Proofs/ElementDispatch.v
theories/Proofs/ElementAccept.v
theories/Proofs/Gtin.v
theories/Proofs/GtinInt.v
theories/Proofs/NumSerial.v
theories/Proofs/GetKey.v
theories/Proofs/Idpat.v
theories/Proofs/ElementKey.v
theories/Proofs/GetKey2.v
theories/Proofs/Exceptions.v
theories/Proofs/Exceptions2.v
theories/Proofs/NonAscii.v
theories/Proofs/CallArgs.v
theories/Proofs/CallErrors.v
theories/Proofs/FilterFlag.v
theories/Proofs/Enums.v
theories/Proofs/Objects.v
theories/Proofs/SreSound.v
theories/Proofs/SreLang.v
theories/Proofs/SreTexts.v
theories/Proofs/SreCost.v
theories/Proofs/SreUse.v
theories/Proofs/Exact.v
theories/Proofs/Respell.v
theories/Proofs/Collide.v
theories/Proofs/Texts.v
theories/Proofs/Chain.v
theories/Proofs/Dynamic.v
theories/Properties/C01_C03_CheckDigits.v
theories/Properties/C05_Escapes.v
theories/Properties/C36_PartitionTables.v
theories/Properties/C37_Codecs.v
theories/Properties/C38_Verify.v
theories/Properties/C04_Keys.v
theories/Properties/C06_Grammar.v
theories/Properties/C07_Identity.v
theories/Properties/C08_TagUri.v
theories/Properties/C09_Binary.v
theories/Properties/C34_TagFits.v
theories/Properties/C42_OtherScheme.v
theories/Properties/C43_PureParsers.v
theories/Properties/C44_Layout.v
theories/Properties/C22_Injective.v
theories/Properties/C23_Decoding.v
theories/Properties/C24_Reencode.v
theories/Properties/C25_Filter.v
theories/Properties/C28_Hex.v
theories/Properties/C29_Elements.v
theories/Properties/C32_Gtin.v
theories/Properties/C35_NumericSerials.v
theories/Properties/C31_GetKey.v
theories/Properties/C41_IdPatterns.v
theories/Properties/C39_Exceptions.v
theories/Properties/C40_NonAscii.v
theories/Properties/C47_Arguments.v
theories/Properties/C48_Registry.v
theories/Properties/C49_Histories.v
theories/Properties/C50_Patterns.v
theories/Properties/C51_Steps.v
theories/Properties/C52_ReadBack.v
theories/Properties/C53_Respelled.v
theories/Properties/C54_Collide.v
theories/Properties/C55_Texts.v
theories/Properties/C56_Chain.v
theories/Properties/C57_OtherTypes.v
theories/Properties/C58_SourceCommon.v
theories/Proofs/Run.v
theories/Proofs/RunTac.v
theories/Proofs/Bridge.v
theories/Proofs/SrcCommon.v
theories/Proofs/SrcTac.v
theories/Proofs/SrcUse.v
theories/Proofs/SrcCommonAll.v
theories/Spec/SpecMethods.v
theories/Spec/SpecParsers.v
theories/Spec/SpecRuns.v
theories/Spec/SpecCallers.v
theories/Spec/SpecRunTypes.v
theories/Spec/SpecStands.v
theories/Proofs/SrcBase.v
theories/Proofs/SrcSgtin.v
theories/Proofs/SrcSscc.v
theories/Proofs/SrcSgln.v
theories/Proofs/SrcGrai.v
theories/Proofs/SrcGiai.v
theories/Proofs/SrcGsrn.v
theories/Proofs/SrcGsrnp.v
theories/Proofs/SrcGdti.v
theories/Proofs/SrcSgcn.v
theories/Proofs/SrcItip.v
theories/Proofs/SrcGid.v
theories/Proofs/SrcCpi.v
theories/Proofs/SrcUsdod.v
theories/Proofs/SrcAdi.v
theories/Proofs/SrcLgtin.v
theories/Proofs/SrcGsin.v
theories/Proofs/SrcGinc.v
theories/Proofs/SrcPgln.v
theories/Proofs/SrcUpui.v
theories/Proofs/SrcBic.v
theories/Proofs/SrcImovn.v
theories/Proofs/SrcMembers.v
theories/Proofs/SrcParsers.v
theories/Proofs/SrcElement.v
theories/Proofs/SrcKeys.v
theories/Proofs/Runs.v
theories/Proofs/RunsTag.v
theories/Proofs/RunsAll.v
theories/Proofs/RunsClasses.v
theories/Proofs/RunsTypes.v
theories/Proofs/RunsWriters.v
theories/Proofs/RunsLengths.v
theories/Proofs/RunsOther.v
theories/Proofs/RunsLengthUse.v
theories/Properties/C59_SourceConstruct.v
theories/Properties/C60_SourceEncode.v
theories/Properties/C61_SourceDecode.v
theories/Properties/C62_SourceParsers.v
theories/Properties/C63_Runs.v
theories/Properties/C64_Callers.v
theories/Tests/MachineCases.v
theories/Spec/SpecText.v
theories/Proofs/Reading.v
theories/Properties/C65_Text.v
theories/Properties/C66_RunTypes.v
theories/Properties/C66_ModelTypes.v
theories/Spec/SpecReading.v
theories/Spec/SpecVarReading.v
theories/Spec/SpecWriting.v
theories/Spec/SpecTagUri.v
theories/Proofs/TagReading.v
theories/Proofs/TagReading2.v
theories/Proofs/TagReadingRuns.v
theories/Proofs/VarReading.v
theories/Proofs/VarReadingRuns.v
theories/Proofs/TagWriting.v
theories/Proofs/TagUriRuns.v
theories/Properties/C67_Reading.v
theories/Properties/C68_VarReading.v
theories/Properties/C69_Writing.v
theories/Properties/C70_TagUri.v
theories/Spec/SpecBack.v
theories/Proofs/TagBack.v
theories/Properties/C71_TagBack.v
theories/Tests/ReaderCases.v
theories/Tests/MachineRandom.v
