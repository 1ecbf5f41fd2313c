-Q theories Verif
theories/GoBase.v
theories/Strconv.v
theories/StrconvProofs.v
theories/ConvertUtil.v
theories/ConvertProofs.v
theories/Codecs.v
theories/IntCodecs.v
theories/Hstore.v
theories/PgSpec.v
theories/PgSpecProofs.v
theories/TextProofs.v
theories/SimpleProofs.v
theories/DecimalLink.v
theories/IntProofs.v
theories/HstoreProofs.v
theories/ArraysFinal.v
theories/PropsArrays.v
theories/Utf8.v
theories/CharCodecs.v
theories/CharProofs.v
theories/BitCodecs.v
theories/BitProofs.v
theories/GeoCodecs.v
theories/GeoProofs.v
theories/MoneyCodecs.v
theories/GeoFinal.v
theories/PropsGeo.v
theories/CharsFinal.v
theories/PropsChars.v
theories/MoneyProofs.v
theories/MoneyFinal.v
theories/PropsMoney.v
theories/Filter.v
theories/SqlSpec.v
theories/FilterProofs.v
theories/FilterRun.v
theories/FilterGram.v
theories/FiltersFinal.v
theories/PropsFilters.v
theories/Filters2Final.v
theories/PropsFilters2.v
theories/AParse.v
theories/TagSpec.v
theories/AParseProofs.v
theories/TagsFinal.v
theories/PropsTags.v
theories/Analysis.v
theories/AnalysisSpec.v
theories/AnalysisProofs.v
theories/AnalysisRoles.v
theories/QuerySpec.v
theories/QueryProofs.v
theories/QueryShape.v
theories/QuerySlots.v
theories/QueryFinal.v
theories/PropsQuery.v
theories/Oids.v
theories/Gen.v
theories/GenRun.v
theories/GenSpec.v
theories/GenProofs.v
theories/GenProofs2.v
theories/GenProofs3.v
theories/GenExec.v
theories/GenExec2.v
theories/GenRowsSpec.v
theories/GenRows.v
theories/GenRows2.v
theories/GenFilterSpec.v
theories/GenFilter.v
theories/GenQFinal.v
theories/PropsGenQ.v
theories/GenOut.v
theories/GenOutSpec.v
theories/GenOutTree.v
theories/GenOutRun.v
theories/GenRFinal.v
theories/PropsGenR.v
theories/Imports.v
theories/ImpFinal.v
theories/PropsImp.v
theories/Compat.v
theories/Check.v
theories/CheckSpec.v
theories/CheckProofs.v
theories/IxFinal.v
theories/PropsIx.v
theories/CheckEx.v
theories/ColsFinal.v
theories/PropsCols.v
theories/CondsFinal.v
theories/PropsConds.v
theories/ConflFinal.v
theories/PropsConfl.v
theories/Config.v
theories/ConfigSpec.v
theories/Command.v
theories/CommandSpec.v
theories/ConfFinal.v
theories/PropsConf.v
theories/CmdFinal.v
theories/PropsCmd.v
theories/Times.v
theories/TimeCodecs.v
theories/TimeSpec.v
theories/TimeProofs.v
theories/DatesFinal.v
theories/PropsDates.v
theories/StampsFinal.v
theories/PropsStamps.v
theories/Net.v
theories/NetSpec.v
theories/NetProofs.v
theories/NetsFinal.v
theories/PropsNets.v
theories/NullsFinal.v
theories/PropsNulls.v
theories/Floats.v
theories/FloatSpec.v
theories/FloatProofs.v
theories/IntFloats.v
theories/FloatArrsFinal.v
theories/PropsFloatArrs.v
theories/IntFloatArrsFinal.v
theories/PropsIntFloatArrs.v
theories/FieldSpec.v
theories/FieldFactsFinal.v
theories/PropsFieldFacts.v
theories/Accepted.v
theories/ScopeSpec.v
theories/GoNames.v
theories/ScopesFinal.v
theories/PropsScopes.v
theories/WholeFinal.v
theories/PropsWhole.v
theories/OutputsFinal.v
theories/PropsOutputs.v
theories/FaultSpec.v
theories/FaultsFinal.v
theories/PropsFaults.v
theories/HstDupFinal.v
theories/PropsHstDup.v
theories/FilterCode.v
theories/FilterCodeSpec.v
theories/FilCodeFinal.v
theories/PropsFilCode.v
theories/AFaultSpec.v
theories/AFaultsFinal.v
theories/PropsAFaults.v
theories/OidSpec.v
theories/TablesFinal.v
theories/PropsTables.v
theories/TypePreds.v
theories/GoTypeSpec.v
theories/PredsFinal.v
theories/PropsPreds.v
theories/Docs.v
theories/RestFinal.v
theories/PropsRest.v
theories/PanicsFinal.v
theories/PropsPanics.v
theories/GoldenPrint.v
theories/Golden.v
theories/GoldenErr.v
theories/GoldenFilter.v
theories/GoldenPreds.v
theories/GoldenOk.v
theories/RelCache.v
theories/RelCacheSpec.v
theories/RelCacheFinal.v
theories/PropsRelCache.v
theories/RelLoad.v
theories/RelLoadSpec.v
theories/RelLoadFinal.v
theories/PropsRelLoad.v
theories/RecTypes.v
theories/RecTypesSpec.v
theories/RecTypesFinal.v
theories/PropsRecTypes.v
theories/VecFloats.v
theories/VecFloatsFinal.v
theories/PropsVecFloats.v
theories/Converters.v
theories/ConvertersSpec.v
theories/ConvertersFinal.v
theories/PropsConverters.v
theories/ErrText.v
theories/ErrTextSpec.v
theories/ErrTextFinal.v
theories/PropsErrText.v
