-Q theories Verif
theories/GoStr.v
theories/GoNum.v
theories/Ast.v
theories/Generator.v
theories/SchemaText.v
theories/Runner.v
theories/GoStrFacts.v
theories/SpecText.v
theories/SpecRunner.v
theories/ProofText.v
theories/ProofRunner.v
theories/DemoRunner.v
theories/PropsText.v
theories/PropsRunner.v
theories/SpecPlan.v
theories/ProofPlan.v
theories/ProofSteps.v
theories/ProofTables.v
theories/ProofCompare.v
theories/ProofExact.v
theories/ProofObjects.v
theories/ProofFrame.v
theories/ProofTotal.v
theories/ProofSelf.v
theories/SpecColumns.v
theories/ProofColumns.v
theories/ProofRules.v
theories/ProofGaps.v
theories/DemoPlan.v
theories/ProofDemo.v
theories/SpecSql.v
theories/ProofSql.v
theories/SpecDrop.v
theories/ProofDrop.v
theories/ProofTexts.v
theories/PropsPlan.v
theories/PropsGaps.v
theories/PropsSql.v
theories/SpecOrder.v
theories/ProofOrder.v
theories/DemoOrder.v
theories/PropsOrder.v
theories/SpecMysql.v
theories/ProofMysql.v
theories/SpecConverge.v
theories/ProofConverge.v
theories/ProofSettle.v
theories/ProofNoop.v
theories/DemoConverge.v
theories/PropsConverge.v
theories/Keywords.v
theories/Lexer.v
theories/SpecLexer.v
theories/SpecReadback.v
theories/ProofLexer.v
theories/ProofScan.v
theories/ProofTokens.v
theories/Formatter.v
theories/ProofReadback.v
theories/ProofCase.v
theories/Numerals.v
theories/SpecNumerals.v
theories/ProofNumerals.v
theories/PropsLexer.v
theories/SpecTypes.v
theories/ProofTypes.v
theories/DemoTypes.v
theories/PropsTypes.v
theories/SqlAst.v
theories/SchemaParse.v
theories/ParserTables.v
theories/ParserValues.v
theories/ParserActions.v
theories/Parser.v
theories/SpecGrammar.v
theories/ParserCert.v
theories/ProofGrammar.v
theories/ProofActions.v
theories/ProofParser.v
theories/ProofParse.v
theories/SpecLayout.v
theories/ProofRun.v
theories/ProofLead.v
theories/ProofReadEx.v
theories/ProofPieces.v
theories/ProofReadColumn.v
theories/ProofReadTable.v
theories/ProofReadRest.v
theories/ProofReadText.v
theories/ProofReadStatements.v
theories/ProofReadBack.v
theories/ProofReadDatabase.v
theories/ProofReadAll.v
theories/ProofReadExport.v
theories/ProofUntold.v
theories/ProofEndToEnd.v
theories/DemoReadBack.v
theories/PropsReadBack.v
theories/Planner.v
theories/PropsParser.v
theories/PropsSchema.v
theories/Catalog.v
theories/AdapterPostgres.v
theories/AdapterMssql.v
theories/AdapterSqlite.v
theories/SpecUrl.v
theories/SpecExport.v
theories/ProofUrl.v
theories/ProofExport.v
theories/ProofCatalog.v
theories/ProofExport2.v
theories/ProofExport3.v
theories/DemoExport.v
theories/PropsExport.v
theories/SpecDatabase.v
theories/ProofDatabase.v
theories/SpecPostgres.v
theories/SpecShown.v
theories/SpecConvergePg.v
theories/ProofPg.v
theories/ProofPgDump.v
theories/ProofPgColumn.v
theories/ProofPgKept.v
theories/ProofPgRest.v
theories/ProofPgTable.v
theories/ProofPgSettle.v
theories/ProofPgCheck.v
theories/DemoConvergePg.v
theories/PropsConvergePg.v
theories/CatalogMysql.v
theories/AdapterMysql.v
theories/SpecShownMysql.v
theories/ProofPiecesMysql.v
theories/ProofReadMyColumn.v
theories/ProofReadMyTable.v
theories/ProofReadMyRest.v
theories/ProofReadMyText.v
theories/ProofReadMyWords.v
theories/ProofReadMyDatabase.v
theories/ProofReadMyExport.v
theories/ProofMyEndToEnd.v
theories/DemoReadMysql.v
theories/PropsReadMysql.v
theories/SpecSqlite.v
theories/ProofSqlite.v
theories/ProofSqliteRun.v
theories/DemoSqlite.v
theories/PropsSqlite.v
theories/ExportMssql.v
theories/SpecShownMssql.v
theories/ProofPiecesMssql.v
theories/ProofReadMsColumn.v
theories/ProofReadMsTable.v
theories/ProofReadMsRest.v
theories/ProofReadMsText.v
theories/ProofReadMsDatabase.v
theories/ProofReadMsExport.v
theories/ProofMsEndToEnd.v
theories/DemoReadMssql.v
theories/SpecMssql.v
theories/SpecConvergeMs.v
theories/ProofMs.v
theories/ProofMsShown.v
theories/ProofMsKept.v
theories/ProofMsTable.v
theories/ProofMsSettle.v
theories/ProofMsCheck.v
theories/ProofMsTexts.v
theories/DemoConvergeMs.v
theories/PropsConvergeMs.v
theories/PropsReadMssql.v
theories/SpecWordsMysql.v
theories/ProofWordsMysql.v
theories/ProofWordsMysqlPlan.v
theories/DemoWordsMysql.v
theories/PropsWordsMysql.v
theories/CommandLine.v
theories/SpecCommand.v
theories/ProofCommand.v
theories/ProofCommandRun.v
theories/DemoCommand.v
theories/PropsCommand.v
theories/SpecSource.v
theories/ProofSource.v
theories/ProofSaid.v
theories/SpecNoticed.v
theories/ProofNoticed.v
theories/DemoSource.v
theories/PropsSource.v
theories/SpecKeep.v
theories/ProofKeep.v
theories/SpecAccepted.v
theories/ProofAccepted.v
theories/ProofRunnable.v
theories/DemoKeep.v
theories/PropsKeep.v
theories/QueryMssql.v
theories/SpecSysMssql.v
theories/ProofSysMssql.v
theories/ProofSysDump.v
theories/ProofSysRun.v
theories/DemoSysMssql.v
theories/PropsSysMssql.v
theories/SpecTwoRuns.v
theories/ProofTwoRuns.v
theories/ProofAlike.v
theories/ProofTwoRunsAll.v
theories/DemoTwoRuns.v
theories/PropsTwoRuns.v
theories/SpecClustered.v
theories/ProofClustered.v
theories/PropsClustered.v
theories/SpecPlannable.v
theories/ProofPlannable.v
theories/ProofPlannableRun.v
theories/PropsPlannable.v
theories/SpecFault.v
theories/ProofFault.v
theories/PropsFault.v
theories/SpecLine.v
theories/ProofLine.v
theories/DemoLine.v
theories/PropsLine.v
theories/SpecCopy.v
theories/SpecCopyPg.v
theories/ProofCopy.v
theories/ProofCopyPg.v
theories/ProofCopyLite.v
theories/SpecCopyMs.v
theories/ProofCopyMs.v
theories/DemoCopy.v
theories/PropsCopy.v
theories/DemoCopyMs.v
theories/PropsCopyMs.v
theories/SpecAgree.v
theories/ProofAgree.v
theories/DemoAgree.v
theories/PropsAgree.v
theories/ProofRearrange.v
theories/DemoRearrange.v
theories/PropsRearrange.v
theories/SpecHistory.v
theories/ProofHistory.v
theories/DemoHistory.v
theories/PropsHistory.v
theories/SpecEdit.v
theories/ProofEdit.v
theories/DemoEdit.v
theories/PropsEdit.v
theories/SpecResume.v
theories/ProofResume.v
theories/DemoResume.v
theories/PropsResume.v
theories/SpecEditLite.v
theories/ProofEditLite.v
theories/DemoEditLite.v
theories/PropsEditLite.v
theories/SpecResumeMy.v
theories/ProofResumeMy.v
theories/DemoResumeMy.v
theories/PropsResumeMy.v
