-Q theories Verif
theories/GoStr.v
theories/Ast.v
theories/Quote.v
theories/Format.v
theories/Ctx.v
theories/Write.v
theories/Api.v
theories/Lexer.v
theories/Parser.v
theories/Build.v
theories/Sort.v
theories/ExprInd.v
theories/Sql.v
theories/Template.v
theories/SubstP.v
theories/GoStrP.v
theories/RenderP.v
theories/EmbedP.v
theories/EraseP.v
theories/PropsRender.v
theories/PgLex.v
theories/QuoteP.v
theories/Numerals.v
theories/NumeralsP.v
theories/PropsText.v
theories/Cond.v
theories/CondApi.v
theories/CondP.v
theories/Where.v
theories/WhereP.v
theories/PropsCond.v
theories/Balance.v
theories/BalanceP.v
theories/PropsBalance.v
theories/Clauses.v
theories/ClausesP.v
theories/PropsClauses.v
theories/Calls.v
theories/CallsP.v
theories/PropsCalls.v
theories/Conv.v
theories/ConvP.v
theories/PropsConv.v
theories/Assign.v
theories/AssignP.v
theories/Rows.v
theories/RowsP.v
theories/PropsSet.v
theories/PropsRows.v
theories/Machine.v
theories/Scan.v
theories/LexerP.v
theories/PropsLex.v
theories/JoinSpec.v
theories/JoinP.v
theories/PropsJoin.v
theories/Mem.v
theories/Forks.v
theories/MemP.v
theories/ForksP.v
theories/UpdForksP.v
theories/PropsForks.v
theories/Race.v
theories/RaceP.v
theories/RaceRenderP.v
theories/PropsRace.v
theories/Calendar.v
theories/CalendarP.v
theories/StampP.v
theories/PropsTime.v
theories/Harness.v
theories/TestSelect.v
theories/TestInsert.v
theories/TestUpdate.v
theories/TestDelete.v
theories/TestOther.v
theories/Grammar.v
theories/GrammarApi.v
theories/GrammarLexP.v
theories/GrammarP.v
theories/GrammarBodyP.v
theories/PropsGrammar.v
theories/GrammarDml.v
theories/GrammarDmlP.v
theories/PropsGrammarDml.v
theories/GrammarReadP.v
theories/PropsGrammarText.v
theories/Programs.v
theories/PropsPrograms.v
theories/CallsDml.v
theories/CallsDmlP.v
theories/PropsCallsDml.v
theories/ExactP.v
theories/JoinScan.v
theories/JoinScanP.v
theories/ExactJoinP.v
theories/AliasP.v
theories/Gaps.v
theories/GapsP.v
theories/GapsStmtP.v
theories/GapsApi.v
theories/GapsApiP.v
theories/GapsChainP.v
theories/GapsDmlP.v
theories/GapsNilP.v
theories/PropsGaps.v
theories/Args.v
theories/ArgsP.v
theories/ArgsInstP.v
theories/ArgsHeldP.v
theories/PropsArgs.v
theories/InsForks.v
theories/InsForksP.v
theories/PropsInsForks.v
theories/UpdExactP.v
theories/PropsForksExact.v
theories/RaceBuild.v
theories/RaceBuildP.v
theories/PropsRaceBuild.v
theories/PropsCase.v
theories/PropsRaceDml.v
theories/Surface.v
theories/SurfaceTextP.v
theories/SurfaceApiP.v
theories/SurfaceInsideP.v
theories/PropsSurface.v
theories/Effect.v
theories/EffectApi.v
theories/EffectP.v
theories/PropsEffect.v
theories/Literal.v
theories/LiteralP.v
theories/PropsForms.v
theories/Tables.v
theories/TablesP.v
theories/PropsTables.v
theories/Meaning.v
theories/MeaningP.v
theories/PropsMeaning.v
theories/Closed.v
theories/ClosedP.v
theories/Changes.v
theories/ChangesP.v
theories/PropsChanges.v
theories/PropsCorrelated.v
theories/PropsUtf8.v
theories/Laws.v
theories/PropsLaws.v
theories/Kinds.v
theories/PropsKinds.v
theories/Alike.v
theories/AlikeP.v
theories/AlikeQ.v
theories/PropsAlike.v
theories/Reorder.v
theories/ReorderP.v
theories/PropsReorder.v
theories/AddRows.v
theories/AddRowsP.v
theories/PropsUpsert.v
theories/LiteralTables.v
theories/LiteralTablesP.v
theories/PropsFormsTables.v
theories/PropsOperands.v
theories/Exchange.v
theories/PropsExchange.v
theories/Session.v
theories/SessionP.v
theories/PropsSession.v
theories/JoinLaws.v
theories/PropsJoinLaws.v
theories/PropsRefusals.v
theories/PropsRefused.v
theories/Buffers.v
theories/BuffersP.v
theories/PropsBuffers.v
theories/Sprint.v
theories/PropsSprint.v
theories/PropsSyntax.v
