-Q theories Verif
theories/Base.v
theories/VectorModel.v
theories/MapModel.v
theories/SetModel.v
theories/VectorSpec.v
theories/VectorProofs.v
theories/MapSpec.v
theories/MapProofs.v
theories/SetProofs.v
theories/MapProofs2.v
theories/ContainerWitness.v
theories/PropContainers.v
theories/LiteralModel.v
theories/LexerModel.v
theories/LexSpec.v
theories/LexProofs.v
theories/LexProofs2.v
theories/LexProofs3.v
theories/LexProofs4.v
theories/LexWitness.v
theories/PropLexer.v
theories/AstModel.v
theories/ParserModel.v
theories/ParserProofs.v
theories/ParserProofs2.v
theories/PropParser.v
theories/TestParser.v
theories/DtypeModel.v
theories/SymtabModel.v
theories/SrtModel.v
theories/ResolverModel.v
theories/TestResolver.v
theories/ImmcModel.v
theories/ImmcgenModel.v
theories/TestImmcgen.v
theories/RegallocModel.v
theories/TestRegalloc.v
theories/X64Model.v
theories/X64genModel.v
theories/TestX64gen.v
theories/DriverModel.v
theories/X64Isa.v
theories/X64Decode.v
theories/Machine.v
theories/TestLib.v
theories/TestFixtures.v
theories/OpSpec.v
theories/IsaProofs.v
theories/IsaMemProofs.v
theories/ISetProofs.v
theories/X64genProofs.v
theories/X64genProofs2.v
theories/X64genProofs3.v
theories/X64genProofs4.v
theories/X64genProofs5.v
theories/X64genProofs6.v
theories/X64genWitness.v
theories/PropX64gen.v
theories/DriverProofs.v
theories/DriverWitness.v
theories/PropDriver.v
theories/AsmSpec.v
theories/AsmProofs.v
theories/AsmProofs2.v
theories/AsmProofs3.v
theories/AsmWitness.v
theories/PropAsm.v
theories/TypeSpec.v
theories/TypeProofs.v
theories/TypeProofs2.v
theories/ScopeSpec.v
theories/ScopeProofs.v
theories/TypeWitness.v
theories/PropTypes.v
theories/PropScope.v
theories/ElabSpec.v
theories/ElabProofs.v
theories/ElabProofs2.v
theories/ElabProofs3.v
theories/ElabProofs4.v
theories/ElabProofs5.v
theories/ResolverSpec.v
theories/ResolverProofs.v
theories/ResolverProofs2.v
theories/ResolverWitness.v
theories/PropResolver.v
theories/LabelSpec.v
theories/LabelProofs.v
theories/LabelProofs2.v
theories/LabelProofs3.v
theories/FrontModel.v
theories/NameProofs.v
theories/CSem.v
theories/CProgram.v
theories/TestC.v
theories/ImmcSem.v
theories/GenSpec.v
theories/GenProofs.v
theories/ExprProofs.v
theories/ExprProofs2.v
theories/ExprProofs3.v
theories/ExprProofs4.v
theories/ExprProofs5.v
theories/ExprProofs6.v
theories/ExprProofs7.v
theories/ExprProofs8.v
theories/StmtProofs.v
theories/StmtProofs2.v
theories/StmtProofs3.v
theories/ImmcProgram.v
theories/FunProofs.v
theories/InitSpec.v
theories/InitProofs.v
theories/StmtProofs4.v
theories/ExprWitness.v
theories/PropExpr.v
theories/StmtWitness.v
theories/PropStmt.v
theories/ProgSpec.v
theories/DataProofs.v
theories/ProgProofs.v
theories/ProgProofs2.v
theories/DataProofs2.v
theories/ProgWitness.v
theories/PropProgram.v
theories/RegSpec.v
theories/RegProofs.v
theories/RegProofs2.v
theories/RegProofs3.v
theories/RegProofs4.v
theories/RegProofs5.v
theories/RegProofs6.v
theories/RegCheck.v
theories/RegCheckProofs.v
theories/RegProofs7.v
theories/OrderProofs.v
theories/OrderProofs2.v
theories/OrderSpec.v
theories/PaceProofs.v
theories/OrderProofs3.v
theories/OrderProofs4.v
theories/OrderProofs6.v
theories/OrderProofs5.v
theories/OrderProofs7.v
theories/OrderProofs8.v
theories/OrderProofs9.v
theories/SourceProofs.v
theories/RegWitness.v
theories/PropRegalloc.v
theories/CallSpec.v
theories/CallProofs.v
theories/CallProofs2.v
theories/CallProofs3.v
theories/CallProofs4.v
theories/CallProofs5.v
theories/CallProofs6.v
theories/CallProofs7.v
theories/CallProofs8.v
theories/CallProofs9.v
theories/CallProofs10.v
theories/SourceProofs2.v
theories/AsmLabelSpec.v
theories/AsmLabelProofs.v
theories/PropLabels.v
theories/MarkSpec.v
theories/MarkProofs.v
theories/MarkProofs2.v
theories/MarkProofs3.v
theories/MarkProofs4.v
theories/MarkProofs5.v
theories/SimSpec.v
theories/SimProofs.v
theories/SimProofs2.v
theories/SimProofs3.v
theories/SimProofs4.v
theories/SimProofs5.v
theories/SimProofs6.v
theories/SimProofs7.v
theories/SimProofs8.v
theories/SimCheck.v
theories/SimCheckProofs.v
theories/PropMachine.v
theories/SimCallSpec.v
theories/SimCallCheck.v
theories/SimCallCheckProofs.v
theories/SimFrameCheck.v
theories/SimFrameProofs.v
theories/SimProofs9.v
theories/SimProofs10.v
theories/SimProofs11.v
theories/SimProofs12.v
theories/SimProgSpec.v
theories/SimProofs13.v
theories/SimProofs14.v
theories/SimWitness.v
theories/PropWhole.v
theories/CallWitness.v
theories/PropCall.v
theories/Grammar.v
theories/GrammarProofs.v
theories/GrammarProofs2.v
theories/GrammarProofs3.v
theories/GrammarProofs4.v
theories/GrammarProofs5.v
theories/GrammarProofs6.v
theories/GrammarProofs7.v
theories/GrammarProofs8.v
theories/WriteSpec.v
theories/WriteProofs.v
theories/DeclareProofs.v
theories/TypedefSpec.v
theories/TypedefProofs.v
theories/GrammarWitness.v
theories/PropGrammar.v
