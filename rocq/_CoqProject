-Q theories Verif
theories/Bytes.v
theories/Utf8.v
theories/UnicodeTables.v
theories/Float64.v
theories/GoTime.v
theories/Ast.v
theories/Lexer.v
theories/Tables.v
theories/Parser.v
theories/Printer.v
theories/Walk.v
theories/Json.v
theories/ToLowerC.v
theories/TestLib.v
theories/Tests.v
theories/LexFacts.v
theories/Utf8Facts.v
theories/LexSpec.v
theories/LexProofs.v
theories/LexTrivia.v
theories/LexTokens.v
theories/LexStrings.v
theories/NumSpec.v
theories/NumProofs.v
theories/NumTokens.v
theories/LexReject.v
theories/Properties_Lexer.v
theories/Grammar.v
theories/CertData.v
theories/Cert.v
theories/Driver.v
theories/DriverInv.v
theories/Tok.v
theories/Trees.v
theories/Properties_Parser.v
theories/Syntax.v
theories/Rules.v
theories/RulesFacts.v
theories/CleanFacts.v
theories/StmtInd.v
theories/Order.v
theories/OrderFacts.v
theories/CstTrees.v
theories/CstEval.v
theories/CstModule.v
theories/Properties_Tree.v
theories/CellInv.v
theories/PrintInv.v
theories/Properties_Literals.v
theories/Properties_Print.v
theories/WalkSpec.v
theories/WalkFacts.v
theories/FlatInv.v
theories/WalkModule.v
theories/Properties_Walk.v
theories/WalkEdit.v
theories/EditSpec.v
theories/EditFacts.v
theories/EditLocal.v
theories/Properties_Edit.v
theories/Properties_ToLowerC.v
theories/Properties_Json.v
theories/Again.v
theories/Properties_Again.v
theories/Properties_Signs.v
theories/Machine.v
theories/Levels.v
theories/Bind.v
theories/BindCst.v
theories/Items.v
theories/Complete.v
theories/TightOk.v
theories/CstInj.v
theories/CstWf.v
theories/Regroup.v
theories/Properties_Bind.v
theories/Legal.v
theories/Panics.v
theories/Declared.v
theories/DeclaredFacts.v
theories/Accept.v
theories/Properties_Legal.v
theories/Writes.v
theories/PrintToks.v
theories/SpellInv.v
theories/Properties_Layout.v
theories/Survive.v
theories/Strip.v
theories/Stable.v
theories/Back.v
theories/BackMade.v
theories/BackStmt.v
theories/BackModule.v
theories/Properties_Back.v
theories/Properties_Stable.v
theories/Lexical.v
theories/Scanned.v
theories/Properties_Scan.v
theories/ViableData.v
theories/Viable.v
theories/Blame.v
theories/Told.v
theories/Stuck.v
theories/Where.v
theories/Placed.v
theories/Properties_Blame.v
theories/Broken.v
theories/Cause.v
theories/BrokenFacts.v
theories/Properties_Cause.v
theories/Culprit.v
theories/Spot.v
theories/Properties_Spot.v
theories/Alike.v
theories/Lockstep.v
theories/Same.v
theories/Properties_Same.v
theories/Faults.v
theories/FaultFacts.v
theories/Reached.v
theories/Properties_Faults.v
theories/Shapes.v
theories/ShapeInv.v
theories/Marshal.v
theories/Properties_Shape.v
theories/Helpers.v
theories/Properties_Helpers.v
theories/Glue.v
theories/Properties_Join.v
theories/Skip.v
theories/Past.v
theories/Properties_Past.v
theories/Rename.v
theories/RenameFacts.v
theories/Properties_Rename.v
theories/OneLine.v
theories/OneLineFacts.v
theories/OneLineText.v
theories/Properties_OneLine.v
theories/Loud.v
theories/LoudFacts.v
theories/LoudParse.v
theories/Properties_Loud.v
theories/Tidy.v
theories/TidyExpr.v
theories/TidyStmt.v
theories/TidyModule.v
theories/Properties_Tidy.v
theories/Cost.v
theories/CostFacts.v
theories/CostParse.v
theories/CostTold.v
theories/CostCount.v
theories/CostMany.v
theories/Properties_Cost.v
theories/Fill.v
theories/FillFacts.v
theories/Properties_Fill.v
theories/Decoded.v
theories/DecodedRun.v
theories/Properties_Utf8.v
theories/Pieces.v
theories/PiecesRun.v
theories/Properties_Pieces.v
theories/ErrText.v
theories/ErrRead.v
theories/ErrFacts.v
theories/Properties_ErrText.v
theories/RenPieces.v
theories/RenAct.v
theories/RenRun.v
theories/Properties_RenAll.v
theories/BeyondRun.v
theories/Properties_Beyond.v
theories/JsonText.v
theories/JsonRead.v
theories/JsonFacts.v
theories/Properties_JsonText.v
theories/JsonBytes.v
theories/MapOrder.v
theories/Properties_JsonBytes.v
theories/OneRule.v
theories/Properties_OneRule.v
theories/PrimRun.v
theories/Properties_Trailing.v
