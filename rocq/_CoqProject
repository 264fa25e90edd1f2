-Q theories Verif
theories/Base.v
theories/Token.v
theories/LexModel.v
theories/Spec.v
theories/TestsLexer.v
theories/LexBasics.v
theories/LexRest.v
theories/LexLoops.v
theories/LexSpec.v
theories/LexEsc.v
theories/LexHeredoc.v
theories/LexSwitch.v
theories/LexNested.v
theories/LexInv.v
theories/LexTree.v
theories/LexFacts.v
theories/TokensProofs.v
theories/PropTokens.v
theories/PropLexer.v
theories/LexNesting.v
theories/LexFwd.v
theories/LexNumbers.v
theories/LexIdent.v
theories/LexString.v
theories/SpecLit.v
theories/SpecBrackets.v
theories/LexQuoted.v
theories/LexWords.v
theories/PropLiterals.v
theories/PropWords.v
theories/PropNesting.v
theories/PropNumbers.v
theories/LexArray.v
theories/LexUnterminated.v
theories/LexBrackets.v
theories/PropBrackets.v
theories/LexInterp.v
theories/PropArrays.v
theories/Node.v
theories/ParserBase.v
theories/ParserModel.v
theories/Sexp.v
theories/TestsParser.v
theories/ParseHoare.v
theories/ParseNodes.v
theories/ParseTac.v
theories/ParseSafeA.v
theories/ParseSafeB.v
theories/ParseSafeC.v
theories/ParseSafeD.v
theories/ParseSafeE.v
theories/ParseSafeF.v
theories/ParseSafeG.v
theories/ParseSafeH.v
theories/LexLits.v
theories/ParseTransform.v
theories/ParseTokens.v
theories/ParseWhole.v
theories/PropParser.v
theories/SpecExpr.v
theories/SpecProg.v
theories/ParsePratt.v
theories/ParseProg.v
theories/ParseChain.v
theories/PropExpr.v
theories/SpecHeredoc.v
theories/LexHereFwd.v
theories/LexHereSrc.v
theories/PropHeredoc.v
theories/LexShift.v
theories/LexPaste.v
theories/SpecPlace.v
theories/LexIndent.v
theories/LexAfter.v
theories/PropPlace.v
theories/SpecLexeme.v
theories/SpecText.v
theories/LexPunct.v
theories/LexLexeme.v
theories/LexText.v
theories/LexDeep.v
theories/LexFine.v
theories/PropLexeme.v
theories/PropText.v
theories/SpecRuby.v
theories/RubyTransform.v
theories/RubyNodes.v
theories/RubyBase.v
theories/RubyRun.v
theories/RubyBody.v
theories/RubyExpr.v
theories/RubyQuoted.v
theories/RubyOps.v
theories/RubyForms.v
theories/RubyArgs.v
theories/RubyCalls.v
theories/RubyBlock.v
theories/RubyCompound.v
theories/RubySet.v
theories/RubyRescue.v
theories/RubyDef.v
theories/RubyClass.v
theories/PropRuby.v
