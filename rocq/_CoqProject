-Q theories Verif
theories/GoBase.v
theories/Dice.v
theories/Ast.v
theories/Utf8.v
theories/Quote.v
theories/Object.v
theories/Float.v
theories/Comp.v
theories/Eval.v
theories/Notation.v
theories/Command.v
theories/Peg.v
theories/Regex.v
theories/Grammar.v
theories/SExp.v
theories/PegText.v
theories/BCDice.v
theories/TestCase.v
theories/Api.v
theories/Json.v
theories/Repl.v
theories/Conformance.v
theories/SpecDice.v
theories/ProofBase.v
theories/DiceProofs.v
theories/CompProofs.v
theories/SpecCommand.v
theories/CommandProofs.v
theories/ErrErase.v
theories/BCDiceProofs.v
theories/Prop_dice.v
theories/ExecProofs.v
theories/Prop_exec.v
theories/SpecSyntax.v
theories/SpecArith.v
theories/FloatProofs.v
theories/ArithProofs.v
theories/NotationProofs.v
theories/Prop_arith.v
theories/SpecRoll.v
theories/SpecLists.v
theories/YieldsProofs.v
theories/DRollProofs.v
theories/WpProofs.v
theories/WpEval.v
theories/Prop_droll.v
theories/ListProofs.v
theories/RerollProofs.v
theories/ExplodeProofs.v
theories/SpecCounts.v
theories/WpCommand.v
theories/Prop_lists.v
theories/SpecGrammar.v
theories/TextFacts.v
theories/PegProofs.v
theories/GrammarSound.v
theories/PegTotal.v
theories/ParseSound.v
theories/PegForward.v
theories/ParseComplete.v
theories/ParseLang.v
theories/ParseCmd.v
theories/ParseTop.v
theories/SpecText.v
theories/DecodeProofs.v
theories/RegexProofs.v
theories/RegexUses.v
theories/ParseFacts.v
theories/CaseProofs.v
theories/CaseErrors.v
theories/ParseText.v
theories/NumberText.v
theories/Prop_parse.v
theories/NotationText.v
theories/Prop_notation.v
theories/CostProofs.v
theories/Prop_cost.v
theories/SpecFiles.v
theories/FileProofs.v
theories/Prop_files.v
theories/SpecGames.v
theories/Prop_games.v
theories/SpecRepl.v
theories/ReplProofs.v
theories/Prop_repl.v
theories/SexpProofs.v
theories/Prop_sexp.v
theories/SpecMessage.v
theories/Prop_message.v
theories/Prop_exec2.v
theories/EchoNorm.v
theories/EchoProofs.v
theories/Prop_echo.v
theories/Prop_repl2.v
theories/Prop_api.v
theories/GoMem.v
theories/Prop_memory.v
theories/Prop_objects.v
theories/HeapEval.v
theories/SpecHeap.v
theories/HeapProofs.v
theories/HeapArgs.v
theories/HeapArgs2.v
theories/HeapDet.v
theories/HeapText.v
theories/HeapExec.v
theories/HeapBuild.v
theories/Prop_heap.v
theories/SpecErrors.v
theories/ErrInv.v
theories/ErrGrow.v
theories/ErrTwo.v
theories/ErrTop.v
theories/ErrDice.v
theories/Prop_errors.v
theories/Prop_nodice.v
theories/SpecTotals.v
theories/Prop_totals.v
theories/SpecBudget.v
theories/Takes.v
theories/Prop_budget.v
theories/SpecFair.v
theories/Prop_fair.v
theories/SpecBroken.v
theories/MendSim.v
theories/MendSpots.v
theories/Prop_broken.v
theories/SpecTyped.v
theories/Prop_typed.v
theories/Random.v
theories/SpecRandom.v
theories/RandomProofs.v
theories/RandomRefine.v
theories/Prop_random.v
theories/SpecUnicode.v
theories/Prop_unicode.v
theories/Prop_complete.v
theories/Prop_value.v
theories/SpecReasons.v
theories/WhyProofs.v
theories/WhyCommand.v
theories/Prop_reasons.v
theories/SpecNesting.v
theories/CostUpper.v
theories/CostLevel.v
theories/CostRules.v
theories/Prop_linear.v
theories/SpecChances.v
theories/StopProofs.v
theories/Prop_chances.v
theories/Prop_average.v
theories/SpecJson.v
theories/Prop_json.v
theories/SpecOdds.v
theories/Prop_odds.v
theories/Runner.v
theories/SpecRunner.v
theories/Prop_lines.v
theories/Prop_runner.v
theories/SpecPaths.v
theories/Prop_paths.v
theories/PegOptions.v
theories/PegOptionsProofs.v
theories/Prop_options.v
theories/TestData.v
theories/Conformance2.v
theories/RegexSyntax.v
theories/GrammarTable.v
theories/Prop_order.v
theories/Prop_size.v
theories/Prop_errsize.v
theories/SpecMonotone.v
theories/Prop_monotone.v
theories/SpecAlike.v
theories/Prop_alike.v
theories/SpecIndependent.v
theories/Prop_independent.v
theories/SpecShuffled.v
theories/Prop_shuffled.v
