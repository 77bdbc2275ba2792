# DESIGN — a Rocq (Coq 8.16.1) model of GoBCDice

Subject: raa0121/GoBCDice, source in /repo (Go). Properties: `properties.jsonl`. Claims: `MANIFEST.json`.

## 1. What is modelled, and how

All files are under `rocq/theories` (logical prefix `Verif`). Model files (no proofs) are separate from
specification files (`Spec*.v`, no reference to the model's helpers beyond its data types), proof files and property files
(`Prop_*.v`: the theorems named in `MANIFEST.json`, each followed by `Print Assumptions` and by `Example`s that meet its hypotheses).
`Conformance.v`, `Conformance2.v` and `TestData.v` check the model by computation against the expectations of the repository's own unit tests (these are tests of the model, not proofs).

| Go code | model file | how |
|---|---|---|
| Go `int`, errors, panics, `strings.Join`, `%d` | `GoBase.v` | `int` = `Z` kept in [-2^63,2^63) by explicit `wrap64`; a call returns `Ok v`, `Err msg` or `Panic msg`; strings are byte strings |
| pkg/core/dice, feeder, roller | `Dice.v` | a feeder is a queue (list of dice) or an oracle for `rand.Intn`; a feeder step returns the new feeder |
| Queue and Environment slices in memory | `GoMem.v` | backing arrays and windows; any growth policy of `append`; a caller holding slices |
| pkg/core/ast | `Ast.v` | one inductive type, constructors = Go node kinds, Go `nil` child = `NNull` |
| `SExp` of pkg/core/ast; strconv.Quote, UTF-8 | `SExp.v`; `Quote.v`, `Utf8.v` | structural recursion; byte strings |
| pkg/core/object | `Object.v` | inductive type of result objects |
| float64 division, Ceil, Round | `Float.v` | IEEE-754 binary64 from Flocq |
| pkg/core/evaluator | `Eval.v` | state monad over (feeder, recorded dice); mutation of a node = returning the new node |
| the same, nodes as mutable records linked by pointers; util/clone.go | `HeapEval.v` | a heap of nodes; every function reads and writes it, copies shallowly where Go does |
| pkg/core/notation | `Notation.v` | structural recursion |
| pkg/core/command | `Command.v` | one function per Go function |
| pkg/core/parser/parser.go (engine) | `Peg.v` | interpreter of pigeon expressions with fuel; proved total for the grammar |
| the options of the parser (MaxExpressions, Memoize, AllowInvalidUTF8, Recover, Entrypoint, InitState) | `PegOptions.v` | the engine again with these, a memo table included |
| the engine with positions, rule stack, farthest failure, expected terminals, error texts | `PegText.v` | the engine again with these fields; erasing them gives `Peg.v` (proved) |
| pkg/core/parser/parser.pigeon (grammar, actions) | `Grammar.v` | the rule table as data, the actions as functions on dynamic values |
| pkg/core/util, pkg/bcdice, dicebot, list | `BCDice.v` | functions/state machine |
| package regexp (the constructs used), the six regular expressions | `Regex.v`; the expressions in `BCDice.v`, `TestCase.v`, `Repl.v` | syntax trees and a backtracking matcher on decoded characters, greedy, leftmost-first, with groups; proved equal to hand-written scanners (`RegexUses.v`) |
| cmd/GoBCDiceREPL/repl | `Repl.v` | state machine over input lines |
| pkg/dicebot/testing, dice formatting | `TestCase.v` | functions on byte strings |
| cmd/GoBCDiceAPI/helpers, models, controllers | `Api.v` | functions |
| pkg/dicebot/testing/testing.go (Run, JoinWithTestData) | `Runner.v` | function from file contents to reports; path/filepath's Clean and Join are written from the Go 1.14 library source (not in /repo); how package testing rewrites names of subtests is not modelled |
| package encoding/json as used there | `Json.v` | function from values to text, written from the Go library source (not in /repo) |
| pkg/core/dice/feeder/mt19937.go with its two libraries | `Random.v` | MT19937-64 and math/rand.Intn, written from the published library sources (they are not in /repo) and checked against the values of mt19937_test.go; a bound `tries` on the rejection loop |

Not modelled: the seeding of the generator from the clock (`time`), the GUI, echo/HTTP transport, readline/terminal I/O,
the automata inside package regexp (only its documented matching rule), memory/time consumption (except the allocation-size panic of
`make` and the expression counter of the parser), goroutines (the code has none).

## 2. Plan per property

* C01–C03 (roller/queue): functions on lists; induction on the count / operation history; the spec is a plain list program.
* C04: invariant "every recorded die is legal" over all evaluator functions with the oracle feeder.
* C05, C07, C08, C53: one generic theorem about evaluator computations: each computation is a function of the dice stream with the
  "log grows by exactly what is consumed" and "frame" properties; proved for each primitive and preserved by bind.
* C06, C57, C59: the shape of ExecuteCommand (error without dice / one execution / execution with retry of the same command), by the grammar facts on first words
  (C41, C42); then locality of a computation in the dice stream. The naive C06 is refuted by a computed witness.
* C09–C14: denotational semantics of integer expressions over `Z` (spec) and induction on expressions; Flocq for C11.
* C15, C16, C20: the spec is a direct big-step evaluator of D expressions over a dice stream; proof by induction over the expression for each phase.
* C17, C19: universally quantified negative theorems (always an error).
* C18, C21–C31: per-command functional specifications.
* C32, C36, C38: well-formedness predicate of parsed commands, proved from the grammar; no-panic by induction; refutations by witness.
* C33, C37, C39–C42, C45, C46: about the PEG model: totality by a measure/rank argument on grammar and input, per-rule post-conditions.
* C34/C35: notation vs parser.
* C60, C61: C32 and C37-C40 lifted to the whole of ExecuteCommand (both readings, secret marker, retry).
* C62: the echoed text spells the command with evaluated operands, regrouped as the printer drops parentheses (EchoNorm); regrouping keeps the order of the leaves (hence of
  the dice) and, without quotients on the right of a product, the value; then grammar completeness (C38) and the replies (C44) in both directions.
* C43, C44: functions on strings.
* C47–C49, C63: REPL state machine, invariants over histories; C49 refuted by divergence; C63 states the exact output and effect of each command from every reachable state.
* C50, C51: string functions, round trips. C58: case analysis of the runner, with C57 and the file round trip.
* C52, C55, C64: finite map / simple functions; C64 by induction over the history of operations.
* C54: injectivity of the S-expression printer; its exact text against a small independent datatype of S-expressions.
* C65: slices as windows into backing arrays (`GoMem.v`); invariant "every object has an array of its own" over all histories of calls and caller actions; refinement to plain lists.
* C66: induction over arrays; the text of an object is a prefix code before `,`, `]`, `>` or the end.
* C67: simulation between the heap program and the value program, with separation: a tree owns a duplicate-free list of addresses (footprint), and every function only writes
  inside the footprint or to nodes it allocates itself; induction over the tree, the roll queue and fuel.
* C68, C69: the detailed engine erases to the engine of `Peg.v`; an invariant ties positions to characters and the farthest failure to the terminals expected there; a relation
  between the runs on two texts with a common beginning, by induction on fuel and expressions, shows the runs equal as long as neither looks past it.
  For C69_nothing_else the same induction carries a bound on the suggestions (`ErrGrow.v`: the list noted at the farthest place only grows), so that a terminal that matches in the new text but not in the old one must be a suggestion or a word across the place.
* C70: the invariant about recorded errors (`ErrTop.v`) also carries which text was read when the error was recorded; the soundness of the grammar turns a count of zero into arithmetic, its completeness shows that the earlier alternatives fail (`ErrDice.v`).
* C71: C15 and C16 describe every run by the dice it takes; induction on the number of dice shows that the sums of x legal y-sided dice are exactly x..x*y, induction on the expression
  assembles the dice of its leaves.
* C72: induction on computations: a random source that shows the recorded dice makes the same run; the other direction is replay (C57).
* C73: by induction on the rounds of re-rolls (every new roll is no larger than its origin) and on the chains, from the exact descriptions C15, C21–C29. For every outcome (C73_any_outcome, C73_text): a logic `tk N c P` over computations (Takes.v) that counts the dice on every path, including those of rolls that fail half-way.
* C74: a run on a random source equals the run on the dice its answers show (induction on the computation); the counts by induction on the number of dice over the list of all answers.
* C75: a simulation of the error-tracking engine on the text and on the mended text (same results, values up to the bytes of items, same positions and farthest failure, errors equal after removing those about encodings), and an invariant of one run (every error about an encoding is placed at a broken byte; every broken byte up to the current place and up to the farthest failure has such an error); then the cases of C68 for the mended text.
* C76: `typed` in SpecTyped.v splits a text into mark, text of a command (the grammar of SpecGrammar.v) and what may follow; with soundness and completeness of the parser (C38), the secret mark (C43) and the comment (C41) every typed text has one reading, and C71 and C74 carry over from commands to texts.
* C77: `Random.v` models the generator and Intn; counting over blocks of 2^31 or 2^63 raw numbers gives the shares; a refinement from the program with a source to the program with an oracle (the oracle replays the calls of the run); bit-wise injectivity of the tempering steps; an invariant of the in-place block computation (the first i words are those of the next block) for the recurrence. Not proved: that the rejection loop ends for MT19937 (sessions that have not ended after `tries` numbers are `None`), and that MT19937's own numbers are uniform.
* C78: `encodes` in SpecUnicode.v is the table of RFC 3629 as a relation between code points and bytes; the decoder is proved to read exactly these characters (added after mutant M101, surrogates accepted, which nothing detected: validity was stated with the decoder itself).
* C79: combines C76 (text to command), C44 (replies of a command, `reply` in SpecMessage.v) and the independence of the kind of feeder into a specification of ExecuteCommand; `calculates` in SpecArith.v gives the value of every integer expression by real numbers and IEEE rounding, also where the mathematical value is not reached (extends C09-C11).
* C80: `reason` in SpecReasons.v lists the causes of an error with their messages, in terms of the values parts of the command can have (SpecRoll.v); an error logic (`ep` in WhyProofs.v, dual to the panic logic of C32) is carried through every function of the evaluator and of the execution (WhyCommand.v).
* C81: a relation between an expression of the grammar, the text before and after it and the number of expressions tried (CostUpper.v), which the engine refines; a potential on texts in which a character inside d brackets counts 3^d (CostLevel.v); and a bound in this potential for every rule of the grammar, by induction on the length of the text (CostRules.v). `nesting` in SpecNesting.v is the depth of nesting of a byte string.
* C82: `until_miss` in SpecChances.v; the relations of SpecLists.v for re-rolls and chains are proved equivalent to it (StopProofs.v), and the lists of answers for which it holds are counted by Pascal's recursion (Prop_chances.v).
* C83: sums over all lists of answers (`all_answers` of SpecFair.v) of the total and of the number of successes, by induction on the number of dice (Prop_average.v); the mirror image of a die for the symmetry.
* C84: package encoding/json as used by echo's c.JSON is modelled in Json.v (Marshal, and MarshalIndent's white space); SpecJson.v is a reader of JSON texts written from RFC 8259 (without fractions and exponents); by induction on the value the reader gives back what was written (Prop_json.v).
* C85: SpecOdds.v lists, for an expression, one calculation per combination of faces; by induction on the expression these correspond one by one to the lists of answers of the source (C15/C16 with a source that gives the listed answers); counting and summing over the lists (Prop_odds.v). B rolls: C22 with the same lists.
* C86: Runner.v models testing.go (Run) as a function from the contents of the files to the list of subtests with what each reports; SpecRunner.v says case by case what must be reported; by induction on the test cases (Prop_runner.v). The recording part combines C58 (verdicts) with the replay theorems C57 and the file round trip C51.
* C87: the message is game id, " : " and parts (C44); each part is made of digits, signs, fixed Japanese words and, for choice, pieces of the text; preservation of validity and of the absence of a control character through the parser, notation and message code (Prop_lines.v).
* C88: SpecPaths.v walks along the names of a path with a stack of directories; the loop of Clean (Runner.v) is shown to keep its output equal to the text of "k times .. and a stack of names", by induction on the rest of the path (Prop_paths.v); uniqueness by walking from a directory whose names occur in neither path.
* C89: PegOptions.v is the engine once more with the options; a simulation (PegOptionsProofs.v) ties it, without Memoize, to `Peg.v`: same result and count while within the limit, the panic of the limit otherwise, errors equal or, with AllowInvalidUTF8, without those about bytes; then C81, C45 and the simulation of C75. Memoize is refuted by computation.
* C90: the reply of C44 together with the text spelled (parse soundness); every leaf and operator of an expression was typed with at least one character, a roll with three; a Go int has at most 20 characters (NumberText.v gives its digits); visits keep the shape of expressions. Errors (Prop_errsize.v): C68 for syntax errors (a duplicate-free list from a fixed vocabulary), C80 for the others.
* C91: SpecMonotone.v says which dice count upwards (signs, subtraction, written factors and divisors, products of unsigned rolls); by induction on the expression two lists of answers lead to two calculations of C85, whose mathematical values are compared (the roundings of SpecArith.v are monotone); verdicts by C16, B rolls by C22, chances by counting with C85.
* C92: SpecAlike.v gives the laws as a relation on rolls; rolls related by it have the same list of outcomes up to order (lists of combinations: commutative, associative; a die read from the other side), and C85 ties counts over answers to counts over outcomes. The laws leave out distributivity, with an example that it fails.
* C93: SpecIndependent.v lists the commands whose dice are fixed; each has a result on every list of answers (C15, C16, C21, C22, C31 backwards) and takes exactly its dice (C76, runs on a given source); then induction on the list of commands, and counting over the combinations of lists of answers.
* C94: SpecShuffled.v relates lists of answers by the shape of the roll; related lists lead to the same calculation (induction on the roll), hence to the same value (C15, C16); the successes are a count, which a permutation keeps (C22).

Where a property one would expect is false of the code, the property is stated as the code behaves and the theorem
`…_refuted` is the universally checked witness (C05, C06, C11, C17, C32, C34); nothing is left as `_partial`.

How to read a theorem: the specification vocabulary is in the small files `SpecDice, SpecArith, SpecRoll, SpecLists, SpecSyntax,
SpecGrammar, SpecText, SpecCommand, SpecCounts, SpecTotals, SpecMessage, SpecFiles, SpecGames, SpecRepl, SpecErrors`, which do not use the functions of the model
(only its data types: dice, nodes, results, feeders).

## 3. Trusted base

1. The kernel of Coq 8.16.1, including its virtual machine (`vm_compute` is used in `Conformance.v`, in the `Example`s and in a few
   lemmas about finite tables). No `native_compute`, no plugin, no axiom of our own, no kernel check switched off, no functor or module type.
2. What `Print Assumptions` lists. Theorems whose statement mentions evaluation mention the float64 division, whose definition
   (Flocq's `Bdiv`, `Bnearbyint`, `binary_normalize`) contains proofs about Coq's real numbers. They therefore list exactly these four axioms
   of Coq's standard library, and no others:
   `ClassicalDedekindReals.sig_forall_dec`, `ClassicalDedekindReals.sig_not_dec`,
   `FunctionalExtensionality.functional_extensionality_dep`, `Classical_Prop.classic`.
   * Closed under the global context (no axiom): C01_roll_errors, C01_roll_exact, C01_roll_queue, C01_roll_queue_failure, C02_invalid_request, C02_nothing_recorded, C03_queue_fifo, C05_log_is_consumption, C13_literal, C32_alloc_limit, C33_items_clean, C34_echo_of_product_with_quotient, C36_command_notation, C37_parser_total, C38_exactly_the_grammar, C38_shape, C38_unambiguous, C39_case_insensitive, C40_arithmetic_rejected, C40_comparison_rejected, C40_random_element, C42_calculation_and_choice, C42_nothing_follows, C42_other_commands, C45_accepted, C45_exponential, C45_no_polynomial_bound, C46_chain, C46_grouping_unique, C50_error_text, C50_language, C50_malformed, C50_malformed_entry, C50_round_trip, C51_case_round_trip, C51_cutting, C51_error_texts, C51_file_round_trip, C51_files, C51_numbering, C52_find, C52_history, C52_ids_any_order, C52_infos, C52_infos_any_order, C52_list, C52_only_basic, C52_same_map, C52_select, C54_choice_items, C54_integer_expressions, C54_parsed, C54_parsed_text, C54_plain_items, C54_text, C55_array, C55_contents, C55_error, C55_no_other_route, C55_ok_iff_200, C55_routes, C61_parse_errors, C64_has_messages, C64_last_message, C64_valid, C65_caller, C65_objects, C66_inspect, C66_max, C66_sum, C67_determine_in_place, C67_notation_reads, C67_sexp_reads, C68_error_text, C68_places, C69_nothing_else, C69_suggestions_help, C70_arithmetic, C70_comparison, C70_reason, C74_all_answers, C75_broken_bytes, C75_mended, C76_unambiguous, C77_generator, C77_seed, C77_sequence, C77_tempering, C77_unbiased, C78_broken, C78_character, C78_encode, C78_unambiguous, C78_valid, C81_exponential_in_depth, C81_linear, C81_work, C84_body_is_json, C84_entries, C84_harmless, C84_routes, C85_all_lists, C88_canonical, C88_same_place, C88_test_data, C88_unique, C89_broken_bytes, C89_defaults, C89_generous, C89_limit, C89_memoize_refuted, C89_strict.
   * The four axioms above: C04_recorded_legal, C04_results_legal, C05_hint_refuted, C05_rolled_dice_exact, C06_all_dice_reported_refuted, C06_reported, C07_replay, C08_later_dice_irrelevant, C09_calculation_value, C09_eval_value, C09_every_expression, C10_division_by_zero, C10_division_by_zero_math, C10_every_expression, C10_only_division_by_zero, C11_ceiling_beyond_refuted, C11_ceiling_exact, C11_division_by_one_refuted, C11_rounding_beyond_refuted, C11_rounding_exact, C11_truncation_exact, C12_wraps_modulo, C14_pure_and_total, C15_d_expr_any_feeder, C15_d_expr_exact, C15_d_total_math, C16_d_comp_exact, C16_verdict, C17_computed_operands_fail, C17_documented_example_refuted, C18_bad_range, C18_every_value_reachable, C18_random_number_in_range, C19_loose_random_fails, C19_loose_random_fails_comp, C20_phases, C21_basic_any_feeder, C21_basic_exact, C21_number_of_dice, C22_bounds, C22_complement, C22_matching_is_count, C22_success_count, C23_at_most_cap, C23_initial_rolls_first, C23_reroll_exact, C24_conservation, C24_conservation_comparison, C25_r_comp, C25_r_list, C25_succeeds, C25_succeeds_u, C25_u_comp, C25_u_expr, C26_r_comparison, C27_number_of_groups, C27_u_expr_exact, C28_max_and_total, C29_u_comparison, C30_bonus_settled, C31_choice_selects, C31_every_item, C31_every_legal_die, C32_crashes_refuted, C32_only_alloc_panics, C34_values_differ, C35_round_trip, C36_after_operands, C36_after_values, C41_comment_ignored, C41_failing_roll, C41_not_a_command, C43_not_secret, C43_secret, C43_twice, C44_message, C44_replies, C47_dice_given_back, C47_repeatable, C48_eval, C48_no_failed_assertion, C48_one_feeder, C48_roll, C48_set_dice_queue, C48_set_die_feeder, C49_finite_input, C49_never_ends_at_eof, C49_only_quit, C49_quit_ends, C53_isolated, C56_echo_is_stable, C57_left_dice_irrelevant, C57_replay, C58_file, C58_recorded, C58_verdict, C58_written, C59_same_command, C60_no_crash, C61_case_insensitive, C61_identical, C62_echo, C62_min_refuted, C62_quotient_refuted, C63_ast, C63_eval, C63_frame, C63_help, C63_list_games, C63_set_game, C63_usage, C67_eval_reads, C67_execute, C67_parsed, C67_var_args_in_place, C68_executed, C71_plain_roll, C71_totals, C71_typed_totals, C71_verdicts, C72_queued_or_random, C73_any_outcome, C73_exact, C73_explode, C73_reroll, C73_text, C74_chance_of_success, C74_choice_distribution, C74_one_answer_each, C74_plain_text, C74_successes_distribution, C74_totals_distribution, C74_typed_chance, C74_typed_choice, C74_typed_successes, C74_typed_totals, C76_nothing_else, C76_typed_command, C77_oracle, C77_seeded_legal, C79_answer, C79_calculation, C79_nothing_else, C79_one_reply, C79_values, C80_never_fails, C80_random, C80_reasons, C80_typed, C82_dice_taken, C82_reroll_successes, C82_until_miss, C83_average_successes, C83_average_total, C83_symmetric, C85_average, C85_chance, C85_distribution, C85_every_answer, C85_successes, C85_typed, C85_typed_chance, C86_accept, C86_green, C86_more_files, C86_names, C86_otherwise, C86_readable, C86_recorded, C86_report, C87_control_characters, C87_valid_utf8, C90_errors, C90_size, C91_easier_target, C91_modifier, C91_success, C91_successes, C91_totals, C91_typed, C92_opposite, C92_same_chance, C92_same_odds, C92_same_successes, C92_typed, C93_any_order, C93_independent, C93_no_memory, C93_one_by_one, C93_repeated, C94_any_order, C94_successes, C94_sums, C94_typed, C94_verdict.
3. That the model says what the Go code does. Each definition cites the lines it models. `Conformance.v` evaluates the model on the
   inputs of the repository's test tables; `TestData.v` runs TestDiceBot in the model on the test data files themselves (all 271 cases pass); `Conformance2.v` runs 1120 rows of the
   tables of the other unit tests (commands, evaluator, notation, objects, tree nodes, dice, test case parser) on the model, all with the expected values.
   `GrammarTable.v` contains the rule table of parser.go translated literally by a script and proves that the rules of the model have
   exactly its shape; `RegexSyntax.v` reads the six pattern texts of the code with a reader for Go's pattern syntax and proves that
   each matches every text as the tree used in the model does.

### Modelled
pkg/core/{ast,object,dice,dice/feeder,dice/roller,evaluator,notation,command,util/secret_roll.go}, the pigeon engine and the
grammar with all its actions (pkg/core/parser), pkg/bcdice, pkg/dicebot, pkg/dicebot/list, pkg/dicebot/gamesystem/basic, pkg/dicebot/testing
(parsing of files, verdict of a case), cmd/GoBCDiceREPL/repl, and of cmd/GoBCDiceAPI the helpers, models and controllers as functions.

### Not modelled
The seeding of the Mersenne twister from the clock, `time`, cmd/GoBCDiceGUI and
cmd/GoBCDiceCUI, echo/HTTP (but package encoding/json is modelled, `Json.v`), the environment file of the API server, readline and terminal I/O, file reading, pigeon's debugging, GlobalStore, statistics other than ExprCnt, gob/GoString printing.
Memory and time are not modelled, except the allocation-size panic of `make` and the expression counter.

### Simplifications
* `int` is 64 bits. `int(f)` out of range is the amd64 result (minimum integer); Go leaves it implementation-defined.
* In `Eval.v`, `Notation.v`, `SExp.v` the copy made by `util/clone.go` is returning a new tree; `HeapEval.v` models the shallow copy, and C67 relates the two.
* In `Eval.v` in-place mutation of a tree is returning the new tree, dropped after an error; `HeapEval.v` mutates, and C67 relates the two (also after an error).
  Feeders shared by pointer are modelled explicitly in `Repl.v` (a heap); elsewhere the feeder is threaded through.
* Errors and panics keep only a text; %q and strconv.Quote (ParseDice's error, S-expressions, Inspect) are modelled exactly (`Quote.v`).
  `strconv.IsPrint` is a parameter of the theorems (C54 holds for any set of printable characters); the concrete table is Unicode 14.
* Regular expressions are syntax trees of a small subset of package regexp (`Regex.v`), matched by backtracking on decoded characters; the reader of pattern texts in `RegexSyntax.v` covers only the constructs of these six patterns.
* `unicode.ToLower` is exact only as far as it can produce the ASCII letters the grammar compares with.
* `sort.Sort`/`sort.Slice` are insertion sort; the order of entries with equal sort keys is that of the registry (unspecified in Go).
* A Go map is an association list; the theorems about the game list quantify over every registry content.
* The parser engine is run with fuel 100·(length+1); `C37` proves that this is always enough, so fuel never shows in a result.
