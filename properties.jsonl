{"id": "C01", "title": "RollDice is all-or-nothing and exact", "statement": "DiceRoller.RollDice(num, sides) either returns exactly num dice, every one having exactly the requested number of sides, in the order in which the feeder supplied them, or returns an error and no dice at all. With a Queue feeder a successful call removes exactly the returned dice from the front of the queue and leaves the rest untouched; it fails exactly when the request is invalid, the queue is too short or one of the first num queued dice has a different number of sides. The message of a failing call names the request and, for a die with other sides, that die; the dice looked at are gone, the rest of the queue is untouched.", "quantifier": "every num, every sides, every queue content", "why_tests_cant": "unbounded dice counts and queue contents", "anchors": ["pkg/core/dice/roller/roller.go: RollDice", "pkg/core/dice/feeder/queue.go: Next"]}
{"id": "C02", "title": "Invalid roll requests consume nothing", "statement": "RollDice with sides < 1 or num < 1 returns an error without taking any die from the feeder and without recording any die; the complaint about the sides wins over the complaint about the count.", "quantifier": "every pair of int64 arguments with one of them below 1, every feeder state", "why_tests_cant": "the argument space is infinite for practical purposes", "anchors": ["pkg/core/dice/roller/roller.go: RollDice", "pkg/core/evaluator/evaluator.go: RollDice"]}
{"id": "C03", "title": "The queue feeder is a FIFO list", "statement": "Under any sequence of Push, Append, Set, Clear, Next, Dice, Remaining and IsEmpty calls, a Queue feeder returns what a plain first-in-first-out list of dice would return: Next yields the oldest die not yet taken (whatever sides is asked for), or an error exactly when none is left; Dice lists the remaining ones oldest first; Remaining is their number.", "quantifier": "every history of operations of any length", "why_tests_cant": "histories are unbounded", "anchors": ["pkg/core/dice/feeder/queue.go: Queue"]}
{"id": "C04", "title": "Random dice are always legal", "statement": "With the Mersenne-Twister feeder every die recorded while executing any command has a value between 1 and its number of sides.", "quantifier": "every command, every seed / random sequence satisfying the documented contract of rand.Intn", "why_tests_cant": "the random stream cannot be enumerated", "anchors": ["pkg/core/dice/feeder/mt19937.go: Next", "pkg/core/evaluator/evaluator.go: RollDice"]}
{"id": "C05", "title": "Execute's RolledDice is exactly what was taken from the feeder", "statement": "When command.Execute succeeds on a command other than a calculation and returns a non-empty dice list or a roll result, RolledDice is exactly the sequence of dice taken from the feeder by this execution, in order; the feeder is left with exactly the remaining ones. More generally, at any point of an evaluation that returned no error, the environment's log has grown by exactly the dice consumed.", "quantifier": "every AST (well-formed or not), every initial queue, every previously recorded log", "why_tests_cant": "all ASTs and dice sequences", "anchors": ["pkg/core/command/command.go: Execute", "pkg/core/evaluator/environment.go", "pkg/core/evaluator/evaluator.go: RollDice, RolledDice"]}
{"id": "C06", "title": "ExecuteCommand can lose dice; what it reports is exactly what its last attempt took", "statement": "The RolledDice of a successful BCDice.ExecuteCommand are exactly the dice its last attempt took from the feeder, in order (none if the result is a threshold hint). Dice can be lost (the property one would expect, that all are reported, is false of the code): only if the input without its secret marker is a command whose first execution fails, and then exactly the dice of that failed execution are lost.", "quantifier": "every input string, dice bot and feeder", "why_tests_cant": "needs a universally quantified claim over inputs and dice; a witness refutes it", "anchors": ["pkg/bcdice/bcdice.go: ExecuteCommand"]}
{"id": "C07", "title": "Results can be replayed", "statement": "Re-executing the same command with a Queue feeder holding exactly the dice recorded as rolled by a successful execution yields the identical result (message, success flag, dice) and empties the queue.", "quantifier": "every command and every feeder", "why_tests_cant": "all commands and dice sequences", "anchors": ["pkg/core/command/*.go", "pkg/core/dice/feeder/queue.go"]}
{"id": "C08", "title": "Later dice never influence a result", "statement": "Appending further dice behind those a successful command consumed changes neither its result nor its dice, and leaves exactly the appended dice (after the previously left ones) in the queue.", "quantifier": "every command, every queue, every suffix", "why_tests_cant": "all commands, queues and suffixes", "anchors": ["pkg/core/command/*.go", "pkg/core/evaluator/*.go"]}
{"id": "C09", "title": "C(...) computes ordinary integer arithmetic", "statement": "For every expression built from integers, +, -, *, unary minus, and the three divisions (truncating /, /U rounding up towards +infinity, /R rounding half away from zero), if no intermediate mathematical value leaves the exactly representable range, C(expr) reports exactly the mathematical value.", "quantifier": "every calculation expression of any depth whose intermediate values are in range and whose divisors are non-zero", "why_tests_cant": "unbounded expression depth", "anchors": ["pkg/core/evaluator/eval_infix_expression.go", "pkg/core/evaluator/eval_prefix_expression.go", "pkg/core/command/execute_calc.go"]}
{"id": "C10", "title": "Division by zero is always an error", "statement": "If any divisor in a calculation evaluates to zero, the command yields an error (never a value and never a crash), whatever the rounding mode.", "quantifier": "every expression of any depth, every dividend", "why_tests_cant": "unbounded expression depth and values", "anchors": ["pkg/core/evaluator/eval_infix_expression.go: evalIntegerDivide"]}
{"id": "C11", "title": "Rounding divisions are exact on ordinary numbers (and not beyond)", "statement": "For every dividend of magnitude below 2^53 (for /U) or below 2^52 (for /R) and every non-zero int64 divisor, /U equals the mathematical ceiling and /R the mathematical rounding half away from zero of the exact quotient, although both are computed through float64. The bounds are sharp: at 2^53 and 2^52 there are int64 divisors for which the result is wrong.", "quantifier": "every (dividend, divisor) pair in the stated range; plus a witness outside it", "why_tests_cant": "2^116 pairs; float64 rounding", "anchors": ["pkg/core/evaluator/eval_infix_expression.go: evalIntegerDivide"]}
{"id": "C12", "title": "Arithmetic wraps modulo 2^64", "statement": "Whatever the operands, the value of a calculation using only +, - , * and unary minus is the int64 congruent modulo 2^64 to the mathematical value.", "quantifier": "every expression of any depth", "why_tests_cant": "unbounded expression depth", "anchors": ["pkg/core/evaluator/eval_infix_expression.go: evalIntegerInfixExpression", "pkg/core/evaluator/eval_prefix_expression.go"]}
{"id": "C13", "title": "Integer literals: exact or saturated", "statement": "A decimal literal of any length denotes its exact value if that is below 2^63, and 2^63-1 otherwise (the conversion error is ignored).", "quantifier": "every non-empty digit string", "why_tests_cant": "unbounded literal length", "anchors": ["pkg/core/parser/parser.pigeon: Integer"]}
{"id": "C14", "title": "Calculations are pure and total", "statement": "Executing a parsed C(...) command takes no die, records no die, never panics, and ends in either a value or a division-by-zero error.", "quantifier": "every calculation the parser can produce, every feeder state", "why_tests_cant": "unbounded expression depth", "anchors": ["pkg/core/command/execute_calc.go", "pkg/core/evaluator/*.go"]}
{"id": "C15", "title": "An additive roll is its arithmetic with dice sums in left-to-right order", "statement": "When a D-roll expression command succeeds, its total is the arithmetic value of the expression in which every xDy is replaced by the sum of x y-sided dice; operands containing [a...b] are evaluated first, left to right, taking one die each; then the xDy rolls take their dice left to right. The three phases the code runs (operand evaluation, value determination, evaluation) never disagree with this.", "quantifier": "every D-roll expression, every dice supply", "why_tests_cant": "unbounded expressions and dice", "anchors": ["pkg/core/evaluator/eval_var_args.go", "pkg/core/evaluator/determine_values.go", "pkg/core/command/execute_d_roll_expr.go"]}
{"id": "C16", "title": "D comparison verdict is the comparison", "statement": "When a D-roll comparison command succeeds, SuccessCheckResult is SUCCESS exactly if (total on the left) op (value on the right) holds, FAILURE otherwise, never UNSPECIFIED; the displayed total and verdict word agree with it.", "quantifier": "every left expression, operator, target and dice supply", "why_tests_cant": "all expressions and dice", "anchors": ["pkg/core/command/execute_d_roll_comp.go", "pkg/core/evaluator/partial_eval_of_compare.go"]}
{"id": "C17", "title": "Documented computed operands do not work in comparisons", "statement": "A D-roll comparison whose left side is a single roll with computed count or sides, as in the documented (8/2)D(4+6)<=(5*3), always ends in an error, whatever dice are supplied, without taking a die, although the parser accepts it (the documentation promises that it is executed).", "quantifier": "every roll whose operands are not both literal, every operator and target, every dice supply", "why_tests_cant": "must hold for every operand expression and dice supply", "anchors": ["pkg/core/evaluator/eval_var_args.go: evalVarArgsInCompare, evalVarArgsInInfixExpression", "pkg/core/evaluator/determine_values.go: determineValueOfDRoll", "pkg/dicebot/gamesystem/basic/basic.go: Usage"]}
{"id": "C18", "title": "Random number operands stay in range", "statement": "[a...b] with a < b (and b-a+1 representable) takes exactly one (b-a+1)-sided die; if that die is legal the value lies between a and b inclusive and every value of the range is reachable; if a >= b it is an error and no die is taken.", "quantifier": "every a, b and feeder", "why_tests_cant": "all int64 pairs and dice", "anchors": ["pkg/core/evaluator/eval_infix_expression.go: evalRandomNumber"]}
{"id": "C19", "title": "A random number outside a roll operand always fails", "statement": "A D-roll expression or comparison accepted by the parser in which [a...b] occurs as a term (not inside a roll operand) always ends in an error (not a crash), whatever the dice; so not every accepted command can be executed.", "quantifier": "every such expression, every feeder", "why_tests_cant": "all expressions and dice", "anchors": ["pkg/core/evaluator/eval_var_args.go: evalVarArgsOfVariableExpr", "pkg/core/parser/parser.pigeon: DRollExprPrimary"]}
{"id": "C20", "title": "Phases establish their post-conditions", "statement": "After EvalVarArgs succeeds on a D-roll expression command every roll in it has integer literal operands; after DetermineValues succeeds no random element is left, so that the following evaluation consumes no die and depends on no feeder.", "quantifier": "every D-roll expression and feeder", "why_tests_cant": "unbounded expressions", "anchors": ["pkg/core/evaluator/eval_var_args.go", "pkg/core/evaluator/determine_values.go"]}
{"id": "C21", "title": "Basic rolls show the dice, in order", "statement": "A successful xBy+...+zBw command lists exactly the values of the dice rolled, in order, first x y-sided ones, ..., then z w-sided ones; their number is the sum of the counts.", "quantifier": "every list of rolls and every dice supply", "why_tests_cant": "unbounded lists and counts", "anchors": ["pkg/core/evaluator/eval_b_roll_list.go", "pkg/core/command/execute_b_roll_list.go"]}
{"id": "C22", "title": "B success count is the number of matching dice", "statement": "The success count of a B-roll comparison is the number of rolled values v with v op target; hence between 0 and the number of dice, and the counts for an operator and its complement add up to the number of dice.", "quantifier": "every roll list, each of the six operators, every target and dice supply", "why_tests_cant": "unbounded dice lists", "anchors": ["pkg/core/evaluator/eval_b_roll_comp.go", "pkg/core/evaluator/eval_infix_expression.go: countNumOfSuccesses"]}
{"id": "C23", "title": "R rolls follow the re-roll discipline and terminate", "statement": "Evaluating an R-roll list performs the initial rolls and then, in first-in-first-out order, for each performed roll with k>0 values at or above the threshold one further roll of k dice of the same sides; it always terminates and performs at most 10000 rolls.", "quantifier": "every roll list, threshold and dice supply (also adversarial ones)", "why_tests_cant": "unbounded and adversarial dice sequences", "anchors": ["pkg/core/evaluator/eval_r_roll_list.go", "pkg/core/evaluator/evaluator.go: MaxRerolls"]}
{"id": "C24", "title": "R re-roll conservation", "statement": "If an R-roll evaluation ends before the cap of 10000 rolls, the total number of dice rolled equals the sum of the initial counts plus the number of rolled values at or above the threshold.", "quantifier": "every roll list, threshold and dice supply", "why_tests_cant": "unbounded dice sequences", "anchors": ["pkg/core/evaluator/eval_r_roll_list.go"]}
{"id": "C25", "title": "Bad or missing re-roll threshold never rolls", "statement": "An R or U command whose threshold is missing or evaluates to less than 2 ends successfully with the documented Japanese hint as its last message part and rolls none of its dice: RolledDice is empty and the dice rolls themselves take nothing from the feeder.", "quantifier": "every such command with literal operands, every feeder", "why_tests_cant": "all thresholds and operands", "anchors": ["pkg/core/evaluator/reroll_threshold.go", "pkg/core/command/execute_r_roll_list.go", "pkg/core/command/execute_u_roll_expr.go", "pkg/core/command/execute_r_roll_comp.go", "pkg/core/command/execute_u_roll_comp.go"]}
{"id": "C26", "title": "R comparison: default threshold and success count", "statement": "In an R-roll comparison without [t] the target is the re-roll threshold; with [t] the given t is. The success count is the number of values, over all groups including re-rolls, with v op target.", "quantifier": "every roll list, optional threshold, operator, target and dice supply", "why_tests_cant": "unbounded dice sequences", "anchors": ["pkg/core/evaluator/reroll_threshold.go: SetRerollThreshold", "pkg/core/evaluator/eval_r_roll_comp.go"]}
{"id": "C27", "title": "U rolls: one exploding chain per die", "statement": "Evaluating a U-roll list yields exactly as many groups as the sum of the counts; within a group all values but the last are at or above the threshold, and the last is below it unless the group has reached the cap of 10000; dice are taken group by group.", "quantifier": "every roll list, threshold and dice supply", "why_tests_cant": "unbounded and adversarial dice sequences", "anchors": ["pkg/core/evaluator/eval_u_roll_expr.go: evalCompoundingRoll"]}
{"id": "C28", "title": "U expression: maximum and total with bonus", "statement": "A U expression reports (maximum group sum + bonus) and (sum of all values + bonus, once); the maximum is attained by some group and is an upper bound of all.", "quantifier": "every roll list, threshold, bonus and dice supply (no int64 overflow for the bound claims)", "why_tests_cant": "unbounded dice sequences", "anchors": ["pkg/core/object/u_roll_expr_result.go", "pkg/core/object/array.go: MaxInteger, SumOfIntegers", "pkg/core/command/execute_u_roll_expr.go"]}
{"id": "C29", "title": "U comparison: per-group successes", "statement": "The success count of a U comparison is the number of groups whose sum plus bonus satisfies op target.", "quantifier": "every roll list, threshold, bonus, operator, target and dice supply", "why_tests_cant": "unbounded dice sequences", "anchors": ["pkg/core/evaluator/eval_u_roll_comp.go"]}
{"id": "C30", "title": "The displayed bonus is the evaluated bonus", "statement": "Operand evaluation replaces the bonus of a U expression by +v, -|v| or nothing according to the value of the bonus expression, and evaluating it again yields that same value; it consumes no die.", "quantifier": "every bonus expression", "why_tests_cant": "unbounded expressions", "anchors": ["pkg/core/evaluator/eval_var_args.go: evalVarArgsInURollExpr", "pkg/core/notation/notation.go: FormatModifier"]}
{"id": "C31", "title": "CHOICE selects the item named by the die", "statement": "CHOICE with n items takes exactly one n-sided die; for a legal die d the answer is the d-th item; conversely each item is the answer for some legal die.", "quantifier": "every non-empty item list and every legal die", "why_tests_cant": "unbounded item lists", "anchors": ["pkg/core/evaluator/eval_choice.go", "pkg/core/command/execute_choice.go"]}
{"id": "C32", "title": "The only causes of crashes", "statement": "For every parsed command and every feeder of legal dice, execution never panics unless some roll's count can exceed 2^44, in which case the panic is that of the allocation. Without these conditions it can: a queued die whose value is outside 1..n crashes CHOICE, and a roll whose count exceeds the allocator's limit crashes RollDice.", "quantifier": "every parsed command and every feeder", "why_tests_cant": "all inputs", "anchors": ["pkg/core/evaluator/*.go (type assertions)", "pkg/core/evaluator/eval_choice.go", "pkg/core/dice/roller/roller.go: make"]}
{"id": "C33", "title": "CHOICE items are clean", "statement": "The items of a parsed CHOICE contain neither ',' nor ']' , carry no leading or trailing white space (in the sense of Unicode), and there is at least one.", "quantifier": "every input string", "why_tests_cant": "all input strings", "anchors": ["pkg/core/parser/parser.pigeon: Choice, ChoiceItems, ChoiceItem, ChoiceItemChars"]}
{"id": "C34", "title": "The echoed notation may denote another value", "statement": "There are commands whose echoed infix notation, parsed again, is accepted and denotes a different value: a division as right operand of a multiplication is printed without the parentheses it needs, e.g. C(2*(3/2)) is echoed as C(2*3/2).", "quantifier": "every calculation", "why_tests_cant": "all expressions; refuted by witness", "anchors": ["pkg/core/notation/notation.go: parenthesizeChildOfInfixExpression", "pkg/core/ast/basic_infix_expression.go: NewMultiply"]}
{"id": "C35", "title": "Notation round trip outside that defect", "statement": "For every calculation in which no multiplication has a division at the top level of its right operand's product, the echoed notation is accepted by the parser and the parsed command evaluates to the same value modulo 2^64 (or fails alike).", "quantifier": "every such calculation of any depth", "why_tests_cant": "unbounded depth", "anchors": ["pkg/core/notation/notation.go", "pkg/core/parser/parser.pigeon"]}
{"id": "C36", "title": "Every parsed command has a notation", "statement": "InfixNotation succeeds (no error, no crash) on every command the parser accepts, and on it after operand evaluation and after value determination.", "quantifier": "every input string and feeder", "why_tests_cant": "all input strings", "anchors": ["pkg/core/notation/notation.go: InfixNotation"]}
{"id": "C37", "title": "The parser terminates on every input", "statement": "parser.Parse returns a command or an error for every byte string; it never loops or overflows on left recursion.", "quantifier": "every byte string", "why_tests_cant": "all inputs; termination", "anchors": ["pkg/core/parser/parser.go", "pkg/core/parser/parser.pigeon"]}
{"id": "C38", "title": "Accepted commands have the promised shape", "statement": "A value returned by parser.Parse is a Choice, a calculation over pure integer arithmetic, a B/R/U list or comparison with rolls of exactly that kind whose operands contain only integers, arithmetic and random numbers, or a D expression/comparison; so every later type assertion on it succeeds.", "quantifier": "every byte string", "why_tests_cant": "all inputs", "anchors": ["pkg/core/parser/parser.pigeon", "pkg/core/evaluator/*.go", "pkg/core/command/*.go"]}
{"id": "C39", "title": "Commands are case-insensitive", "statement": "Changing the case of ASCII letters of an input does not change the parsed command, except for the text of CHOICE items.", "quantifier": "every input string and every change of case", "why_tests_cant": "all inputs", "anchors": ["pkg/core/parser/parser.pigeon ('D'i, 'B'i, 'R'i, 'U'i, 'C'i, [ur]i, \"CHOICE[\"i)"]}
{"id": "C40", "title": "A D command always contains a random element", "statement": "If the parser returns a D expression or D comparison, it contains at least one roll or random number; purely arithmetic input is rejected (it must be written C(...)).", "quantifier": "every input string", "why_tests_cant": "all inputs", "anchors": ["pkg/core/parser/parser.pigeon: DRollExprCommand, DRollCompCommand, IncRandCount, ResetRandCount"]}
{"id": "C41", "title": "Comments after white space do not change a command", "statement": "If an input consists of a command without white space followed by white space and arbitrary text, and the whole text is not itself a command, ExecuteCommand gives the result of the bare command.", "quantifier": "every command text, white space and trailing text", "why_tests_cant": "all inputs", "anchors": ["pkg/bcdice/bcdice.go: ExecuteCommand, commandFirstPartRe"]}
{"id": "C42", "title": "What must follow a command", "statement": "B, R, U and D commands are accepted only if nothing follows them, whereas C(...) and CHOICE[...] are accepted with arbitrary (valid) text following immediately.", "quantifier": "every input and every trailing text", "why_tests_cant": "all inputs", "anchors": ["pkg/core/parser/parser.pigeon: Command, CommandWithExpression, EOT"]}
{"id": "C43", "title": "Secret marker", "statement": "A leading s or S makes IsSecret true and is otherwise ignored: the result equals that of the rest of the input except for the flag; without it the flag is false.", "quantifier": "every valid-UTF-8 input and feeder", "why_tests_cant": "all inputs", "anchors": ["pkg/core/util/secret_roll.go", "pkg/bcdice/bcdice.go: ExecuteCommand"]}
{"id": "C44", "title": "Message format", "statement": "Message() is the game ID, ' : ', and the parts joined by ' ＞ '; the parts of each successful command kind are as documented, the first being its notation.", "quantifier": "every successful command", "why_tests_cant": "all commands", "anchors": ["pkg/core/command/result.go", "pkg/core/command/execute_*.go"]}
{"id": "C45", "title": "Parsing cost is exponential in the nesting of divisions", "statement": "The accepted commands C(1), C((1/1)), C((1/(1/1))), ... with n nested divisions have 4n+4 bytes, and parsing one of them tries at least 2^n expressions; hence no polynomial in the length of the input bounds the work of the parser.", "quantifier": "every nesting depth n; every polynomial", "why_tests_cant": "asymptotic claim", "anchors": ["pkg/core/parser/parser.go: parseExpr, ExprCnt", "pkg/core/parser/parser.pigeon"]}
{"id": "C46", "title": "Precedence and left associativity", "statement": "A chain a1 op1 a2 op2 ... of integer literals with + - * / parses to the tree in which * and / bind tighter than + and -, and operators of equal precedence associate to the left.", "quantifier": "every chain length, every literals, every operators", "why_tests_cant": "unbounded chain length", "anchors": ["pkg/core/parser/parser.pigeon: IntExprAdditive, IntExprMultitive", "pkg/core/parser/parser.go: leftAssociativeAdditive, leftAssociativeMultitive"]}
{"id": "C47", "title": "REPL commands give specified dice back", "statement": "In the REPL, with a dice queue set, executing a command or a roll leaves the queue content as it was before, whether it succeeds or fails.", "quantifier": "every REPL state and input line", "why_tests_cant": "all histories", "anchors": ["cmd/GoBCDiceREPL/repl/repl.go: eval, rollDice"]}
{"id": "C48", "title": "REPL feeder stays consistent", "statement": "After any sequence of REPL commands the feeder shown to the user, the one used by .roll and the one used by BCDice are the same, and the queue operations never hit a failed type assertion.", "quantifier": "every command history", "why_tests_cant": "unbounded histories", "anchors": ["cmd/GoBCDiceREPL/repl/repl.go: setDieFeeder, setDiceQueue, clearDiceQueue"]}
{"id": "C49", "title": "The REPL does not terminate at end of input", "statement": "Once the input is exhausted the read-eval-print loop of Start never returns: the break leaves only the switch, so the loop continues for ever (printing prompts).", "quantifier": "every finite input without .quit", "why_tests_cant": "non-termination", "anchors": ["cmd/GoBCDiceREPL/repl/repl.go: Start"]}
{"id": "C50", "title": "Dice text round trip", "statement": "ParseDice reads back what FormatDice and FormatDiceWithoutSpaces write, for every list of dice with non-negative int values. It accepts exactly the dice notation (nothing, or comma-separated entries 'digits/digits' with white space around, numbers saturating at the greatest int); every other text, in particular one with a malformed entry, is an error. The error names the first entry that is no die, by position and quoted.", "quantifier": "every list of dice of any length; every text", "why_tests_cant": "unbounded lists and numbers", "anchors": ["pkg/core/dice/die.go: FormatDice, FormatDiceWithoutSpaces", "pkg/dicebot/testing/testcase.go: ParseDice"]}
{"id": "C51", "title": "Test case files", "statement": "A test case written as input lines, output and rand lines is read back exactly, and so is a file of such cases, numbered 1, 2, ... in file order; for any content, ParseFile and ParseFiles number the cases consecutively from 1. An arbitrary source is cut at the last 'output:' line that a 'rand:' line follows and then at the last 'rand:' line; a source that cannot be cut is an error. Errors name the system and number of the first bad case, after the name of the first bad file.", "quantifier": "every test-case content; every list of files", "why_tests_cant": "unbounded files", "anchors": ["pkg/dicebot/testing/testcase.go: Parse, ParseFile"]}
{"id": "C52", "title": "Game list", "statement": "Find succeeds exactly for the identifiers listed by AvailableGameIDs(true) and returns the registered bot; the list is duplicate-free, bytewise sorted and complete. Selecting an unknown identifier is an error and changes nothing; after any selections the bot is that of the last known identifier selected. The feeder is never touched. AvailableGameInfos gives the identifier, name and sort key of every registered bot exactly once, ordered by sort key, preceded by the basic bot if asked for. The order in which the map of games is walked cannot be seen: it changes neither the bots found nor the list of identifiers, and the list of descriptions only among games with equal sort keys, whose order is not determined.", "quantifier": "every game identifier, every content of the registry, every selection history", "why_tests_cant": "all strings and histories", "anchors": ["pkg/dicebot/list/list.go", "pkg/bcdice/bcdice.go: SetDiceBotByGameID"]}
{"id": "C53", "title": "Commands are isolated from each other", "statement": "In any session on one BCDice (inputs and changes of the game system, in any order) each command takes its own consecutive segment of the dice queue, and its outcome, success or error, is the one a new BCDice with the same dice bot and exactly this segment would give: no dice or state of an earlier command appear in a later outcome. The dice bot in use depends on the game selections only.", "quantifier": "every session of inputs and game selections, of any length, every queue and registry", "why_tests_cant": "unbounded histories", "anchors": ["pkg/bcdice/bcdice.go: ExecuteBasicCommand", "pkg/core/evaluator/environment.go: NewEnvironment"]}
{"id": "C54", "title": "S-expressions of parsed commands: exact text, unambiguous", "statement": "The S-expression of every command returned by parser.Parse is the bracketed prefix notation of its tree (node name, operator, operands in order, omitted thresholds as nil, items of CHOICE quoted as strconv.Quote does; plain texts are quoted as they are). Two commands returned by parser.Parse with the same S-expression are equal trees, whatever characters count as printable; in particular for integer expressions and for CHOICE items. So the S-expression based parser tests and the REPL's .ast identify the tree.", "quantifier": "every command the parser returns, every pair of them; every pair of integer expressions", "why_tests_cant": "all pairs of trees", "anchors": ["pkg/core/ast/*.go: SExp"]}
{"id": "C55", "title": "API responses carry consistent status", "statement": "A JSON response has the given status, ok=true exactly when its status is 200 (whatever the body contained), and otherwise the body it was given; every route of the server answers 200/ok. The four routes carry the stated contents (greeting, configured versions, list of systems, list of names with sort keys) and no other path is routed.", "quantifier": "every status and body", "why_tests_cant": "all statuses", "anchors": ["cmd/GoBCDiceAPI/helpers/response.go"]}
{"id": "C56", "title": "The echo of a calculation is a fixed point", "statement": "For every accepted calculation the echoed notation is itself an accepted calculation, and its own echo is the same text.", "quantifier": "every accepted calculation of any size", "why_tests_cant": "all expressions", "anchors": ["pkg/core/notation/notation.go: InfixNotation", "pkg/core/parser/parser.pigeon"]}
{"id": "C57", "title": "Replay and locality of ExecuteCommand", "statement": "If ExecuteCommand succeeds with any feeder (random ones included), then a queue feeder holding the dice it took, followed by any other dice, gives the identical result and leaves exactly the other dice. With a queue, dice that are left over were not looked at: replacing them by any others does not change the outcome.", "quantifier": "every input (shorter than 2^61 bytes), dice bot, feeder, and continuation of the queue", "why_tests_cant": "all inputs, all feeders and all continuations; includes dice lost by a failed first attempt", "anchors": ["pkg/bcdice/bcdice.go: ExecuteCommand", "pkg/dicebot/gamesystem/basic/basic.go", "pkg/core/command/command.go"]}
{"id": "C58", "title": "Test cases: exact verdict, and recorded executions pass", "statement": "A dice-bot test case passes exactly if an empty output is expected and its first input line is an error, or the line is executed with exactly the expected text (message, plus the secret suffix if secret) and all its dice are used up. A successful execution by the basic bot, recorded with the dice taken, is a passing test case, also after being written to a test-data file and read back.", "quantifier": "every test case; every input, feeder and file of well-formed cases", "why_tests_cant": "all test cases and files", "anchors": ["pkg/dicebot/testing/testcase.go", "pkg/dicebot/testing/testing.go", "pkg/bcdice/bcdice.go: ExecuteCommand"]}
{"id": "C59", "title": "ExecuteCommand executes one command, at most twice", "statement": "ExecuteCommand tries two readings of its input (whole text, then the first word). For each input either no reading is a command and every call is an error taking no dice, or there is one command such that every call executes this command once, or a second time after a failure: the two readings never are different commands. The result is that of the last execution with the secret flag of the input; errors and panics are those of an execution.", "quantifier": "every input (shorter than 2^61 bytes), dice bot and feeder", "why_tests_cant": "all inputs: the two readings could disagree on any text", "anchors": ["pkg/bcdice/bcdice.go: ExecuteCommand", "pkg/core/parser/parser.pigeon"]}
{"id": "C60", "title": "ExecuteCommand does not crash on legal dice", "statement": "With a die feeder that supplies legal dice (a queue of dice each showing 1..sides, or a random source honouring the contract of Intn), ExecuteCommand on any text returns a result or an error; the only panic it can raise is the run-time's refusal to allocate room for too many dice (makeslice: cap out of range), and then only if the command in the text has a roll whose number of dice can exceed 2^44. No index, type assertion or nil dereference fails.", "quantifier": "every input text (shorter than 2^61 bytes), dice bot, and legal feeder", "why_tests_cant": "all byte strings and all dice sequences; a crash may hide behind any combination", "anchors": ["pkg/bcdice/bcdice.go: ExecuteCommand", "pkg/core/dice/roller/roller.go: RollDice", "pkg/core/evaluator/evaluator.go: Eval"]}
{"id": "C61", "title": "Case-insensitivity of ExecuteCommand", "statement": "Two inputs that differ only in the case of ASCII letters take the same dice and have outcomes of the same kind: the identical error text, or equal game id, dice, verdict and secret flag, and message parts equal up to the case of letters (items of CHOICE are shown as typed). Unless the command is a CHOICE, a successful result is identical.", "quantifier": "every pair of inputs equal up to ASCII case, every dice bot and feeder", "why_tests_cant": "all inputs and all ways to capitalise them", "anchors": ["pkg/bcdice/bcdice.go: ExecuteCommand", "pkg/core/util/secret_roll.go: CheckIfInputMayBeASecretRoll", "pkg/core/parser/parser.pigeon"]}
{"id": "C62", "title": "The announced command reproduces the roll", "statement": "A successful roll announces, in parentheses in the first part of its message, a command in which all operands are evaluated. Entering that text as a command, with the dice the roll reported (those that determined operands dropped), gives the same message, verdict and dice and leaves all further dice. Exceptions, each shown by a counterexample or excluded by name: a multiplication whose right operand has a quotient among its factors (echoed without its parentheses), the value -2^63 as a target or bonus, more than 10000 rerolls in one command, items of CHOICE consisting of white space only.", "quantifier": "every input, feeder and successful execution reporting dice; every further content of the queue", "why_tests_cant": "relates the printer, the evaluator and the parser for all commands and all dice", "anchors": ["pkg/core/notation/notation.go: InfixNotation", "pkg/core/command/", "pkg/core/parser/parser.pigeon", "pkg/bcdice/bcdice.go: ExecuteCommand"]}
{"id": "C63", "title": "REPL commands say and do what the manual states", "statement": "In every reachable REPL state, each line that is a command (.help, .list-games, .set-game, .ast, .eval, .set-die-feeder, .set-dice-queue, .roll …) prints exactly the documented output — the manual, the game list, the S-expression of the parsed command or the parse error, the value or the error, the usage line when the argument is missing — and changes only the part of the state that the command is about; every other part is left as it was.", "quantifier": "every REPL history, every command, every argument text", "why_tests_cant": "all argument texts and all histories", "anchors": ["cmd/GoBCDiceREPL/repl/repl.go: Start, handlers of the commands"]}
{"id": "C64", "title": "Validation messages of the API", "statement": "After any sequence of Add, ValidateMinValue, ValidateMaxValue and Clear operations, the message of a field is the one recorded last for it since the last Clear (a check records only when the value is strictly outside its bound), fields never recorded have none, and HasMessages holds exactly when some field has a message; checks that all succeed leave none.", "quantifier": "every sequence of operations, all values, bounds, fields and messages", "why_tests_cant": "all histories", "anchors": ["cmd/GoBCDiceAPI/helpers/errors.go"]}
{"id": "C65", "title": "Queues and dice logs share no memory with callers", "statement": "After any sequence of constructor and method calls on dice queues (NewQueue, Push, Append, Set, Clear, Next, Dice, Remaining) and on the dice log of an environment (NewEnvironment, PushRolledDie, AppendRolledDice, ClearRolledDice, RolledDice), mixed with any stores into, reslicings of, appends to and copies between the slices the caller passed in or got back, every object contains and answers what a plain list holding copies would; no object changes another, and no method changes what any slice of the caller shows.", "quantifier": "every history of calls and of writes by the caller, every growth policy of append", "why_tests_cant": "aliasing depends on the history and on the capacities the runtime chooses", "anchors": ["pkg/core/dice/feeder/queue.go: Queue", "pkg/core/evaluator/environment.go: Environment"]}
{"id": "C66", "title": "Result objects: maximum, sum, unambiguous text", "statement": "MaxInteger and SumOfIntegers succeed exactly for arrays of integers: the first with the largest element (0 for an empty array), the second with the sum in 64-bit arithmetic. Two result objects for which Inspect returns the same text are the same object, strings and nested arrays included.", "quantifier": "every array, every pair of result objects", "why_tests_cant": "all arrays; all pairs of objects", "anchors": ["pkg/core/object/array.go: MaxInteger, SumOfIntegers, Inspect", "pkg/core/object/*.go: Inspect"]}
{"id": "C67", "title": "Evaluation in place on nodes in memory", "statement": "A syntax tree is a set of mutable nodes linked by pointers, and execution replaces children in place, shares nodes (the sides node of new R rolls, shallow copies of bonuses) and prints in the middle of it. Executing a command whose nodes are not shared gives exactly the reply, error or panic of the command as a value, takes and logs the same dice, and - whether it succeeds or not - changes no node outside the command, so every other tree in memory stays what it was. Eval, InfixNotation and SExp change no existing node. EvalVarArgs and DetermineValues leave at the same address the tree of their value versions, again unshared. Every tree the parser makes is unshared.", "quantifier": "every memory, every tree in it without sharing, every dice feeder and log, every fuel above the number of nodes; every parsed input", "why_tests_cant": "all memories, trees, dice sequences; absence of any write outside the command", "anchors": ["pkg/core/evaluator/*.go: Eval, EvalVarArgs, DetermineValues, evalRRollList, evalURollList", "pkg/core/notation/notation.go: infixNotationOfURollExpr (Clone)", "pkg/core/ast/u_roll_expr.go: SExp (Clone)", "pkg/core/util/clone.go: Clone", "pkg/core/command/*.go: Execute*"]}
{"id": "C68", "title": "What a syntax error says", "statement": "For a text in valid UTF-8 Parse never panics, and its error is one of exactly two: \"random element not found\" at 1:1 with the rule that wanted dice; or \"no match found\" at line:column (byte offset) of one character of the text (or its end), followed by a non-empty list of what could stand there, sorted, without repetitions, EOF last, in the words of a fixed vocabulary of 27 items. Nothing after the sixth character behind that character has any influence: every valid text that agrees up to there is rejected with the same message. Different characters have different places.", "quantifier": "every text in valid UTF-8, every file name, every other continuation of the text", "why_tests_cant": "all texts and all continuations", "anchors": ["pkg/core/parser/parser.go: Parse, failAt, read, addErrAt, listJoin, errList.Error, parserError.Error", "pkg/core/parser/parser.pigeon"]}
{"id": "C69", "title": "The suggestions of a syntax error help, and nothing else does", "statement": "When Parse reports \"no match found, expected: ...\" at some character, then for every item of that list and every text that agrees with the rejected one before that character and continues as the item says, Parse accepts the new text, or finds only dice missing, or reports a place strictly further on. No suggestion leads to a message at the same place or before it. Conversely, every text that agrees before that character and continues as none of the items says (and does not thereby complete a multi-character word begun earlier) is rejected with the same message at the same character.", "quantifier": "every rejected text in valid UTF-8, every item of its message, every continuation beginning with that item", "why_tests_cant": "all texts and all continuations", "anchors": ["pkg/core/parser/parser.go: failAt, parseChoiceExpr, parseLitMatcher, parseCharClassMatcher, parseNotExpr", "pkg/core/parser/parser.pigeon"]}
{"id": "C70", "title": "When a random element is missing", "statement": "If Parse reports \"random element not found\", the text does begin with arithmetic on numbers only (followed by a comparison with a number when the message names the rule of comparisons, and only then). Conversely every text that is such arithmetic, or such a comparison, gets exactly this message, with the rule DRollExprCommand or DRollCompCommand respectively, whether the text ends there or goes on with a character that belongs to no roll (such as a space).", "quantifier": "every text in valid UTF-8, every file name, every integer expression, every comparison, every continuation", "why_tests_cant": "all expressions and all continuations", "anchors": ["pkg/core/parser/parser.pigeon: DRollExprCommand, DRollCompCommand, IncRandCount, ResetRandCount", "pkg/core/parser/parser.go: addErrAt, parseActionExpr"]}
{"id": "C71", "title": "Possible totals", "statement": "With legal dice the totals an additive roll can show are exactly the values of its arithmetic with any number from x to x*y in place of each roll xDy, and any number of its range in place of each random number in an operand: nothing else can come out, and everything of this kind does for some dice. In particular xDy shows every total from x to x*y and no other. A comparison can succeed (fail) exactly if some possible total satisfies (does not satisfy) it.", "quantifier": "every additive roll expression, comparison operator and target, every queue of legal dice and every random source", "why_tests_cant": "all expressions and all dice; impossibility of a total is a statement about every execution", "anchors": ["pkg/core/evaluator/determine_values.go", "pkg/core/evaluator/eval_infix_expression.go: evalRandomNumber", "pkg/core/command/execute_d_roll_expr.go", "pkg/core/command/execute_d_roll_comp.go", "pkg/core/dice/roller/roller.go: RollDice"]}
{"id": "C72", "title": "Queued and random dice can do the same", "statement": "The results ExecuteCommand can return with a queue of legal dice are exactly those it can return with a random source honouring the contract of Intn: whatever has been reproduced or tested with queued dice can happen at the table and vice versa.", "quantifier": "every input text (shorter than 2^61 bytes), dice bot, result; every legal queue, every random source", "why_tests_cant": "all inputs, all queues and all random sources", "anchors": ["pkg/bcdice/bcdice.go: ExecuteCommand", "pkg/core/dice/feeder/queue.go: Next", "pkg/core/dice/feeder/mt19937.go: Next", "pkg/core/dice/roller/roller.go: RollDice"]}
{"id": "C73", "title": "How many dice a command takes", "statement": "A successful additive or basic roll takes one die per random number in its operands and as many further dice as its counts add up to. A successful R roll takes at most 10000 times its largest count, a successful U roll at least the sum of its counts and at most 10000 times that (or, with a hint, none), in addition to the dice of its operands. No dice sequence makes a command roll on without end. Whatever the outcome (result, error or crash), with legal dice a command whose counts cannot exceed m takes at most one die per random number in its operands plus: nothing for a calculation, one for a CHOICE, m per roll for additive and basic rolls, 10000*m for R, 10000*m per roll for U; ExecuteCommand takes at most twice that (both attempts may fail after taking dice).", "quantifier": "every command, every feeder, every outcome; every text for ExecuteCommand", "why_tests_cant": "all commands and all dice sequences, including those that always ask for another roll", "anchors": ["pkg/core/evaluator/eval_r_roll_list.go", "pkg/core/evaluator/eval_u_roll_expr.go", "pkg/core/evaluator/eval_b_roll_list.go", "pkg/core/evaluator/determine_values.go", "pkg/core/evaluator/evaluator.go: MaxRerolls"]}
{"id": "C74", "title": "The dice are as fair as the random source", "statement": "With random dice, the numbers used by an execution are the next answers of the source, in order, one per die, asked for with that die's number of sides (answer + 1 is shown); none is skipped or used twice, whatever the input and its outcome. Hence, counting over all s^n equally likely lists of answers: nDs shows the total v in exactly as many cases as n dice can sum to v; nDs compared with a number succeeds in exactly the cases of the satisfying totals; the success count of nBs compared with a number is binomially distributed; CHOICE selects an item in proportion to its number of occurrences.", "quantifier": "every input, source, number of dice and sides, total, target, item list", "why_tests_cant": "a statement about all lists of answers for all sizes; tests sample a distribution at best", "anchors": ["pkg/core/dice/feeder/mt19937.go: Next", "pkg/core/dice/roller/roller.go: RollDice", "pkg/core/evaluator/evaluator.go", "pkg/core/command"]}
{"id": "C75", "title": "Texts that are not valid UTF-8", "statement": "Parse reads a text with broken bytes as if there were question marks instead of them (in the same places). If it accepts the text, it gives the tree of the text so mended. If it rejects it, the message consists of different lines; each of them tells the line, column and byte offset of a byte that really is broken, or it is the error of the mended text. If the mended text cannot be read on at some place, every broken byte up to and including that place is reported. The mended text is valid and has the same length.", "quantifier": "every string of bytes, every file name", "why_tests_cant": "any byte sequence at any position in any command", "anchors": ["pkg/core/parser/parser.go: Parse, read, addErrAt, failAt, errList", "pkg/core/parser/parser.pigeon"]}
{"id": "C76", "title": "What is typed is what is executed", "statement": "A text is understood by ExecuteCommand exactly if it consists of an optional s or S, the text of one command of the command language, and what may follow it: nothing, or white space and a comment (after C(...) and CHOICE[...] any text). Then exactly this command is executed with the current game system - once, or possibly a second time if it failed - and the result is secret exactly if there is the mark; the text determines the command and the mark. Any other text is an error and takes no die. In particular the totals, verdicts, success counts and choices of typed texts have the ranges of C71 and the chances of C74.", "quantifier": "every valid UTF-8 text shorter than 2^61 bytes, every command, every feeder, every game identifier", "why_tests_cant": "all texts of a recursive grammar with arbitrary comments, both directions", "anchors": ["pkg/bcdice/bcdice.go: ExecuteCommand", "pkg/dicebot/dicebot.go: ExecuteCommand", "pkg/core/parser/parser.pigeon", "pkg/core/command/command.go: Execute"]}
{"id": "C77", "title": "The random dice of a seeded feeder", "statement": "The number that decides a random die (rand.Intn of the sides) is unbiased: if the source's raw numbers are uniform on [0, 2^63), each of the results 0, ..., n-1 is reached by equally many sequences of raw numbers, and the sequences that are still being rejected after t numbers are a t-th power of less than half of all numbers. With any source of such numbers, a session of commands that ends is a session with an oracle that keeps Intn's contract, so every property proved for all random feeders (legal dice, ranges, chances) holds for the real feeder; in particular every die reported with NewMT19937(seed) is a face of its die, for every seed. The generator's state stays 312 words of 64 bits, no word beyond them is read, its k-th number is the tempered (312+k)-th word of the published MT19937-64 sequence for the seed, tempering loses no information, and Seed() returns the seed however many dice have been taken.", "quantifier": "every number of sides, every source, every seed, every sequence of inputs, every number of calls", "why_tests_cant": "counts over 2^63 raw numbers, all seeds and all sessions", "anchors": ["pkg/core/dice/feeder/mt19937.go: NewMT19937, Next, Seed, CanSpecifyDie", "pkg/core/dice/roller/roller.go: RollDice", "pkg/bcdice/bcdice.go: ExecuteCommand"]}
{"id": "C78", "title": "How the bytes of a text are read as characters", "statement": "Every text is read in one way as a sequence of characters: where it goes on with a Unicode scalar value (no surrogate) written in the shortest UTF-8 form, that character is read; where it does not, one byte is read as a broken character. A text has no broken character exactly if it is a list of scalar values written in UTF-8, and then these are the characters; no character is the beginning of another. Cutting the secret mark off writes the remaining characters as UTF-8 again.", "quantifier": "every string of bytes, every scalar value", "why_tests_cant": "all byte sequences of any length; 1112064 scalar values", "anchors": ["pkg/core/parser/parser.go: read", "pkg/core/util/secret_roll.go: CheckIfInputMayBeASecretRoll"]}
{"id": "C79", "title": "The complete answer to a text", "statement": "If the input is an optional mark, the text of a command and what may follow it, and the feeder's next dice are those of one of the command's replies (the list of replies says for every kind of command which dice it takes and which message parts, dice and verdict it then answers), then ExecuteCommand answers exactly this reply, with the mark's secrecy and the current game's identifier, and takes exactly these dice. Nothing else is ever answered; dice are lost before an answer only if no reply of the command fits the feeder. At most one reply fits. The values in the replies are those of 64-bit arithmetic: wrapping +, -, *, truncating /, and /U and /R rounded from the float64 quotient of the float64 operands, for all operands; C(...) fails exactly if a divisor is zero.", "quantifier": "every valid UTF-8 text shorter than 2^61 bytes, every command, every list of dice and every random feeder", "why_tests_cant": "all texts, all dice, all arithmetic values: full functional correctness", "anchors": ["pkg/bcdice/bcdice.go: ExecuteCommand", "pkg/core/command/command.go: Execute", "pkg/core/command/execute_*.go", "pkg/core/evaluator/eval_infix_expression.go", "pkg/core/parser/parser.pigeon"]}
{"id": "C80", "title": "Why an accepted command can fail", "statement": "An accepted command fails only for one of these reasons, and the error is then exactly the message of that reason: a division by zero in a number of the command, in an operand of a roll or in the total of a D command (message: the dividend, with values these parts can have); a random number [lo...hi] whose bounds leave no number or more than an int can count; a roll whose number of dice or sides can come out below 1; a use of random numbers or computed operands that D commands do not support; or dice given in advance that run out or have the wrong number of sides. With a source of random numbers the last one is impossible. A command whose rolls have written positive numbers and whose divisors are written and not 0 always gets an answer. A typed text gets an error only if its command fails so; the error is that message, or the syntax error of the text's first word.", "quantifier": "every command, every source of random numbers, every list of dice, every text that types a command", "why_tests_cant": "that no other error exists, and that the unproblematic commands never fail, is a statement about all commands, dice and random answers", "anchors": ["pkg/core/evaluator/eval_*.go", "pkg/core/command/execute_*.go", "pkg/core/dice/roller/roller.go: RollDice", "pkg/bcdice/bcdice.go: ExecuteCommand"]}
{"id": "C81", "title": "Upper bound of the cost of parsing", "statement": "On every input the parser finishes, and the number of expressions it tries is at most 3311 * (length of the input in bytes + 1) * 3^d, where d is how deeply brackets are nested in the input. For a fixed nesting depth the work is therefore linear in the length: long sums, long lists of rolls, long comments and long runs of digits cost a constant per byte; only nesting of brackets costs exponentially (C45), with a base between 2 and 3.", "quantifier": "every byte string (accepted or not), every length and every nesting depth", "why_tests_cant": "a bound on the work for inputs of every length and shape is not settled by timing some inputs: C45 shows that short inputs can already be exponential", "anchors": ["pkg/core/parser/parser.peg (all rules)", "pkg/core/parser/parser.go: parseExprWrap, parseSeqExpr, parseChoiceExpr, parseZeroOrMoreExpr; Stats.ExprCnt"]}
{"id": "C82", "title": "When re-rolls and exploding dice come to an end, and how likely that is", "statement": "An R or U command with written numbers that begins with n dice of s sides and has threshold t >= 2 ends exactly when n dice below t have come up: with a sequence of (fewer than 10000) dice it gives a result, having taken just these dice, iff all have s sides, the last is below t and it is the n-th that is. With a fair source the number of lists of k answers with which it takes exactly k dice is C(k-1,n-1) * (t-1)^n * (s-t+1)^(k-n) (a negative binomial distribution), and the number of successes of nRs>=t is k-n, so j successes come from C(n+j-1,n-1) * (t-1)^n * (s-t+1)^j of the s^(n+j) lists.", "quantifier": "every R and U command (list or comparison, threshold given or taken from the target, any bonus) of sums of rolls with the same number of sides, every number of dice, sides and threshold, every sequence of dice, every number of dice taken", "why_tests_cant": "the order in which dice are re-rolled and the stopping rule must be right for every sequence of dice; a distribution is a statement about all sequences", "anchors": ["pkg/core/command/execute_r_roll_list.go, execute_r_roll_comp.go, execute_u_roll_expr.go, execute_u_roll_comp.go", "pkg/core/evaluator/eval_r_roll_list.go: evalRRollList", "pkg/core/evaluator/eval_u_roll_expr.go: evalURollList, evalCompoundingRoll"]}
{"id": "C83", "title": "Averages", "statement": "Over all s^n equally likely lists of answers of the random source the average total shown by nDs is n(s+1)/2, totals equally far from this average are equally likely, and the average number of successes shown by nBs compared with a target, where m of the faces 1..s satisfy the comparison, is nm/s.", "quantifier": "every number of dice n >= 1 and sides s >= 1 within the limits of memory and of machine integers, every total, every comparison operator and target", "why_tests_cant": "an average over all outcomes for every n and s: simulations only come near it, and an off-by-one of faces (0..s-1, or 1..s+1) shifts it by a small amount", "anchors": ["pkg/core/dice/roller/roller.go", "pkg/core/dice/feeder/mt19937.go: Next", "pkg/core/evaluator/eval_infix_expression.go: evalSumRoll, countNumOfSuccesses", "pkg/core/command/execute_d_roll_expr.go, execute_b_roll_comp.go"]}
{"id": "C84", "title": "The responses of the API as JSON texts", "statement": "The body of every response of the API server, plain or indented (query parameter pretty), is valid UTF-8 and a JSON text (RFC 8259): reading it gives back exactly the keys and values of the response, keys in ascending order, strings character by character (a broken UTF-8 byte as U+FFFD), integers exactly. For every content of the registry of games and all version texts the four routes read back as the documented objects. The text contains no <, >, &, U+2028 or U+2029 and, when not indented, no control character, whatever the strings in the response are.", "quantifier": "every response (any status, any body: any keys, strings of arbitrary bytes, integers, nested lists, maps and structs), every registry, indented or not", "why_tests_cant": "escaping must be right for every string and nesting; a test compares some bodies", "anchors": ["cmd/GoBCDiceAPI/helpers/response.go: JSONResponse, JSONResponseArray, JSONResponseError", "cmd/GoBCDiceAPI/models/*.go: ToResponseMap", "cmd/GoBCDiceAPI/controllers/root.go, controllers/v1/*.go", "pkg/dicebot/list/list.go: SystemInfo, AvailableGameIDs, AvailableGameInfos"]}
{"id": "C85", "title": "The odds of any additive or basic roll with written numbers", "statement": "For an additive roll with any arithmetic over written numbers and rolls nDs of any sides (such as 2D6+1D10*2-3), a fair source of random numbers leads to each total, to SUCCESS in a comparison, and to a failure by division by zero as often as there are combinations of the faces of its dice for which ordinary arithmetic gives that total, satisfies the comparison, or divides by zero (numbers up to 2^52; list by list also beyond, with 64-bit arithmetic). Without division the average total is the value of the expression with n(s+1)/2 in place of each nDs. The number of successes of n1Bs1+n2Bs2+... compared with a number is distributed as the faces of the individual dice say.", "quantifier": "every expression of the given form (any size, any numbers within the bounds), every comparison, every list of answers of the random source; every way to type the command", "why_tests_cant": "the statement counts all answers of the source for all expressions; a test looks at some expressions and some answers", "anchors": ["pkg/core/command/execute_d_roll_expr.go: executeDRollExpr", "pkg/core/command/execute_d_roll_comp.go: executeDRollComp", "pkg/core/command/execute_b_roll_comp.go: executeBRollComp", "pkg/core/evaluator/determine_values.go: DetermineValues", "pkg/core/evaluator/eval_infix_expression.go", "pkg/core/dice/feeder/mt19937.go: Next"]}
{"id": "C86", "title": "The report of the test runner", "statement": "Run loads the named files and makes one subtest per test case, in order, numbered through all files; a subtest passes exactly if the basic bot's answer to the first line (with the mark of a secret roll) is the expected output and every die of the case was taken, or if an empty output is expected and the command fails; otherwise it reports exactly what went wrong: the error, the missing error, answer and expected output quoted so that both can be read back, and the dice that were left, which are the last dice of the case. Names of subtests are pairwise different and tell number, line and dice. Files that cannot be loaded give one message and no subtests; only a panic of an execution ends a run early, after the reports of the cases before it. Adding files leaves earlier subtests as they were. Any series of executions, by queued or random dice, succeeding or failing, recorded as line, answer and dice taken, makes a file for which the run is green.", "quantifier": "every list of files with arbitrary contents, every test case, every series of executions that can be written to a file (line not empty, without line feed, not the separator line; dice whose numbers can be written)", "why_tests_cant": "the runner judges the tests; tests of it would use a few files, while a verdict must be right for all answers, texts and dice", "anchors": ["pkg/dicebot/testing/testing.go: Run", "pkg/dicebot/testing/testcase.go: ParseFiles, ParseFile, Parse", "pkg/core/dice/die.go: FormatDice, FormatDiceWithoutSpaces", "pkg/bcdice/bcdice.go: ExecuteCommand"]}
{"id": "C87", "title": "An answer is one line of valid text", "statement": "The message of every successful execution is valid UTF-8, whatever bytes were typed; and every control character in it (line feeds included) occurs in the typed text or in the game id: the bot adds none, so the answer to a line typed without control characters is a single line.", "quantifier": "every command text (arbitrary bytes), every feeder, every execution that succeeds", "why_tests_cant": "the message contains parts of the text typed; no set of examples shows that no byte can leak in a broken or line-breaking form", "anchors": ["pkg/bcdice/bcdice.go: ExecuteCommand", "pkg/core/command/result.go: Message, JoinedMessageParts", "pkg/core/command/execute_choice.go: executeChoice", "pkg/core/notation"]}
{"id": "C88", "title": "The paths of test data files", "statement": "JoinWithTestData gives one path per name, in order; each names, seen from every directory, the place the name leads to from the directory testdata (a leading slash counts for nothing, .. leads out of it), is written in the shortest way (no empty names, no . and no .. behind a name), and for names of files in or below testdata is just testdata/ followed by the name. Cleaning a path never changes the place it names, leaves short paths alone, and gives two paths the same text exactly if they name the same place from every directory.", "quantifier": "every list of names, every path text (arbitrary bytes), every current directory", "why_tests_cant": "paths of any length and any mixture of slashes and dots; equality of texts is claimed exactly for equality of places", "anchors": ["pkg/dicebot/testing/testing.go: JoinWithTestData", "path/filepath (Go library): Join, Clean"]}
{"id": "C89", "title": "Options of the parser", "statement": "Without options Parse with options is Parse. With MaxExpressions(max) the result and the counted expressions are those of Parse if Parse tries at most max expressions; otherwise exactly max+1 are counted and the result is an error ending in the message about the limit, or with Recover(false) a panic with that message; InitState makes no difference to a command. A limit of 3311 (length+1) 3^depth never gets in the way, and below every limit there is a correct command of 4 (log2 max + 1) + 4 bytes on which the parser gives up. With AllowInvalidUTF8 a text is accepted exactly if it is with ? for each broken byte, the errors are those of that text, and what Parse accepts is accepted with the same tree. Memoize, however, is not harmless: it makes the parser reject 2D6.", "quantifier": "every text (arbitrary bytes), every limit (uint64), every initial state, with and without recovery", "why_tests_cant": "the limit may strike at any of the expressions of any text; equality with the parser without options is claimed for all of them", "anchors": ["pkg/core/parser/parser.go: Parse, MaxExpressions, Memoize, AllowInvalidUTF8, Recover, Entrypoint, InitState, newParser, parseExpr, parseRule, read"]}
{"id": "C90", "title": "Size of an answer", "statement": "The message of a successful command is, besides the identifier of the game system, at most 52 bytes long for each character of the command and 33 for each die reported: no short command brings about a long answer except by rolling many dice. What is said about a command that fails (valid text, random dice) is at most 405 bytes long, however long the command.", "quantifier": "every bot, every input (arbitrary bytes), every source of dice whose values are Go ints", "why_tests_cant": "a bound over all commands, nestings and dice; the numbers shown are not those typed but computed ones", "anchors": ["pkg/core/command/result.go: Message", "pkg/core/command: the executors' AppendMessagePart calls", "pkg/core/notation: InfixNotation", "pkg/bcdice/bcdice.go: ExecuteCommand", "pkg/core/parser/parser.go: parserError, listJoin", "pkg/core/evaluator: error texts"]}
{"id": "C91", "title": "Better dice", "statement": "If every die shows at least as much, then the total of an additive roll whose dice count upwards is at least as great, and the total of one whose dice count downwards at most as great; a success of such a roll stays a success when the comparison points the same way; and the number of successes of a B roll compared with >= or > does not fall (with <= or < does not rise). An easier target or a better modifier never lowers the chance of success, whatever is rolled. (Additive rolls with written numbers of dice and sides, such that no number in the computation can exceed 2^52; divisions by written numbers.)", "quantifier": "every such roll of any size and shape, every pair of lists of answers of the random source, every target and modifier", "why_tests_cant": "it compares all pairs of outcomes of all rolls, through rounding divisions and nested signs", "anchors": ["pkg/core/evaluator/eval_infix_expression.go", "pkg/core/evaluator/determine_values.go", "pkg/core/command/execute_d_roll_expr.go", "pkg/core/command/execute_d_roll_comp.go", "pkg/core/command/execute_b_roll_comp.go", "pkg/core/dice/roller/roller.go"]}
{"id": "C92", "title": "The same roll written differently", "statement": "Additive rolls that differ only by the laws of addition and multiplication, by putting rolls of equal dice together (1D6+1D6 and 2D6) or by reading dice from the opposite side (7-1D6 and 1D6) have the same odds: of equally many equally likely lists of answers of the random source, equally many lead to each total, to each verdict of a comparison and to a division by zero. The chances of a comparison and of the opposite one add up to 1, divisions by zero apart. B rolls of the same dice, in any order and however put together, have the same distribution of successes. (Written numbers; no number in the computation can exceed 2^52.)", "quantifier": "every pair of such rolls of any size and shape, every comparison, every target", "why_tests_cant": "it compares the complete distributions of arbitrary pairs of rolls; sampling can only estimate them", "anchors": ["pkg/core/evaluator/eval_infix_expression.go", "pkg/core/evaluator/determine_values.go", "pkg/core/command/execute_d_roll_expr.go", "pkg/core/command/execute_d_roll_comp.go", "pkg/core/command/execute_b_roll_comp.go", "pkg/core/dice/feeder/mt19937.go: Next"]}
{"id": "C93", "title": "Successive commands are independent", "statement": "When several commands are given one after another to one BCDice with a random source, each takes exactly its own dice, in turn, and has the result it would have alone on its own answers. So the chance that something given comes of each of them is the product of the chances for each command alone; what came of the earlier commands tells nothing about the next; the order of the commands does not matter for the chances; and a command given n times succeeds n times in m^n of the equally likely cases if once in m. (Commands whose dice do not depend on what the dice show: calculations, additive rolls with written numbers that cannot divide by zero, with or without a comparison, B rolls and their comparisons, and CHOICE; typed in any way.)", "quantifier": "every list of such commands of any length, every event about each result, every list of answers of the random source", "why_tests_cant": "it is about the joint distribution of results of arbitrarily long sequences of arbitrary commands; sampling can only estimate it", "anchors": ["pkg/bcdice/bcdice.go: ExecuteCommand", "pkg/core/dice/feeder/mt19937.go: Next", "pkg/core/dice/roller/roller.go", "pkg/core/evaluator/environment.go", "pkg/core/command/execute_d_roll_expr.go"]}
{"id": "C94", "title": "The order of the dice", "statement": "The total of an additive roll with written numbers depends on the sum of the dice of each single roll nDs only, not on which die shows what or in which order they fall, also where the arithmetic overflows; the same holds for the verdict of a comparison, for the total shown with it and for whether there is a division by zero. The number of successes of a B roll depends only on how often each number falls, even among dice with different sides.", "quantifier": "every such roll of any size and shape, every two lists of answers of the random source with the same sums (for B rolls: the same numbers in any order), every comparison and target", "why_tests_cant": "it compares all pairs of rearranged outcomes of all rolls", "anchors": ["pkg/core/evaluator/eval_infix_expression.go", "pkg/core/evaluator/determine_values.go", "pkg/core/command/execute_d_roll_expr.go", "pkg/core/command/execute_d_roll_comp.go", "pkg/core/command/execute_b_roll_comp.go", "pkg/core/dice/roller/roller.go"]}
