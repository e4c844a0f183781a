{"id": "C01", "title": "Every delivered transaction balances", "statement": "Whenever Parser.Parse hands a transaction (or the transaction of a '~' budget entry) to its handler, the int64 sum of the quantities of its postings is zero (a posting still without an amount counts as zero).", "quantifier": "every file system content, every root path, every include structure, every delivered transaction", "why_tests_cant": "The space of journal texts, include graphs and amount values (with int64 wrap-around) is unbounded; a test shows the sum for a handful of journals.", "anchors": ["journal/transaction.go:Transaction.Close", "parser/transactionbuilder.go:endNormalTransaction", "parser/parser.go:Parser.Parse"]}
{"id": "C02", "title": "Elided amount is inferred exactly; unbalanced transactions are rejected", "statement": "When a transaction closes: if the given amounts sum to s<>0 and one posting has no amount, exactly that posting receives the amount -s with the commodity of the last posting that names one, and nothing else in the transaction changes; if no posting is without amount and s<>0, Close returns the error 'transaction does not balance' and nothing is delivered; if s=0 nothing changes.", "quantifier": "every transaction value the builder can hold at closing time", "why_tests_cant": "Needs all combinations of posting lists, position of the elided posting and int64 values.", "anchors": ["journal/transaction.go:Transaction.AddPosting", "journal/transaction.go:Transaction.Close"]}
{"id": "C03", "title": "At most one posting may omit its amount", "statement": "A transaction in which two or more postings are written without an amount is rejected with an error, wherever these postings stand.", "quantifier": "every transaction text with two or more amount-less posting lines", "why_tests_cant": "Depends on the position of the amount-less postings in posting lists of every length.", "anchors": ["parser/transactionbuilder.go:transactionBuilder.buildNormalTransaction", "journal/transaction.go:AddPosting"]}
{"id": "C04", "title": "Amounts are read exactly", "statement": "An amount written as an optional sign, digits, and optionally a point followed by digits is read as exactly that number of hundredths, when it is representable; anything else is rejected.", "quantifier": "every rune sequence in the amount position", "why_tests_cant": "Unboundedly many digit strings, including int64 overflow boundaries.", "anchors": ["parser/parser.go:parseAmount"]}
{"id": "C05", "title": "Displayed quantities are exact", "statement": "Amount.DisplayableQuantity prints a quantity of q hundredths as the exact decimal numeral of q/100 with two decimals, preceded by the commodity when asked.", "quantifier": "every int64 quantity and every commodity string", "why_tests_cant": "The implementation goes through float64; whether rounding ever shows needs all 2^64 quantities.", "anchors": ["journal/amount.go:DisplayableQuantity"]}
{"id": "C06", "title": "Displaying then reading an amount gives the same amount", "statement": "Reading the text printed by DisplayableQuantity(false) with the journal's amount parser returns the original quantity.", "quantifier": "every int64 quantity in the range where display is exact", "why_tests_cant": "Composition of float formatting and integer parsing over 2^64 values.", "anchors": ["journal/amount.go:DisplayableQuantity", "parser/parser.go:parseAmount"]}
{"id": "C07", "title": "Header dates are accepted exactly when they are calendar dates", "statement": "A transaction header's date word of five or more characters is accepted iff it is YYYY-MM-DD, YYYY.MM.DD or YYYY/MM/DD naming a real Gregorian day (with leap years), and the transaction gets exactly that date; otherwise the parse stops with an error.", "quantifier": "every rune sequence of length at least five in the date position", "why_tests_cant": "All strings, all years 0000-9999, all leap-year rules.", "anchors": ["parser/parser.go:parseDate"]}
{"id": "C08", "title": "A malformed header date is an error, never a crash", "statement": "Whatever word stands at the start of a line beginning with a digit, parsing returns normally or with an error; it never panics.", "quantifier": "every first word of a line that starts with a number", "why_tests_cant": "All words of all lengths.", "anchors": ["parser/parser.go:parseDate", "parser/lexer.go:lexTransactionHeader"]}
{"id": "C09", "title": "Smart dates of --begin/--end", "statement": "ParseSmartDate accepts YYYY, YYYY<sep>MM, MM<sep>DD (in the current year) and YYYY<sep>MM<sep>DD with one separator of / . -, yields local midnight of the first day so denoted, and returns an error for calendar-invalid dates and for four or more components.", "quantifier": "every argument string, every current year", "why_tests_cant": "All strings.", "anchors": ["parser/dates.go:ParseSmartDate", "parser/dates.go:parseYear", "parser/dates.go:parseYearMonth", "parser/dates.go:parseMonthDay", "parser/dates.go:parseYearMonthDay"]}
{"id": "C10", "title": "Lexing terminates on every line and never reads out of bounds", "statement": "For every byte sequence given as a line, lexing it finishes: each scanning loop performs at most one iteration per remaining byte plus one, the position stays within the line, and stepping back never moves before the start of the scan.", "quantifier": "every byte sequence, valid UTF-8 or not, and every scanner position", "why_tests_cant": "Termination is a universal property of loops that only end on input conditions.", "anchors": ["parser/lexer.go:next", "parser/lexer.go:consumeSpace", "parser/lexer.go:takeToNextLine", "parser/lexer.go:takeToTabOrNextLineOrComment", "parser/lexer.go:takeUntilSpace", "parser/lexer.go:takeUntilMoreThanOneSpace", "parser/lexer.go:lexCommodity"]}
{"id": "C11", "title": "Column-zero comment lines are inert", "statement": "Inserting or deleting a line that starts with ';' or '#' anywhere in a journal changes neither which transactions are delivered, their contents and order, nor whether the parse succeeds (only line numbers in error messages can move).", "quantifier": "every journal, every insertion point (also inside a transaction), every comment text below the line-length limit", "why_tests_cant": "All journals and positions.", "anchors": ["parser/lexer.go:lexLine", "parser/lexer.go:isCommentIndicator"]}
{"id": "C12", "title": "The blank line between transactions is optional", "statement": "Inserting a blank line directly before a transaction or '~' header line does not change the delivered transactions, nor success or failure of the parse.", "quantifier": "every journal and every header line in it", "why_tests_cant": "All parser states reachable before a header.", "anchors": ["parser/parser.go:parseItem", "parser/transactionbuilder.go:endTransaction"]}
{"id": "C13", "title": "LF and CRLF journals parse alike", "statement": "Replacing every LF line end by CRLF does not change the result of parsing, for journals whose lines do not already end in CR and stay below the line-length limit.", "quantifier": "every file content", "why_tests_cant": "All files.", "anchors": ["parser/lexer.go:lex"]}
{"id": "C14", "title": "The final newline is optional", "statement": "A journal with and without a newline at the end of its last line parses to the same result (if that line does not end in CR).", "quantifier": "every file content", "why_tests_cant": "All files and all parser states at end of file.", "anchors": ["parser/lexer.go:lex", "parser/parser.go:Parser.parseItem"]}
{"id": "C15", "title": "Over-long lines stop the program, they are never truncated", "statement": "If a parse succeeds then every line of every file read is shorter than the reader's 4096-byte buffer; a line at or above it ends the process.", "quantifier": "every file content", "why_tests_cant": "All files; line boundaries relative to the buffer.", "anchors": ["parser/lexer.go:lex"]}
{"id": "C16", "title": "One transaction per header, in file order", "statement": "When a parse succeeds, the sequence of delivered transactions and budget entries has exactly one element per transaction header or '~' line read, in the order these lines are read, each carrying that header's date and payee (or period).", "quantifier": "every journal whose parse succeeds, includes expanded", "why_tests_cant": "All journals; depends on the whole history of builder states.", "anchors": ["parser/parser.go:parseItem", "parser/transactionbuilder.go:beginTransaction", "parser/transactionbuilder.go:endTransaction"]}
{"id": "C17", "title": "Including a file is reading its lines in place", "statement": "An include directive delivers exactly what reading the included file's lines at that point followed by a blank line would deliver, and leaves the reader in the same state (file attribution and error locations aside).", "quantifier": "every file system, every include line, every parser state", "why_tests_cant": "All states at which an include may occur and all included contents, nested includes too.", "anchors": ["parser/parser.go:Parser.parseItem", "parser/lexer.go:lexIncludeDirective"]}
{"id": "C18", "title": "Include paths are relative to the including file", "statement": "The path opened for 'include NAME' is the directory part (through the last '/') of the including file's path followed by NAME.", "quantifier": "every including path and every name", "why_tests_cant": "All paths.", "anchors": ["parser/lexer.go:lexIncludeDirective"]}
{"id": "C19", "title": "Cyclic includes never succeed", "statement": "If reading a journal leads to including a file that is still being read, the parse never reports success, at any include depth the system allows.", "quantifier": "every file system with an include cycle reached from the root, every resource bound", "why_tests_cant": "Unbounded recursion.", "anchors": ["parser/parser.go:Parser.parseItem"]}
{"id": "C20", "title": "Transactions are attributed to the file they are written in", "statement": "The path handed to the handler together with a transaction is the path of the file containing that transaction's header.", "quantifier": "every journal with includes", "why_tests_cant": "All include structures.", "anchors": ["parser/parser.go:parseItem", "parser/transactionbuilder.go:endTransaction"]}
{"id": "C21", "title": "Errors name the file and line where reading stopped", "statement": "When a parse fails with an error, the error carries, from the outermost file inwards, the path and 1-based number of the line being read in each file when it stopped.", "quantifier": "every journal whose parse returns an error", "why_tests_cant": "All failure points in all files.", "anchors": ["parser/lexer.go:lex", "parser/parser.go:Parse"]}
{"id": "C22", "title": "Transactions balance per commodity", "statement": "A delivered transaction's quantities sum to zero for each commodity separately.", "quantifier": "every delivered transaction", "why_tests_cant": "All commodity mixes.", "anchors": ["journal/transaction.go:Close"]}
{"id": "C23", "title": "An account's balance is the sum of the postings at or below it", "statement": "After any sequence of postings was added to a journal, the amount of each account equals the (int64) sum of the quantities of exactly those postings whose account path is that account's path or extends it by further components; hence a parent's amount is its own postings plus its children's amounts.", "quantifier": "every sequence of postings with amounts, every account in the tree", "why_tests_cant": "All histories of postings and all tree shapes.", "anchors": ["journal/journal.go:AddPosting", "journal/journal.go:wireUpPosting", "journal/account.go:WalkAncestors", "journal/account.go:FindOrCreateAccount"]}
{"id": "C24", "title": "The grand total of an unfiltered balance is zero", "statement": "When the balance command completes without filter arguments, the total printed under the rule is 0.00, whatever --begin/--end/--current say.", "quantifier": "every journal, every date flag", "why_tests_cant": "All journals.", "anchors": ["cmd/balance.go:transactionHandler", "cmd/common.go:report", "journal/transaction.go:Close"]}
{"id": "C25", "title": "Balances do not depend on the order of transactions", "statement": "Permuting the postings (hence the transactions) added to a journal leaves the set of accounts and every account's quantity unchanged.", "quantifier": "every sequence of postings and every permutation", "why_tests_cant": "All permutations of all sequences.", "anchors": ["journal/journal.go:AddPosting"]}
{"id": "C26", "title": "Balance output is deterministic", "statement": "The text printed by the balance command is the same on every run over the same journal: it does not depend on the iteration order of Go maps (children maps, matched-posting maps).", "quantifier": "every journal, every filter list, every choice of map iteration orders", "why_tests_cant": "Map order is randomised by the runtime; no test run fixes it.", "anchors": ["journal/account.go:SortedChildNames", "cmd/common.go:checkAgainstFilters", "reporting/tree.go:Tree", "reporting/flattenedtree.go:FlattenedTree"]}
{"id": "C27", "title": "Without --show-zero exactly the zero accounts are hidden", "statement": "Without -Z the balance report shows every account whose balance is non-zero and hides those whose balance is zero.", "quantifier": "every account tree", "why_tests_cant": "All trees.", "anchors": ["journal/account.go:RemoveEmptyChildren", "cmd/balance.go:prepareBalance"]}
{"id": "C28", "title": "The flat report lists every leaf account once and adds up", "statement": "balance -F prints one line for every account without children, in depth-first order of sorted names, with its balance and full path, and the printed balances add up to the printed total.", "quantifier": "every account tree", "why_tests_cant": "All trees.", "anchors": ["reporting/flattenedtree.go:FlattenedTree"]}
{"id": "C29", "title": "The tree report shows each account exactly once in its place", "statement": "The non-collapsed tree report has exactly one line per account below the root, parents before their children, siblings sorted by name, indented by two spaces per level, each with its own balance.", "quantifier": "every account tree and every prepender producing non-empty text", "why_tests_cant": "All trees.", "anchors": ["reporting/tree.go:Tree", "reporting/tree.go:tree"]}
{"id": "C30", "title": "Collapsed tree report", "statement": "With --collapse, each maximal chain of only children is shown on one line joining the names by ':' at the depth of the chain's first account with the balance of its last account, and everything else is as in the plain tree.", "quantifier": "every account tree", "why_tests_cant": "All trees.", "anchors": ["reporting/tree.go:tree"]}
{"id": "C31", "title": "FindOrCreateAccount finds or creates exactly the named account", "statement": "After FindOrCreateAccount(components) the account at that path and all its prefixes exist; every account that existed before is unchanged; no other account is added; a second call returns the same account and changes nothing.", "quantifier": "every tree, every non-empty component list", "why_tests_cant": "All trees and paths.", "anchors": ["journal/account.go:FindOrCreateAccount", "journal/account.go:findChild", "journal/account.go:newAccountWithChildren"]}
{"id": "C32", "title": "An account's Path is its components joined by ':'", "statement": "Every account created in a journal's tree by posting has Path equal to the components from below the root joined by ':' and is found again by splitting Path at ':'.", "quantifier": "every posting history without the reserved names _root_ and _budget_root_", "why_tests_cant": "All trees.", "anchors": ["journal/account.go:CreatePath", "journal/account.go:newAccountWithChildren"]}
{"id": "C33", "title": "An account's PathComponents stay its own", "statement": "Creating further accounts never changes the PathComponents of an existing account.", "quantifier": "every sequence of FindOrCreateAccount calls", "why_tests_cant": "Slice aliasing depends on capacities, depth and creation order.", "anchors": ["journal/account.go:newAccountWithChildren"]}
{"id": "C34", "title": "PruneChildren keeps exactly the accounts down to the given depth", "statement": "PruneChildren(d,0) leaves exactly the accounts at depth at most d, unchanged apart from their children.", "quantifier": "every tree, every depth", "why_tests_cant": "All trees.", "anchors": ["journal/account.go:PruneChildren"]}
{"id": "C35", "title": "RemoveChildren keeps exactly matching accounts and their ancestors", "statement": "RemoveChildren(m) keeps exactly the accounts that match or have a matching descendant and returns whether any account (itself included) matches.", "quantifier": "every tree, every matcher depending on an account's own data", "why_tests_cant": "All trees and predicates.", "anchors": ["journal/account.go:RemoveChildren"]}
{"id": "C36", "title": "FindAccounts returns every matching account once", "statement": "FindAccounts(m) returns each account of the tree that satisfies m, exactly once, and no other; Leaves returns exactly the childless accounts.", "quantifier": "every tree, every matcher, every map order", "why_tests_cant": "All trees.", "anchors": ["journal/account.go:FindAccounts", "journal/account.go:Leaves"]}
{"id": "C37", "title": "Filters select whole transactions or exactly the matching postings", "statement": "With filter arguments a transaction contributes all its postings if its payee matches a payee filter or its notes match a note filter; otherwise it contributes exactly the postings whose account path matches some account filter or whose comments match some note filter; a transaction with none contributes nothing.", "quantifier": "every transaction, every list of filters, every regular-expression semantics", "why_tests_cant": "All transactions and filter lists, in every order.", "anchors": ["cmd/common.go:checkAgainstFilters", "reporting/filter.go:MatchesTransactionHow"]}
{"id": "C38", "title": "--begin is inclusive and --end exclusive", "statement": "With --begin B and --end E, exactly the transactions dated on or after B and before E are processed.", "quantifier": "every date, every time zone", "why_tests_cant": "All dates and zones.", "anchors": ["cmd/common.go:withinDateRange", "parser/dates.go:ParseSmartDate"]}
{"id": "C39", "title": "--current stops at today", "statement": "With --current, exactly the transactions dated on or before today are processed.", "quantifier": "every date, every time of day", "why_tests_cant": "Depends on the clock.", "anchors": ["cmd/common.go:withinDateRange"]}
{"id": "C40", "title": "The accounts command lists each used account once, sorted", "statement": "accounts prints, in ascending byte order and without repetition, exactly the account paths used by postings of transactions in the date range (that match one of the filters, if any).", "quantifier": "every journal, every filter list, every map order", "why_tests_cant": "All journals.", "anchors": ["cmd/accounts.go:accountsJournal.transactionHandler", "cmd/accounts.go:accountsJournal.prepare", "cmd/accounts.go:accountsJournal.report"]}
{"id": "C41", "title": "The payees command lists each payee once, sorted", "statement": "payees prints, in ascending byte order and without repetition, exactly the payees of the transactions in the date range (that match one of the arguments, if any).", "quantifier": "every journal, every argument list, every map order", "why_tests_cant": "All journals.", "anchors": ["cmd/payees.go:payeesJournal.transactionHandler", "cmd/payees.go:payeesJournal.prepare", "cmd/payees.go:payeesJournal.report"]}
{"id": "C42", "title": "print shows exactly the selected transactions in date order", "statement": "print outputs each selected transaction exactly once, whole, ordered by date.", "quantifier": "every journal and filters, every behaviour of the (unstable) sort", "why_tests_cant": "All journals and sorts.", "anchors": ["cmd/print.go:printJournal.transactionHandler", "cmd/print.go:printJournal.prepare", "cmd/print.go:printJournal.report"]}
{"id": "C43", "title": "print's output reads back as the same transactions", "statement": "Feeding the text printed for a list of transactions back to the parser delivers the same transactions: date, state, payee, notes, postings with account, amount and comments.", "quantifier": "every list of transactions obtainable from a journal", "why_tests_cant": "Round trip through formatter, lexer and builder for all texts.", "anchors": ["journal/transaction.go:String", "journal/posting.go:String", "parser/lexer.go:lexer.lexLine", "parser/transactionbuilder.go:transactionBuilder.buildNormalTransaction"]}
{"id": "C44", "title": "Statistics counts and dates", "statement": "stats reports the number of selected transactions, the numbers of distinct payees and of distinct accounts of the selected postings, and the earliest and latest date among the selected transactions.", "quantifier": "every journal and filters", "why_tests_cant": "All histories.", "anchors": ["cmd/stats.go:transactionHandler"]}
{"id": "C45", "title": "Age of money spends income first-in first-out and conserves it", "statement": "The age computation takes from income buckets in date order, never drives a bucket below zero, and removes in total exactly the spent amount (or all income if less), when incomes and expenses are non-negative.", "quantifier": "every bucket content", "why_tests_cant": "All bucket histories.", "anchors": ["cmd/stats.go:prepare"]}
{"id": "C46", "title": "Age of money averages the most recent ages", "statement": "The age of money is the mean of the (last ten) recorded ages.", "quantifier": "every list of ages", "why_tests_cant": "All lists.", "anchors": ["cmd/stats.go:prepare"]}
{"id": "C47", "title": "Budget: envelope and spending trees always match", "statement": "In every month of a budget the envelope tree and the spending tree contain the same account paths, so the report never stops with \"didn't find expense account\".", "quantifier": "every sequence of envelope, expense and income postings", "why_tests_cant": "All histories.", "anchors": ["journal/budget.go:AddPosting", "cmd/budget.go:report"]}
{"id": "C48", "title": "Budget: each category's amounts are the month's sums", "statement": "In every month, an envelope account's amount is the sum of that month's allocations at or below it, a spending account's amount is minus the sum of that month's expenses at or below it, and available is their sum; no other month is affected by a posting.", "quantifier": "every sequence of postings, every month, every category", "why_tests_cant": "All histories.", "anchors": ["journal/budget.go:AddPosting", "cmd/budget.go:report"]}
{"id": "C49", "title": "Budget: columns show what their headings say", "statement": "In the budget report the 'Budgeted' column shows the allocated amount and the 'Activity' column the spending of the category.", "quantifier": "every budget", "why_tests_cant": "All budgets.", "anchors": ["cmd/budget.go:report"]}
{"id": "C50", "title": "Budget: postings are grouped by calendar month", "statement": "Two postings fall in the same budget month iff their transactions' dates have the same year and month; months are reported in chronological order.", "quantifier": "every date", "why_tests_cant": "All dates.", "anchors": ["journal/budget.go:normaliseToMonth", "cmd/budget.go:report"]}
{"id": "C51", "title": "Unrecognised periods are rejected", "statement": "A '~' line whose period is not understood is an error.", "quantifier": "every period text", "why_tests_cant": "All texts.", "anchors": ["parser/parser.go:parsePeriod"]}
{"id": "C52", "title": "No journal text crashes the program", "statement": "Parsing any file content, with any command's handler, ends normally or with an error, never with a run-time panic.", "quantifier": "every file content, every command", "why_tests_cant": "All inputs.", "anchors": ["parser/parser.go:Parser.parseItem", "parser/transactionbuilder.go:transactionBuilder.build", "journal/journal.go:wireUpPosting"]}
{"id": "C53", "title": "No posting line is silently ignored", "statement": "Every indented line with non-blank, non-comment content inside a transaction contributes a posting or makes the parse fail.", "quantifier": "every posting line", "why_tests_cant": "All lines.", "anchors": ["parser/lexer.go:lexPosting"]}
{"id": "C54", "title": "Header notes are kept whole", "statement": "The note after ';' in a transaction header is stored as written after the comment sign (leading spaces removed).", "quantifier": "every header line with a note", "why_tests_cant": "All spacings.", "anchors": ["parser/lexer.go:lexTransactionHeader"]}
{"id": "C55", "title": "Text survives: UTF-8 decode/encode", "statement": "Valid UTF-8 text in payees, accounts, notes and commodities is stored byte for byte; decoding any bytes gives valid runes and re-encoding valid runes then decoding is the identity.", "quantifier": "every byte sequence", "why_tests_cant": "All strings.", "anchors": ["parser/lexer.go:next"]}
{"id": "C56", "title": "All commands see the same transaction stream", "statement": "For the same journal every handler is applied to the same sequence of transactions in the same order, until it fails; in particular stats counts exactly the transactions that print would print for the same flags and filters.", "quantifier": "every journal, every handler", "why_tests_cant": "All handlers and journals.", "anchors": ["parser/parser.go:Parse", "cmd/stats.go:statisticsJournal.transactionHandler", "cmd/print.go:printJournal.transactionHandler"]}
{"id": "C57", "title": "Every listed account is in the balance tree", "statement": "For the same journal without filters, an account path is printed by accounts iff postings to it exist in the tree the balance command builds, and every account in that tree is a prefix of such a path.", "quantifier": "every journal", "why_tests_cant": "All journals.", "anchors": ["cmd/accounts.go:accountsJournal.transactionHandler", "cmd/balance.go:balanceProcessor.transactionHandler"]}
{"id": "C58", "title": "Budget: what is assigned to envelopes leaves the fund", "statement": "In every month the envelope root's amount equals the month's income when the month's budget entries are balanced (including the automatic source posting).", "quantifier": "every budget history", "why_tests_cant": "All histories.", "anchors": ["journal/budget.go:Budget.AddPosting", "parser/transactionbuilder.go:endNormalTransaction"]}
{"id": "C59", "title": "Invalid date flags are reported", "statement": "If --begin or --end is not a valid smart date (and --current is absent), the command reports an error.", "quantifier": "every journal and flag text", "why_tests_cant": "All journals.", "anchors": ["cmd/common.go:withinDateRange"]}
{"id": "C60", "title": "Budget respects the date flags", "statement": "budget counts only entries dated in the range of --begin/--end.", "quantifier": "every journal and flags", "why_tests_cant": "All journals.", "anchors": ["cmd/budget.go:periodicTransactionHandler"]}
{"id": "C61", "title": "balance prints exactly the shown accounts", "statement": "balance ends normally iff the journal can be read and every selected posting has an amount; then it prints one complaint per account of another commodity above each posting, one line per shown account in depth-first byte order with the exact sum of the selected postings at or below it (or with --flatten one line per shown account without shown accounts below; with --collapse, an account that is the only shown one below its parent stands on the parent's line, joined to its name by ':', and that line has the balance of the last account on it), a rule, and the sum of all selected postings.", "quantifier": "every journal, flags, filters, clock and map iteration order", "why_tests_cant": "Any tree shape, any number of postings, any mix of commodities and any filter selection.", "anchors": ["cmd/balance.go:balanceProcessor.transactionHandler", "cmd/balance.go:prepareBalance", "cmd/common.go:report", "journal/journal.go:wireUpPosting", "reporting/tree.go:tree", "reporting/flattenedtree.go:flattenedTree"]}
{"id": "C62", "title": "Texts in delivered transactions are well-formed", "statement": "Every transaction delivered from a journal has a real calendar date in years 0-9999, a payee that is empty or a single-spaced trimmed phrase (not starting with a state mark unless a mark was given), notes and comments without line breaks that are blank or start with no space, at least one posting, and account names and commodities of the shape the lexer promises; the only exception is the single empty posting of a header without postings.", "quantifier": "every journal, include graph and Unicode table", "why_tests_cant": "Invariant of lexer and builder over all inputs, including malformed ones.", "anchors": ["parser/lexer.go:lexer.lexLine", "parser/transactionbuilder.go:transactionBuilder.buildNormalTransaction"]}
{"id": "C63", "title": "Stats: the time period is the number of days", "statement": "The 'Time period' that stats prints is the number of calendar days from the earliest processed transaction to the latest, capped at 106752 (the range of a Go Duration), unless a transaction is dated 0001-01-01.", "quantifier": "every journal, flags and filters on which stats ends normally", "why_tests_cant": "Go through float64 hours; month lengths, leap years and the saturation of Sub need all dates, not samples", "anchors": ["cmd/stats.go:statisticsJournal.report"]}
{"id": "C64", "title": "Budget: no complaints when there is one commodity", "statement": "When every amount of a journal has the same commodity, budget prints no line about unmatched commodities.", "quantifier": "every journal with one commodity", "why_tests_cant": "Needs categories with several levels whose upper levels are never posted to; the repository's test data has only one level", "anchors": ["journal/amount.go:Amount.Add", "journal/amount.go:Amount.Subtract", "journal/budget.go:Budget.AddPosting"]}
{"id": "C65", "title": "All ways of matching a transaction agree", "statement": "MatchesRegex, MatchesTransactionHow and the handler wrapper that no command uses select the same transactions as the filtering the commands do; MatchesRegex reports a bad argument unless an earlier argument already matched.", "quantifier": "every transaction, every list of arguments, every regular-expression engine", "why_tests_cant": "There are infinitely many combinations of arguments and postings; the repository has tests of neither MatchesRegex nor the unused wrapper", "anchors": ["reporting/filter.go:Filter.MatchesTransactionHow", "reporting/filter.go:Filter.MatchesTransaction", "reporting/filter.go:Filter.MatchesString", "reporting/filter.go:MatchesRegex", "cmd/common.go:dateCheckedFilteringTransactionHandler", "cmd/common.go:checkAgainstFilters"]}
{"id": "C66", "title": "Head is the top-level account", "statement": "Head of an account of the tree built from any postings is its ancestor directly below the root.", "quantifier": "every list of postings, every account of the tree", "why_tests_cant": "Depth is unbounded and component names are arbitrary: a component may have a reserved name", "anchors": ["journal/account.go:Account.Head"]}
{"id": "C67", "title": "Enumerations are named", "statement": "The String methods of the enumerations name every declared value, write any other value as type name and number, and never fail.", "quantifier": "every int", "why_tests_cant": "The generated tables are indexed by position; only looking at every index shows that none is off by one", "anchors": ["journal/periodtype_string.go:PeriodType.String", "journal/transactionstate_string.go:TransactionState.String", "parser/itemtype_string.go:itemType.String", "parser/transactiontype_string.go:transactionType.String"]}
{"id": "C68", "title": "Account.String lists the tree", "statement": "String of an account lists it and every account below it once, each below its parent and indented by two spaces per level, whatever order Go iterates its maps in.", "quantifier": "every account tree, every map iteration order", "why_tests_cant": "Go's map iteration order is random, so a test sees only one of the orders", "anchors": ["journal/account.go:Account.String", "journal/account.go:Account.asString"]}
{"id": "C69", "title": "Periodic transactions are expanded between bounds", "statement": "Running a periodic transaction between two dates yields its occurrences in that range.", "quantifier": "every periodic transaction, all bounds", "why_tests_cant": "The ranges and intervals are unbounded", "anchors": ["journal/periodictransaction.go:PeriodicTransaction.Run"]}
{"id": "C70", "title": "print is idempotent", "statement": "Printing what print printed gives the same text again.", "quantifier": "every journal whose transactions can be read back (C43), all filters and flags of the first run", "why_tests_cant": "Needs all journals; the loss it finds appears only for a header note without a payee", "anchors": ["cmd/print.go:printCmd", "cmd/print.go:newPrintJournal", "cmd/print.go:printJournal.transactionHandler", "cmd/print.go:printJournal.prepare", "cmd/print.go:printJournal.report", "journal/transaction.go:Transaction.String"]}
{"id": "C71", "title": "balance of print is balance", "statement": "The balance of the journal that print prints for a range of dates is the balance for that range of dates.", "quantifier": "every journal, every range of dates, all report flags", "why_tests_cant": "Relates two commands over all journals and flags; sorting in print can change which commodity comes first", "anchors": ["cmd/print.go:printCmd", "cmd/print.go:newPrintJournal", "cmd/print.go:printJournal.transactionHandler", "cmd/print.go:printJournal.prepare", "cmd/print.go:printJournal.report", "cmd/balance.go:balanceCmd", "cmd/balance.go:init", "cmd/balance.go:newBalanceProcessor", "cmd/balance.go:balanceProcessor.transactionHandler", "cmd/balance.go:prepareBalance"]}
{"id": "C72", "title": "More arguments select more", "statement": "print with two lists of arguments together prints every transaction that is printed with either list, at least as often, and no others.", "quantifier": "every journal, every two lists of arguments, every regular-expression engine", "why_tests_cant": "Quantifies over all argument lists and regular-expression engines", "anchors": ["cmd/common.go:checkAgainstFilters", "reporting/filter.go:Filter.MatchesTransactionHow", "cmd/print.go:printCmd", "cmd/print.go:newPrintJournal", "cmd/print.go:printJournal.transactionHandler", "cmd/print.go:printJournal.prepare", "cmd/print.go:printJournal.report"]}
{"id": "C73", "title": "Adjacent date ranges split a journal", "statement": "print from a to b followed by print from b to c prints the transactions of print from a to c, none twice and none missing.", "quantifier": "every journal, all dates a, b, c in order", "why_tests_cant": "An off-by-one at the boundary shows only for transactions on the boundary date, in every time zone", "anchors": ["cmd/common.go:withinDateRange", "cmd/print.go:printCmd", "cmd/print.go:newPrintJournal", "cmd/print.go:printJournal.transactionHandler", "cmd/print.go:printJournal.prepare", "cmd/print.go:printJournal.report"]}
{"id": "C74", "title": "The journal file is named by --file or LEDGER_FILE", "statement": "Every command gives the same result whether its journal is named by --file or by LEDGER_FILE; --file wins if both are given, and with neither every command stops with an error before reading.", "quantifier": "all commands, journals, flags", "why_tests_cant": "All commands and all flags", "anchors": ["cmd/common.go:parse"]}
{"id": "C75", "title": "Journals can be put end to end", "statement": "If two journals can be read, the first followed by the second can be read and holds the entries of the first followed by those of the second; with a blank line between them the combined journal can be read only if both can.", "quantifier": "all pairs of texts (the first ending its last line), all include structures", "why_tests_cant": "Quantifies over pairs of journals; what the first leaves open could leak into the second", "anchors": ["parser/parser.go:Parser.parseItem", "parser/parser.go:parseDate", "parser/parser.go:parseAmount", "parser/transactionbuilder.go:transactionBuilder.beginTransaction", "parser/transactionbuilder.go:transactionBuilder.build"]}
{"id": "C76", "title": "The transactions per day that stats prints", "statement": "stats prints the number of transactions divided by the number of days of the time period it prints, as a numeral with one decimal that is nearest to the quotient.", "quantifier": "every journal and every selection of transactions", "why_tests_cant": "The quotient goes through float64 division and decimal rounding; a wrong operand, a wrong digit count or a period of zero days shows only for particular counts.", "anchors": ["cmd/stats.go:report"]}
{"id": "C77", "title": "The exit status tells whether the command succeeded", "statement": "If the journal cannot be read, or an entry in it is wrong, the program exits with a status other than 0; if the command succeeds it exits with 0.", "quantifier": "for every command line asking for a command, every journal and every environment", "why_tests_cant": "The status depends on every way reading can fail, at any place of any journal; tests of commands do not look at the status.", "anchors": ["cmd/root.go:Execute", "cmd/accounts.go:accountsCmd", "cmd/print.go:printCmd", "cmd/print.go:newPrintJournal", "parser/parser.go:Parser.Parse"]}
{"id": "C78", "title": "Every name of a command stands for that command", "statement": "Each alias of a command does exactly what the full name does, with the same flags and arguments.", "quantifier": "for every command, alias, flags before the name and arguments after it", "why_tests_cant": "Two commands may claim the same alias, and which wins depends on the order of registration; the property quantifies over all arguments.", "anchors": ["cmd/accounts.go:accountsCmd", "cmd/balance.go:balanceCmd", "cmd/budget.go:budgetCmd", "cmd/payees.go:payeesCmd", "cmd/print.go:printCmd", "cmd/stats.go:statsCmd"]}
{"id": "C79", "title": "Flags mean the same wherever and however they are given", "statement": "Whether flags common to all commands are given before or after the command, in long or short form, joined to their value or not, in groups or alone, the command runs with the last value given to each flag and with the remaining words in order as its arguments.", "quantifier": "for every sequence of flags and words in any spelling", "why_tests_cant": "The number of spellings and orders is unbounded, and a value may look like a command.", "anchors": ["cmd/root.go:init", "cmd/balance.go:init", "cmd/budget.go:init", "cmd/root.go:Execute"]}
{"id": "C80", "title": "Command lines that cannot be understood are refused", "statement": "An unknown command, an unknown flag, a flag without its value or a switch with a value that is not a truth value make the program exit with status 1 without reading a journal or writing to standard output.", "quantifier": "for every command line with such a fault after any well-formed part", "why_tests_cant": "The fault can be anywhere after any number of well-formed arguments.", "anchors": ["cmd/root.go:Execute", "cmd/root.go:init", "main.go:main"]}
{"id": "C81", "title": "Without a command the help is shown", "statement": "When only flags are given the program shows the help and exits with status 0, whatever the journal.", "quantifier": "for every sequence of flags before the command", "why_tests_cant": "The values of flags may be anything, such as names of commands.", "anchors": ["cmd/root.go:rootCmd"]}
{"id": "C82", "title": "Listings of a printed journal", "statement": "When print runs without filters and date flags and its output is used as a journal, accounts and payees with any filters list the same as for the original journal; and stats (without filters, print with any date flags) prints the same report but for the list of files.", "quantifier": "for every journal whose selected transactions are dated in the year 1 or later (for stats, not on 0001-01-01), have all amounts, none too large to be displayed exactly, and print in lines the line reader can take; every list of filters and every order of map iteration", "why_tests_cant": "The listings go through printing, reading, selecting and sorting; agreement must hold for all journals.", "anchors": ["cmd/accounts.go:newAccountsJournal", "cmd/accounts.go:accountsJournal.transactionHandler", "cmd/accounts.go:accountsJournal.prepare", "cmd/accounts.go:accountsJournal.report", "cmd/payees.go:newPayeesJournal", "cmd/payees.go:payeesJournal.transactionHandler", "cmd/payees.go:payeesJournal.prepare", "cmd/payees.go:payeesJournal.report", "cmd/print.go:newPrintJournal", "cmd/print.go:printJournal.transactionHandler", "cmd/print.go:printJournal.prepare", "cmd/print.go:printJournal.report", "journal/transaction.go:Transaction.String"]}
{"id": "C83", "title": "Balances add up", "statement": "With --show-zero, balance over a range of dates succeeds exactly if it does over its two adjacent parts, and then the balance of every account, and the grand total, is the sum of those over the parts (as int64); an account is shown exactly if it is in one of the parts. The same holds for a journal made of two journals with a blank line between them.", "quantifier": "for every journal (with any includes), every two adjacent ranges of dates, every split of a journal at a blank line, every filter and every order of map iteration", "why_tests_cant": "A split may fall anywhere; boundary dates counted twice or dropped, and entries lost where files meet, show up only for particular splits.", "anchors": ["cmd/balance.go:init", "cmd/balance.go:newBalanceProcessor", "cmd/balance.go:balanceProcessor.transactionHandler", "cmd/balance.go:prepareBalance", "cmd/common.go:dateCheckedFilteringTransactionHandler", "cmd/common.go:withinDateRange", "journal/account.go:Account.FindOrCreateAccount", "journal/account.go:Account.findChild", "parser/parser.go:Parser.Parse", "parser/parser.go:Parser.parseItem"]}
{"id": "C84", "title": "Journals put end to end", "statement": "print of two journals put end to end (with a blank line between) succeeds exactly if print of both does and prints the same transactions as both together; accounts and payees list exactly the names listed for either.", "quantifier": "for every two journals the first of which ends with a line break or is empty, every filter and date flag, a day that does not change during the run", "why_tests_cant": "What is pending at the end of the first journal, include lines that lead back to the file, and the sorting of the joined transactions depend on both texts.", "anchors": ["cmd/print.go:newPrintJournal", "cmd/print.go:printJournal.transactionHandler", "cmd/print.go:printJournal.prepare", "cmd/print.go:printJournal.report", "cmd/accounts.go:newAccountsJournal", "cmd/accounts.go:accountsJournal.transactionHandler", "cmd/accounts.go:accountsJournal.prepare", "cmd/accounts.go:accountsJournal.report", "cmd/payees.go:newPayeesJournal", "cmd/payees.go:payeesJournal.transactionHandler", "cmd/payees.go:payeesJournal.prepare", "cmd/payees.go:payeesJournal.report", "parser/parser.go:Parser.Parse", "parser/parser.go:Parser.parseItem"]}
{"id": "C85", "title": "The layout of lines is free", "statement": "Rewriting lines of any journal files in another layout does not change anything the program prints or its exit status, including the places named in errors. Another layout: margins of two or more spaces or of tabs; any gap of tabs and two or more spaces between account and amount; any white space between commodity and number as long as there is some in both or none in both; '#' for ';'; any spaces after a comment sign; any spaces after a date, a state mark, '~' or 'include'; a trailing space; and anything after an amount, a period or an included file's name that follows a comment sign, a tab or two spaces.", "quantifier": "all pairs of file systems whose files differ line by line only in layout, all command lines, all machines", "why_tests_cant": "The layouts of a line are infinitely many, and the lexer counts widths, looks ahead two runes and trims; a test tries a few.", "anchors": ["parser/lexer.go:lexLine", "parser/lexer.go:lexPosting", "parser/lexer.go:lexTransactionHeader", "parser/lexer.go:consumeSpace", "parser/lexer.go:takeToTabOrNextLineOrComment"]}
{"id": "C86", "title": "How deeply includes may nest does not matter", "statement": "Whatever the program does when includes may nest to some depth without reaching it, it does the same when they may nest deeper; and a depth no chain of include lines exceeds is never reached, so the program ends with an exit status.", "quantifier": "all file systems, depths, command lines and machines", "why_tests_cant": "Depths are unbounded; a test nests two or three files.", "anchors": ["parser/parser.go:parseItem", "parser/parser.go:Parser.Parse"]}
{"id": "C87", "title": "Only the files included are read", "statement": "Files other than the journal named and those reached from it by include lines do not matter: adding, changing or removing them changes nothing the program prints and not its exit status.", "quantifier": "all file systems that agree on a set of paths closed under include lines and containing the journal's, all command lines that ask for a command", "why_tests_cant": "A test cannot vary all the other files there might be.", "anchors": ["parser/parser.go:parseItem", "cmd/common.go:parse"]}
{"id": "C88", "title": "Dates and amounts may be spelled in any way", "statement": "Writing header dates with other separators ('-', '/' or '.'), and amounts with or without '+', with more leading zeros, or with or without '.00', in any layout, changes nothing the program prints and not its exit status.", "quantifier": "all pairs of file systems whose files differ line by line only in this, all amounts of int64 hundredths, all command lines, all machines", "why_tests_cant": "The spellings of an amount are infinitely many, and the parser handles points, signs and separators by position.", "anchors": ["parser/parser.go:parseDate", "parser/parser.go:parseAmount", "parser/lexer.go:lexPosting", "parser/lexer.go:lexTransactionHeader"]}
{"id": "C89", "title": "The flags of balance change only its rows", "statement": "With the same journal, dates and arguments, --flatten, --collapse and --show-zero do not change whether balance succeeds, what it complains about, or the total it prints; only the rows differ.", "quantifier": "all machines, file systems and pairs of options that differ in these flags only", "why_tests_cant": "There are eight settings of the flags for each of infinitely many journals.", "anchors": ["cmd/balance.go:balanceCmd.Run", "cmd/common.go:report", "cmd/balance.go:prepareBalance"]}
{"id": "C90", "title": "Statistics of a journal made of two", "statement": "If a journal file is the lines of one journal, an empty line and another journal, `stats` succeeds for it exactly when it succeeds for each of the two; it then counts as many transactions as they do together, the accounts and the payees that occur in either, and its first and last transaction are the earlier first and the later last of theirs (no transaction being dated 0001-01-01).", "quantifier": "all pairs of journal texts (with includes), all options and filters, all clocks that do not move during the run, all iteration orders", "why_tests_cant": "the counts are kept in maps and in dates that start out as the zero date, so tests see only the journals they contain", "anchors": ["cmd/stats.go:statisticsJournal.transactionHandler", "cmd/stats.go:statisticsJournal.prepare", "cmd/stats.go:statisticsJournal.report", "parser/parser.go:Parser.Parse"]}
{"id": "C91", "title": "Budget of a journal made of two", "statement": "If a journal file is the lines of one journal, an empty line and another journal, `budget` succeeds for it exactly when it succeeds for each of the two; the moves it reports are theirs together, so in each month what it reports as earned, and for each category as assigned and as spent, is the sum of what they report.", "quantifier": "all pairs of journal texts (with includes), all options and filters, all clocks that do not move during the run, all iteration orders", "why_tests_cant": "the budget is kept in a linked list of months and trees of accounts that later entries are inserted into; no finite set of journals covers the insertions", "anchors": ["cmd/budget.go:budgetProcessor.periodicTransactionHandler", "cmd/budget.go:budgetProcessor.transactionHandler", "journal/budget.go:Budget.AddPosting", "parser/parser.go:Parser.Parse"]}
{"id": "C92", "title": "The order of a journal's parts does not matter", "statement": "If a journal is made of parts, each of whole lines and followed by an empty line, then however the parts are ordered `print` prints the same transactions, `accounts` and `payees` print the same lists, `stats` the same report but for the order in which it lists the files (no transaction being dated 0001-01-01), `budget` reports the same amounts assigned, spent and earned, and, if all amounts are in one commodity, `balance` prints the same text and `budget` the same report (the very same output if all categories have one level); each command succeeds for one order exactly when it does for the other.", "quantifier": "all lists of journal texts (with includes) and their permutations, all options and filters, all clocks that do not move during the run, all iteration orders", "why_tests_cant": "the orders of n parts are n! and the state kept between transactions (trees, maps, months, first and last date) depends on them; tests use one order", "anchors": ["parser/parser.go:Parser.Parse", "cmd/print.go:printJournal.prepare", "cmd/accounts.go:accountsJournal.prepare", "cmd/payees.go:payeesJournal.prepare", "cmd/balance.go:balanceProcessor.transactionHandler", "cmd/stats.go:statisticsJournal.transactionHandler", "cmd/budget.go:budgetProcessor.transactionHandler", "cmd/stats.go:statisticsJournal.prepare"]}
{"id": "C93", "title": "Adjacent date ranges add up", "statement": "If a journal is read from date a to b, from b to c and from a to c (a <= b <= c, b after 0001-01-01), then `accounts` and `payees` over a..c list exactly the names listed over a..b or over b..c; `stats` over a..c counts as many transactions as the other two together, the accounts and payees of either, and spans both; `budget` over a..c reports for each month as spent and earned the sum of what the other two report, and as assigned what each of them reports. The report over a..c succeeds exactly when the other two do.", "quantifier": "all journals (with includes), all dates written in any way a flag allows, all filters, all zones and clocks, all iteration orders", "why_tests_cant": "the two boundaries can fall on, before or after any transaction and the sums must agree for all amounts; tests use one range", "anchors": ["cmd/common.go:withinDateRange", "cmd/accounts.go:accountsJournal.prepare", "cmd/payees.go:payeesJournal.prepare", "cmd/stats.go:statisticsJournal.transactionHandler", "cmd/budget.go:budgetProcessor.transactionHandler"]}
{"id": "C94", "title": "Reports do not depend on the time, the zone or the order of maps", "statement": "Without --current, and with --begin and --end absent or (in the same zone) dates written with their year, `accounts`, `balance`, `budget`, `payees` and `print` end alike and print the same whatever the clock says, and `stats` too but for the words that say how long ago a day was; without --begin and --end the zone does not matter either. `print`, `accounts` and `payees` print the same whatever the order of map iteration, `budget` and `balance` too if no filters are given, and `stats`, with any filters, prints the same but for the order of the files it lists. With filters, `budget` succeeds under one map order exactly when it does under another, and over one commodity it prints the same report (and the very same output if all categories have one level).", "quantifier": "all journals (with includes), options, clocks with a year from 1000 to 9999, zones and iteration orders", "why_tests_cant": "a test runs at one time in one zone, and Go's iteration order is random; a dependence on the clock would show only when the year or zone changes", "anchors": ["cmd/common.go:withinDateRange", "cmd/common.go:checkAgainstFilters", "cmd/stats.go:statisticsJournal.report", "cmd/accounts.go:accountsJournal.prepare", "cmd/payees.go:payeesJournal.prepare", "cmd/balance.go:prepareBalance", "cmd/budget.go:budgetProcessor.report"]}
{"id": "C95", "title": "stats counts what the other commands list", "statement": "Whenever `stats` succeeds, `print` with the same options prints as many transactions as stats counts, with the payees it counts, and (no transaction being dated 0001-01-01) the first and the last of them bear the first and last date of stats; without filters `accounts` and `payees` list exactly as many names as stats says there are unique accounts and payees.", "quantifier": "all journals (with includes), options, filters, clocks, zones, iteration orders and orders of equal dates", "why_tests_cant": "three commands keep their own state (maps, counters, sorted lists); agreement must hold for all journals and date ranges", "anchors": ["cmd/stats.go:statisticsJournal.transactionHandler", "cmd/stats.go:statisticsJournal.report", "cmd/print.go:printJournal.report", "cmd/accounts.go:accountsJournal.report", "cmd/payees.go:payeesJournal.report"]}
{"id": "C96", "title": "The budget of a month is the balance of that month", "statement": "For every month, what `budget` reports as spent on a category is the balance of Expenses:category that `balance --show-zero` computes with --begin at the first of the month and --end at the first of the next, and what it reports as earned is the balance of Income there (0 where there is no such account).", "quantifier": "all journals (with includes) and filters for which both commands succeed, all months from the year 1 on, all clocks, all zones at or east of Greenwich (C38), all iteration orders", "why_tests_cant": "two independent implementations (months of envelopes, one account tree) must agree for all journals, months and categories", "anchors": ["cmd/budget.go:budgetProcessor.transactionHandler", "journal/budget.go:Budget.AddPosting", "cmd/balance.go:balanceProcessor.transactionHandler", "cmd/common.go:withinDateRange", "journal/journal.go:Journal.AddPosting"]}
{"id": "C97", "title": "Plain words as filters", "statement": "When the arguments are words without characters special to regular expressions, every command that filters transactions selects exactly the transactions in the date range in which some argument is found (word: in a posting's account; @word: in the payee; =word: in a note of the transaction or of a posting); of their postings `balance` takes all if the transaction itself answers and otherwise exactly those that answer, `print` prints the whole transactions; `accounts` and `payees` list exactly the names in which some word is found. A word with a capital is found as spelled, any other in either case.", "quantifier": "all journals (with includes), options, lists of words, clocks, zones, iteration orders; for regular expressions only package regexp's behaviour on plain words is assumed (hypothesis words_match)", "why_tests_cant": "words x texts x case folding (also of K, S with their Unicode variants) form infinite spaces; tests sample a few words", "anchors": ["cmd/common.go:dateCheckedFilteringTransactionHandler", "cmd/common.go:checkAgainstFilters", "reporting/filter.go:NewFilter", "reporting/filter.go:Filter.MatchesTransactionHow", "reporting/filter.go:Filter.MatchesString", "cmd/accounts.go:accountsJournal.report", "cmd/payees.go:payeesJournal.report", "cmd/balance.go:balanceProcessor.transactionHandler"]}
{"id": "C98", "title": "How long ago, in whole units", "statement": "`stats` tells for the first and the last transaction how long ago (or from now) they are: \"now\" below a second, \"a long while\" from 37 years, and otherwise k units (seconds, minutes, hours, days, weeks, months of 30 days, years of 360 days) where the time elapsed is at least k and less than k+1 units.", "quantifier": "all journals, options, filters, clock readings (any instant, before or after the transactions)", "why_tests_cant": "the text depends on the instant of the run; boundaries of 17 ranges and the saturation of durations at 292 years cannot be enumerated", "anchors": ["cmd/stats.go:statisticsJournal.report"]}
{"id": "C99", "title": "A switch of one command before the command hides the word after it", "statement": "--flatten, --show-zero, --collapse and --help (or their letters), which the program itself does not know, take the next word for their value when they stand before the command: with only one word after them no command is found and the program refuses the switch with status 1 and no output (for --help it shows the program's help instead of the command's); with another word in between the command is found, and the switch and the word count as if they stood after it.", "quantifier": "all command lines with any flags of all commands before, all environments", "why_tests_cant": "the space of command lines is infinite; cobra's search for the command treats these flags unlike the parsing of flags", "anchors": ["cmd/root.go:Execute", "cmd/root.go:init", "cmd/balance.go:init", "cmd/budget.go:init"]}
{"id": "C100", "title": "What print prints of a transaction", "statement": "print prints of every selected transaction a line with date (YYYY-MM-DD), state, payee and note, its notes, each posting with account and amount (exact hundredths up to 70 million million, otherwise to 52 bits) and its comments, in order, and an empty line.", "quantifier": "all journals, options, filters, clocks, orders of equal dates", "why_tests_cant": "texts, numbers of postings and comments, amounts are unbounded", "anchors": ["journal/transaction.go:Transaction.String", "journal/posting.go:Posting.String", "journal/amount.go:Amount.DisplayableQuantity", "cmd/print.go:printJournal.report"]}
{"id": "C101", "title": "print keeps the journal's order within a day", "statement": "Transactions of the same day are printed in the order they have in the journal.", "quantifier": "all journals, options, filters, clocks; the sort of package sort as of Go 1.15", "why_tests_cant": "whether equal dates keep their places depends on how many transactions there are and where they stand; the tests print at most two", "anchors": ["cmd/print.go:printJournal.prepare", "cmd/print.go:printJournal.report"]}
{"id": "C102", "title": "From the text of a journal to the report", "statement": "Let a journal file hold any number of transactions written in the usual way (date, state mark, payee, note; postings with account, commodity and amount; comments; at most one amount left out per transaction), each followed by a blank line, with blank lines, comment lines and budget entries in between, and let every transaction add up to zero, the amount left out counting as what is missing. Then gledger, called with any command line that names that file and asks for a report without dates or filters, exits with 0, and: print prints each transaction once, in date order, amounts filled in; accounts and payees list each account and payee once, in byte order; balance without --collapse prints one line per account used or above one used (without the zero ones unless --show-zero is given, and only the leaves with --flatten) with the sum of everything posted at or below it, and the total 0.00; stats prints the number of transactions, accounts and payees, one file, and the first and last date. If instead all amounts of some transaction are given and do not add up to zero, print, accounts and payees print nothing but the file, the number of the blank line after that transaction and 'transaction does not balance'.", "quantifier": "For all machines, journals of any length written in the described way, and command lines asking for the report.", "why_tests_cant": "Tests run single journals; this composes flag parsing, lexing, parsing, balancing, the account tree, sorting and printing for every journal and command line, stated without reference to any of them.", "anchors": ["cmd/root.go:Execute", "parser/lexer.go:lexLine", "parser/parser.go:Parser.parseItem", "journal/transaction.go:Transaction.Close", "cmd/print.go:printJournal.report", "cmd/accounts.go:accountsJournal.report", "cmd/payees.go:payeesJournal.report", "cmd/balance.go:balanceCmd.Run", "cmd/stats.go:statisticsJournal.report"]}
{"id": "C103", "title": "From the text of budget entries to the budget report", "statement": "Let a journal hold, besides transactions written in the usual way, budget entries: a line '~ YYYY-MM' and posting lines, perhaps with comments. Each entry is read as its postings, assigned on the first of that month, and one more posting that makes them add up to zero: to the fund ('_budget_root_', which cannot be written), or, if one amount is left out, to the account without amount, and then nothing comes from the fund. Transactions and entries reach the commands in the order written. Then gledger budget without dates or filters prints, in order of time, a block for each month in which something was assigned, spent or earned, with a line for each category; if no entry leaves an amount out, the amount assigned to a category is the sum of what the month's entries give to it and to the accounts below it, and the amount spent the sum of what the month's transactions post to Expenses:category and below. If the amounts of some entry add up to zero already (so that its last posting has none), or something is posted to Expenses itself, the program ends with status 2.", "quantifier": "For all machines, journals of any length written in the described way, and command lines asking for the budget.", "why_tests_cant": "Tests of the budget build it in memory from single postings; this composes flag parsing, lexing, parsing, the completion of entries by the fund, bookkeeping and printing for every journal.", "anchors": ["parser/transactionbuilder.go:endNormalTransaction", "parser/transactionbuilder.go:buildPeriodicTransaction", "parser/lexer.go:lexPeriodTransactionHeader", "parser/parser.go:parsePeriod", "cmd/budget.go:periodicTransactionHandler", "cmd/budget.go:transactionHandler", "cmd/budget.go:report"]}
{"id": "C104", "title": "From a journal in several files, with dates and filters, to what is printed", "statement": "Let a journal consist of a main file and files it includes, these including others, to any depth the machine allows: each holds transactions and budget entries written in the usual way, comment lines, blank lines and lines 'include NAME'; an entry ends at a blank line, at the first line of the next entry or at the end of the file; lines end in LF or CRLF, the last may end with the file. Included names are relative to the directory of the including file. Then the entries reach the commands in the order written, those of an included file in place of the line that includes it. For every command line with sensible dates and valid filters: print prints the transactions chosen by dates and filters, each once, in order of date; accounts and payees list, each once and in order, the names used in the date range that match an argument; balance prints for each account the sum of the chosen postings to it and below (with --collapse, chains of only children on one line), and their grand total; budget reports month by month what the chosen transactions spend and earn and what all budget entries assign; statistics counts the chosen transactions, their accounts and payees, and gives the first and last date. All end with status 0, except budget when a posting cannot be entered (status 2).", "quantifier": "For all machines, journals in any number of files written in the described way, flags, filters and command lines; statistics with no chosen transaction dated 0001-01-01.", "why_tests_cant": "Tests use one small journal per feature; this composes flag parsing, include resolution, line reading, lexing, parsing, selection and reporting for every journal.", "anchors": ["cmd/common.go:parse", "cmd/root.go:Execute", "parser/parser.go:Parse", "parser/lexer.go:lex", "parser/lexer.go:lexIncludeDirective", "cmd/common.go:dateCheckedFilteringTransactionHandler", "cmd/print.go:printJournal.report", "cmd/accounts.go:accountsJournal.report", "cmd/balance.go:balanceCmd.Run", "cmd/budget.go:budgetProcessor.report", "cmd/stats.go:statisticsJournal.report"]}
{"id": "C105", "title": "From a journal with a mistake to the message", "statement": "Let a journal, in one file or in several that include each other, be written in the usual way up to a first mistake: a line of no known kind, an unknown directive, 'include' without a name, '~' without a space, a header with a date that is none, a posting with an amount that is none, a transaction that does not balance, one whose last posting is a second one without amount (an earlier one is dropped, C03), or the inclusion of a file that is not there or is a directory. Then print, accounts and payees print one message and nothing else, and end with status 0: 'error at FILE:LINE' for each file on the way to the mistake, outermost first, then what the mistake is. LINE is the number of the offending line; for a transaction it is the line after its last posting, and there is no place at all when the file ends there. So does statistics. Balance prints before it exactly the complaints about mixed commodities that the entries finished before the mistake give rise to (under the dates and filters), and nothing of its report; budget prints its own complaints about these entries, or crashes (status 2) when one of them cannot be booked. A header line, even a wrong one, finishes the entry before it; a wrong line of another kind does not.", "quantifier": "For all machines, journals with such a mistake, including depths, dates, filters and command lines.", "why_tests_cant": "Each kind of mistake can stand at any line of any file at any depth after any well-formed journal; tests would cover one position each.", "anchors": ["parser/parser.go:Parse", "parser/lexer.go:lex", "parser/lexer.go:lexIncludeDirective", "parser/parser.go:parseItem", "journal/transaction.go:Close", "cmd/common.go:parse", "cmd/root.go:Execute"]}
{"id": "C106", "title": "From a journal that breaks the program off to the exit status", "statement": "Let a journal, in one file or in several that include each other, be written in the usual way up to one of these: a header line whose first word has less than five characters; inside an entry, a posting line with nothing, or only a commodity, after the gap that announces an amount; a posting line where nothing is open, after at least one entry; an indented comment where nothing is open; an indented comment directly under the header of a budget entry; a line of 4096 bytes or more. Then print, accounts and payees print nothing on standard output and end with status 2 (a Go panic), for the long line with status 1 (log.Fatal). So does statistics. Balance ends with the same status and prints exactly the complaints about mixed commodities that the entries finished before that place give rise to; so does budget with its own, unless it crashes earlier (status 2) because one of them cannot be booked. What follows in the journal does not matter.", "quantifier": "For all machines, journals of this kind, including depths, dates, filters and command lines.", "why_tests_cant": "The place can be after any well-formed journal, in any file at any depth of inclusion; tests would cover one position each.", "anchors": ["parser/parser.go:Parse", "parser/parser.go:parseItem", "parser/lexer.go:lex", "parser/lexer.go:lexPosting", "parser/transactionbuilder.go:build", "cmd/common.go:parse"]}
{"id": "C107", "title": "The columns of the reports line up", "statement": "In every line of the budget report the category's name stands at the left of a column of 30 characters, and the three amounts at the right of columns of 20 characters, with ' | ' between and ' |' at the end; in every line of the balance report the amount stands at the right of a column of 20 characters, then two spaces, in the tree forms two more for each level of indentation, and the name or names (joined by ':' when flat or collapsed); the total stands in the same column. Widths are counted in characters, not bytes. A text longer than its column is printed whole and moves what follows. Where all fit, the bars are exactly under those of the heading and the line is as long as the rule. Amounts that are shown exactly (up to 70 million million) take at most 18 characters.", "quantifier": "For all journals, options and filters, and all names and commodities, valid UTF-8 or not.", "why_tests_cant": "Alignment depends on the lengths of all names and amounts in characters; a test shows a few short ASCII ones.", "anchors": ["cmd/budget.go:budgetProcessor.report", "cmd/common.go:report", "reporting/tree.go:Tree"]}
{"id": "C108", "title": "From a journal in several files to the whole statistics report", "statement": "Let a journal be written in the usual way over any number of files (as in C104), with sensible dates and valid filters on the command line that choose at least one transaction. Then gledger statistics prints, and nothing else, with status 0: the number of files and each file once; the date of the earliest and of the latest chosen transaction with how long ago each was; the number of days between them (at most 106752, the limit of a duration); the number of chosen transactions, and how many that is per day to the nearest tenth, or '+Inf' when first and last day are the same; the numbers of different accounts and of different payees; and the mean age of money to the nearest day, the ages being those of the days of spending in a queue of the days of income, first in first out. A transaction counts for the file it is written in up to that file's first include line, and for the main journal after it.", "quantifier": "For all journals of this form, include structures, filters, dates, clocks and map orders. Not for transactions dated 0001-01-01 (C44), and amounts under Expenses not negative and under Income not positive over each day, within 64 bits.", "why_tests_cant": "The whole report depends on every transaction of every file; tests see single journals.", "anchors": ["cmd/stats.go:transactionHandler", "cmd/stats.go:prepare", "cmd/stats.go:report", "parser/parser.go:parseItem"]}
{"id": "C109", "title": "A date flag that is no date: what is said, and where", "statement": "Let the journal named on the command line be written in the usual way, over any number of files, up to the end of its first transaction, possibly with budget entries before it, and let --begin not be a date (or --begin be one and --end not), --current not being given. Then print, accounts, payees, statistics and balance print one message and nothing else, and exit with status 0: 'error at ', then for each file on the way the file and the number of the line where reading was (the line after the transaction; nothing if the file ends there), then what is wrong with the flag. What is wrong: the flag is cut at the first kind of separator of slash, point, dash that stands in it later than at its beginning. Without one: 'could not parse year' with the text, unless it has four bytes, then the message of strconv.Atoi for it. With two parts, of which the first has four bytes: the message of time.Parse for year and month; otherwise that for the current year put before it. With three: that for year, month, day. With more: 'unhandled number of smart date components'. There is always exactly one such message. What follows in the journal, right or wrong, does not matter. budget has before it printed its objections to the budget entries.", "quantifier": "For all machines, clocks with four-digit years, journals of this kind, include depths, filters, command lines and flag texts.", "why_tests_cant": "The message depends on the text of the flag, the clock, and the position of the first transaction in nested files; the flag is only looked at when a transaction is complete.", "anchors": ["cmd/common.go:withinDateRange", "cmd/common.go:checkAgainstFilters", "parser/dates.go:ParseSmartDate", "parser/dates.go:parseYear", "parser/dates.go:parseYearMonth", "parser/dates.go:parseMonthDay", "parser/dates.go:parseYearMonthDay", "parser/parser.go:Parse", "parser/parser.go:parseItem"]}
{"id": "C110", "title": "What is posted elsewhere does not change an account's rows", "statement": "Take two runs of balance in the same form (tree, collapsed or flat), without arguments, with the same --show-zero setting, both ending well, and a top-level account. If both take the same postings to that account and the accounts below it, in the same order, comments aside, then both reports hold the same lines for it and the accounts below it: in both they stand together, in the same order, with the same amounts, indentation and names; all other lines are of other accounts. In particular, when a journal is appended to another and posts nothing to the account or below it, the account's lines stay what they were in the report on the first alone; and if the report on both together ends well, so does the one on the first.", "quantifier": "For all machines, clocks and pairs of journals, however many files, whatever the dates and other flags, and all account names.", "why_tests_cant": "The report is built from one tree to which every posting is added and whose map of children is walked in sorted order; that rows of one account are independent of all others cannot be shown on examples.", "anchors": ["cmd/balance.go:transactionHandler", "cmd/balance.go:prepareBalance", "journal/account.go:FindOrCreateAccount", "journal/account.go:WalkAncestors", "journal/account.go:RemoveEmptyChildren", "journal/journal.go:wireUpPosting", "reporting/tree.go:tree"]}
{"id": "C111", "title": "A journal may be moved with the files it includes", "statement": "Let a journal stand in a directory together with the files it includes, and let any command be run on it, the journal being named by --file or by LEDGER_FILE. If the directory is called differently (a relative or an absolute path, or none; its name in UTF-8), and the files in it are the same, the program prints the same and exits with the same status, except that in error messages and in the list of files of statistics the files have their new names (the listed files may come in another order). This holds whether or not reading succeeds; in messages every place where a file is named changes with it, and nothing else does, up to what the system says about a file that cannot be opened or read.", "quantifier": "For all machines, journals, include structures, directories, commands and command lines.", "why_tests_cant": "The names of included files are put together from the directory of the including file; independence of that directory is a statement about all trees of files and all directories.", "anchors": ["parser/lexer.go:lexIncludeDirective", "parser/parser.go:parseItem", "parser/parser.go:Parse", "cmd/common.go:parse", "cmd/stats.go:transactionHandler", "journal/journal.go:AddTransaction"]}
{"id": "C112", "title": "The journal that balance builds holds what was used", "statement": "When balance has read its journal without error, the journal in memory holds exactly the transactions used (in the date range and matching the filters), in the order they were read, with one file path each, that of the file the transaction is counted for; all budget entries in order; and each account of the tree holds exactly the used postings to that very account, in order, an account existing for each of them.", "quantifier": "For all machines, journals, filters and flags.", "why_tests_cant": "The lists are extended by a handler called from the parser for each of any number of transactions over any number of files.", "anchors": ["journal/journal.go:AddTransaction", "journal/journal.go:AddPeriodicTransaction", "journal/journal.go:AddPosting", "journal/journal.go:wireUpPosting", "cmd/balance.go:transactionHandler"]}
{"id": "C113", "title": "An absolute include names that file", "statement": "An include line whose path begins with a slash includes the file of that absolute path, wherever the including file stands.", "quantifier": "For all directories of including files and all absolute paths.", "why_tests_cant": "The path is put together from two texts; examples use journals in the current directory, where it makes no difference.", "anchors": ["parser/lexer.go:lexIncludeDirective"]}
{"id": "C114", "title": "The order of the arguments does not matter", "statement": "Giving a command its filter arguments in another order, or one of them more than once, changes nothing: whatever output and exit status are possible with one list (over the orders in which Go may iterate maps) are possible with the other; print, accounts and payees show the very same, and balance the same rows, quantities and total, and stats the same but for the order in which it lists the files; budget over one commodity prints the same report, and the very same output if all categories have one level.", "quantifier": "For all journals, flags, commands and lists of well-formed arguments with the same elements.", "why_tests_cant": "Tests try single arguments or one order; the claim is about all lists and all map orders.", "anchors": ["cmd/common.go:checkAgainstFilters", "reporting/filter.go:NewFilter", "cmd/accounts.go:accountsJournal.prepare", "cmd/payees.go:payeesJournal.prepare", "cmd/stats.go:statisticsJournal.report", "cmd/budget.go:budgetProcessor.report"]}
{"id": "C115", "title": "An empty range of dates selects nothing", "statement": "When --end is not after --begin, print, accounts and payees print nothing and balance prints no account and a total of 0.00; all succeed.", "quantifier": "For all journals that can be read, all arguments, clocks, zones and pairs of date flags with the end not after the begin.", "why_tests_cant": "Tests use ranges that contain something; the claim is about every pair of flag texts and every journal.", "anchors": ["cmd/common.go:withinDateRange", "cmd/common.go:dateCheckedFilteringTransactionHandler"]}
{"id": "C116", "title": "A wider range of dates selects more", "statement": "Moving --begin to an earlier date or leaving it out, and moving --end to a later date or leaving it out, loses nothing: everything print, accounts or payees shows for the narrower range is shown for the wider one.", "quantifier": "For all journals that can be read, all arguments and all pairs of ranges, a begin date left out counting as 0001-01-01 and the narrower range not ending at 0001-01-01 UTC, which the program takes for no end.", "why_tests_cant": "Needs all pairs of ranges and all journals.", "anchors": ["cmd/common.go:withinDateRange", "parser/dates.go:ParseSmartDate"]}
{"id": "C117", "title": "Marks, payees, notes and comments do not change a balance", "statement": "Two journals whose transactions have, one by one, the same dates and the same accounts and amounts give the very same balance (without arguments) and the same list of accounts (with any), whatever their marks, payees, notes, comments and layout.", "quantifier": "For all pairs of such journals, all date flags and report flags.", "why_tests_cant": "Tests compare with one expected output; this relates all pairs of journals.", "anchors": ["cmd/balance.go:balanceProcessor.transactionHandler", "cmd/accounts.go:accountsJournal.transactionHandler", "journal/journal.go:wireUpPosting"]}
{"id": "C118", "title": "Transfers inside an account leave it alone", "statement": "Appending transactions all of whose postings are to an account or below it changes no row of that account, of the accounts above it or of any account elsewhere, neither whether it is shown nor what it shows; the grand total stays. With --flatten or --collapse the same holds of the lines of all accounts except that account and those below it.", "quantifier": "For all journals, all appended texts that post only at or below the account, all date flags, with or without zero accounts; the account already holds an amount with a commodity.", "why_tests_cant": "Relates two runs over all journals and all additions.", "anchors": ["journal/journal.go:wireUpPosting", "journal/account.go:WalkAncestors", "journal/account.go:RemoveEmptyChildren", "reporting/tree.go:Tree"]}
{"id": "C119", "title": "A balance depends only on what is posted to each account in all", "statement": "Two runs of balance over postings in one commodity, with whatever journals, dates and arguments, end alike and print the very same text if the same accounts are posted to and to each of them the same sum is posted (not counting accounts below it): how the sums are split into postings and transactions, and their order, does not matter.", "quantifier": "For all pairs of journals that can be read, all date flags, arguments and map orders, all report flags given alike; sums taken modulo 2^64.", "why_tests_cant": "Relates all pairs of journals, and all orders in which Go may iterate maps.", "anchors": ["cmd/balance.go:balanceProcessor.transactionHandler", "journal/account.go:WalkAncestors", "journal/account.go:FindOrCreateAccount", "cmd/balance.go:prepareBalance", "reporting/tree.go:Tree", "reporting/flattenedtree.go:FlattenedTree"]}
{"id": "C120", "title": "A budget depends only on what is earned, assigned and spent in each month", "statement": "Two runs of budget over postings in one commodity, with whatever journals, dates and arguments, print the very same report (after the remarks made while reading) if they concern the same months and in each month the same sum is earned and, for each category, the same sums are assigned and spent: how the sums are split into postings and transactions, and their order, does not matter. If all categories have one level there are no remarks and the whole output is the same.", "quantifier": "For all pairs of journals that both runs of budget accept, all date flags, arguments and map orders; sums taken modulo 2^64.", "why_tests_cant": "Relates all pairs of journals, and all orders in which Go may iterate maps.", "anchors": ["cmd/budget.go:budgetProcessor.periodicTransactionHandler", "cmd/budget.go:budgetProcessor.transactionHandler", "cmd/budget.go:budgetProcessor.report", "journal/budget.go:Budget.AddPosting", "journal/budget.go:Budget.addIncomePosting"]}
{"id": "C121", "title": "The budget of what print prints is the budget", "statement": "The budget of the journal that print prints for a range of dates is the budget for that range of dates.", "quantifier": "Every journal, every range of dates, every clock and map order.", "why_tests_cant": "Composes two commands over all journals; the output of one is the input of the other.", "anchors": ["cmd/print.go:printJournal.report", "journal/transaction.go:Transaction.String", "cmd/print.go:printJournal.transactionHandler", "cmd/budget.go:budgetProcessor.transactionHandler", "cmd/budget.go:budgetProcessor.report", "journal/budget.go:Budget.AddPosting"]}
{"id": "C122", "title": "Statistics depend only on counts, names, the first and last day and day sums", "statement": "Two runs of stats, with whatever journals, dates and arguments, print the very same report below the list of files if the selected transactions are as many, have the same payees and accounts, the same first and last date, and on each day the same sums of income and of expenses: neither the order of transactions nor how the sums are split into postings and transactions matters, to the age of money either.", "quantifier": "For all pairs of journals that both runs of stats accept and whose selected transactions are not dated 0001-01-01, all date flags, arguments and map orders; sums taken modulo 2^64.", "why_tests_cant": "Relates all pairs of journals, and all orders in which Go may iterate maps.", "anchors": ["cmd/stats.go:statisticsJournal.transactionHandler", "cmd/stats.go:statisticsJournal.prepare", "cmd/stats.go:statisticsJournal.report"]}
{"id": "C123", "title": "The order of the postings of an entry does not matter", "statement": "Take a journal and write the postings (with their comments) of its transactions and budget entries in another order. If each transaction has all its amounts or amounts in one commodity, and each budget entry is in one commodity, then the entries read are the same but for the order of their postings; print prints the same transactions but for that order; accounts and payees list the same; balance shows the same rows and total (the same text, if the journal is in one commodity); stats shows the same text; and the budget of a journal in one commodity is the same but for remarks on commodities. With an amount left out beside amounts in two commodities the order matters: the amount left out is in the commodity named last.", "quantifier": "For all well-formed journals in one file and all reorderings of the postings within their entries, all date flags and arguments, all map orders; for stats no transaction dated 0001-01-01; for accounts and payees arguments that are regular expressions.", "why_tests_cant": "Relates all journals to all their reorderings.", "anchors": ["parser/parser.go:Parser.parseItem", "parser/transactionbuilder.go:endTransaction", "journal/transaction.go:Transaction.Close", "cmd/print.go:printJournal.transactionHandler", "cmd/accounts.go:accountsJournal.prepare", "cmd/payees.go:payeesJournal.prepare", "cmd/balance.go:balanceProcessor.transactionHandler", "cmd/stats.go:statisticsJournal.transactionHandler", "cmd/budget.go:budgetProcessor.transactionHandler"]}
{"id": "C124", "title": "Renaming accounts renames the rows of a balance and changes nothing else", "statement": "Rename the parts of account names throughout a journal, one to one (the two reserved names stay what they are). Then balance, in any form, prints the same lines with the names replaced: the same amounts, commodities and indentation, the same accounts hidden or folded, the same complaints and total; the lines are sorted by the new names, hence in the same order if the renaming keeps the order of names. accounts lists the renamed accounts.", "quantifier": "For all journals, all one-to-one renamings, all date flags and report flags, without arguments.", "why_tests_cant": "Relates all journals to all their renamings.", "anchors": ["cmd/balance.go:balanceProcessor.transactionHandler", "journal/account.go:FindOrCreateAccount", "cmd/balance.go:prepareBalance", "journal/account.go:RemoveEmptyChildren", "reporting/tree.go:Tree", "reporting/flattenedtree.go:FlattenedTree", "cmd/accounts.go:accountsJournal.prepare"]}
{"id": "C125", "title": "A month's budget section tells of that month's entries only", "statement": "If in some month two journals earn, assign and spend the same, the section that budget prints for this month is the same, whatever else the journals have in other months: nothing is carried over from one month to another. In particular, after a journal with entries of later months only has been appended to another, budget prints the sections of the first as before and then those of the second.", "quantifier": "For all journals, dates and arguments, of one commodity (in the month, for the first part).", "why_tests_cant": "Relates all journals that agree on one month; the appended journal is arbitrary.", "anchors": ["cmd/budget.go:budgetProcessor.periodicTransactionHandler", "cmd/budget.go:budgetProcessor.transactionHandler", "cmd/budget.go:budgetProcessor.report", "journal/budget.go:Budget.AddPosting", "journal/budget.go:normaliseToMonth"]}
{"id": "C126", "title": "What cancels out leaves no trace in a balance", "statement": "Without --show-zero, balance depends only on what is posted in all to each account, an account with nothing posted counting as zero: two journals with the same totals account by account print the same report, even if each names accounts the other does not. In particular, entries that cancel out account by account, such as a purchase and its reversal, can be appended to a journal without changing its balance.", "quantifier": "For all journals, dates and arguments, in one commodity and with priced postings, where no account has a component named `_root_` (such accounts stay in the report at zero) and neither or both journals select no posting at all.", "why_tests_cant": "Relates all pairs of journals with equal totals, whatever their entries, order and account names.", "anchors": ["cmd/balance.go:balanceProcessor.transactionHandler", "cmd/balance.go:prepareBalance", "journal/account.go:RemoveEmptyChildren", "journal/account.go:WalkAncestors", "journal/journal.go:wireUpPosting"]}
{"id": "C127", "title": "Budget entries are seen by budget alone", "statement": "accounts, balance, payees, print and statistics do the same whether or not the journal has budget entries: with the same transactions in the same order, in files of the same names, and reading ending alike, they print the same and end alike (only the line named in an error message can differ). In particular striking all budget entries from a journal written in the usual way changes nothing for these commands, and neither does appending a journal of budget entries only.", "quantifier": "For all machines, files, options and arguments; the files may differ in everything but the transactions delivered.", "why_tests_cant": "Relates all journals to all others with the same transactions; balance does hand budget entries to its journal, so this rests on every path there.", "anchors": ["cmd/balance.go:balanceProcessor.transactionHandler", "cmd/balance.go:balanceCmd.Run", "journal/journal.go:AddPeriodicTransaction", "journal/periodictransaction.go:PeriodicTransaction.Run", "parser/parser.go:Parse"]}
{"id": "C128", "title": "The date flags strike out the transactions of other days", "statement": "Running a command with --begin, --end or --current does what running it without them does on a journal from which the transactions outside the range have been struck out (budget entries stay): print, accounts and payees print the same, balance prints the same (with arguments: at least when one commodity is used), statistics the same but for the order in which the files are named, and budget tells of the same moves, without arguments in the same words. So a journal kept in parts can be cut to the parts of a period instead of giving the flags.", "quantifier": "For all machines whose date does not change during the run, files, flags that are dates, arguments and journals; for stats no selected transaction on 0001-01-01, and the transactions kept are not before year 1.", "why_tests_cant": "Relates two different journals under two different command lines; any handler that looked at a transaction before the date check, or numbered transactions, would break it.", "anchors": ["cmd/common.go:withinDateRange", "cmd/common.go:dateCheckedFilteringTransactionHandler", "cmd/common.go:dateCheckedTransactionHandler", "cmd/common.go:checkAgainstFilters", "cmd/print.go:printJournal.transactionHandler", "cmd/balance.go:balanceProcessor.transactionHandler", "cmd/stats.go:statisticsJournal.transactionHandler", "cmd/budget.go:budgetProcessor.transactionHandler"]}
{"id": "C129", "title": "Arguments that pick whole transactions strike out the others", "statement": "When every transaction is either picked as a whole by the arguments (by its payee, its header note or its notes) or not picked at all, print, balance and budget with the arguments do exactly what they do without arguments on a journal from which the transactions not picked have been struck out (budget entries stay), and statistics prints the same report but for the order in which the files are named.", "quantifier": "For all machines whose date does not change during the run, files, date flags, arguments that are regular expressions and journals; for stats no transaction on 0001-01-01.", "why_tests_cant": "Relates two different journals under two different command lines; a handler that used a matching transaction only in part, or one that does not match, would break it.", "anchors": ["cmd/common.go:checkAgainstFilters", "cmd/common.go:dateCheckedFilteringTransactionHandler", "cmd/print.go:printJournal.transactionHandler", "cmd/balance.go:balanceProcessor.transactionHandler", "cmd/stats.go:statisticsJournal.transactionHandler", "cmd/budget.go:budgetProcessor.transactionHandler"]}
{"id": "C130", "title": "Date flags mean only the days they name", "statement": "Two command lines that differ in the date flags only and allow the same days do exactly the same, whatever the command: in particular however the dates of --begin and --end are spelled (2021-03-02, 2021.03.02, 03/02 in 2021, ...), and --current does what --end with the day after today does when read at midnight UTC, and what --end with the day after that does at any other time, on a machine in UTC.", "quantifier": "For all machines, files, commands, arguments, display flags and pairs of date flags that are dates.", "why_tests_cant": "Two command lines on every journal and every clock; a command that looked at the text of a flag, or compared dates in another way than the others, would break it.", "anchors": ["cmd/common.go:withinDateRange", "cmd/common.go:dateCheckedTransactionHandler", "cmd/common.go:dateCheckedFilteringTransactionHandler", "parser/dates.go:ParseSmartDate"]}
{"id": "C131", "title": "Where entries are written matters to stats alone", "statement": "When the files hold the same transactions and budget entries in the same order, wherever they are written, accounts, balance, budget, payees and print do the same, and statistics does the same but for the lines that name the files, which are files the entries were read from. In particular an include line of a file in the same directory can be replaced by the text of that file and a blank line.", "quantifier": "For all machines, files, include structures, flags and arguments; for the inlining: journals that can be read, include lines of less than 4096 bytes, files that end with a newline.", "why_tests_cant": "Relates two different sets of files; a command that let the file a transaction was read from into its report, its order or its sums would break it.", "anchors": ["parser/parser.go:parseItem", "parser/parser.go:Parse", "cmd/common.go:dateCheckedFilteringTransactionHandler", "cmd/stats.go:statisticsJournal.transactionHandler", "cmd/balance.go:balanceProcessor.transactionHandler", "cmd/budget.go:budgetProcessor.transactionHandler"]}
{"id": "C132", "title": "Listings depend only on the names used", "statement": "accounts prints the same for two journals (and two sets of date flags) that can be read exactly when, among the names the arguments ask for, the same accounts are named by the transactions of the days asked for; payees likewise with payees. Amounts, commodities, notes, order, numbers of transactions, files and everything else do not matter.", "quantifier": "For all pairs of machines that match patterns alike, files, date flags and arguments, where both journals can be read.", "why_tests_cant": "An equivalence over all pairs of journals; a listing that let anything else in, or lost a name, would break one direction.", "anchors": ["cmd/accounts.go:accountsJournal.transactionHandler", "cmd/accounts.go:accountsJournal.report", "cmd/payees.go:payeesJournal.transactionHandler", "cmd/payees.go:payeesJournal.report"]}
{"id": "C133", "title": "A journal entered twice", "statement": "When a journal that a command accepts is written out twice in the same file, the command accepts that too: accounts and payees list the same, print prints every transaction twice, balance shows every account with twice its balance (in 64 bits), statistics counts twice the transactions and the same accounts, payees and days, and budget shows in every month twice the income and for every category twice what was assigned and spent.", "quantifier": "For all machines with a steady clock, journals whose text ends a line, flags and arguments (balance with zero balances shown; days of statistics where no transaction is dated 0001-01-01).", "why_tests_cant": "Relates the reports of two journals for every journal; deduplication, a lost entry at the seam, or state kept between entries would break it.", "anchors": ["parser/parser.go:Parse", "cmd/print.go:printJournal.transactionHandler", "cmd/balance.go:balanceProcessor.transactionHandler", "cmd/stats.go:statisticsJournal.transactionHandler", "cmd/budget.go:budgetProcessor.transactionHandler", "cmd/accounts.go:accountsJournal.transactionHandler"]}
{"id": "C134", "title": "Renaming the categories of a budget renames its rows and changes nothing else", "statement": "When the categories of a journal are renamed one to one, in budget entries and under Expenses alike, the budget says the same, has sections for the same months with the same income, and in each section the same rows with the same figures under the new names, in the order of the new names (the same order if the renaming keeps the order of names). What accounts other than Expenses and Income are called does not matter.", "quantifier": "For all machines, journals, date flags (without arguments) and one-to-one renamings that leave the fund to itself.", "why_tests_cant": "Relates the reports of two journals for every renaming; a category with a special meaning, a name looked at by its letters, or figures attached to the wrong name would break it.", "anchors": ["cmd/budget.go:budgetProcessor.periodicTransactionHandler", "cmd/budget.go:budgetProcessor.transactionHandler", "cmd/budget.go:budgetProcessor.report"]}
{"id": "C135", "title": "What follows a mistake in a journal is not looked at", "statement": "When a journal cannot be read, with the mistake in the journal itself, in a file it includes or in the file system, each command prints and reports the same whatever is written after it, on the lines following a blank line: entries, includes of files good or bad, or text that is no journal at all.", "quantifier": "For all machines, commands, flags, journals that do not include themselves and that fail to read, and all texts written after them; for the program as for each command.", "why_tests_cant": "Quantifies over every failing journal and every continuation; a parser that skips to the next entry after a mistake, collects several mistakes, or reads ahead would break it.", "anchors": ["parser/lexer.go:lex", "parser/parser.go:Parser.Parse", "parser/parser.go:Parser.parseItem", "cmd/common.go:parse"]}
{"id": "C136", "title": "Entries written before a journal move its mistakes down, and change nothing else about them", "statement": "When a journal that can be read and a blank line are written before a text that begins with the header of an entry, the entries read are those of the first followed by those of the second up to its first mistake, and that mistake is found again, the same one, in the same file: the line named in the text is its old line plus the lines written before it, while lines named in files the text includes, and mistakes for which no line is named, stay as they were. The message of print, accounts and payees differs in that line number alone.", "quantifier": "For all machines, journals read without fault, texts that begin with a header (an entry's or a budget entry's, good or bad), good or bad; the files included do not include the journal.", "why_tests_cant": "Relates reading two unbounded texts apart and together; anything the parser carries over from one entry to the next, or a line counted twice or not at all, would break it.", "anchors": ["parser/lexer.go:lex", "parser/parser.go:Parser.Parse", "parser/parser.go:Parser.parseItem", "parser/transactionbuilder.go:beginTransaction", "parser/transactionbuilder.go:endTransaction"]}
{"id": "C137", "title": "Statistics of a journal moved in time", "statement": "When every transaction of a journal is made the same number of days later, its statistics name a first and a last transaction that many days later, and say the same in every other line below the files: the time period, the number of transactions and how many there are a day, the unique accounts and payees, and the age of money.", "quantifier": "For all machines, journals, arguments and date flags and numbers of days, the transactions picked being the same, none of them on 1 January of the year 1.", "why_tests_cant": "Relates the reports of two journals for every shift, across months, leap years and centuries; an age computed from months, a special day, or days that are not told apart would break it.", "anchors": ["cmd/stats.go:statisticsJournal.transactionHandler", "cmd/stats.go:statisticsJournal.prepare", "cmd/stats.go:statisticsJournal.report"]}
{"id": "C138", "title": "A budget moved by whole months", "statement": "When everything in a journal happens the same number of months later, on whatever day of the month, its budget says the same before the sections, has as many sections, each headed with the month that many months later, and every section says the same below its heading: the same income, the same rows in the same order, the same figures carried over.", "quantifier": "For all machines, journals and date flags (without arguments) and numbers of months, forwards or backwards, across the ends of years.", "why_tests_cant": "Relates the reports of two journals for every shift; a budget that starts afresh each January, months told apart by their number alone, months in the order of their names, or a figure that depends on the day would break it.", "anchors": ["cmd/budget.go:budgetProcessor.periodicTransactionHandler", "cmd/budget.go:budgetProcessor.transactionHandler", "cmd/budget.go:budgetProcessor.report"]}
{"id": "C139", "title": "The order in which print prints depends on the order of the days only", "statement": "print decides where each transaction goes by comparing dates and by nothing else. When two journals have the same number of selected transactions and their days come before one another alike, the same places are printed one after another in both, whatever the payees, accounts, amounts, notes and the dates themselves are, even where transactions of one day do not keep the journal's order.", "quantifier": "For all machines, journals of any length, arguments and date flags, with the sort of Go 1.15.", "why_tests_cant": "Relates the runs on two journals for every number of transactions, through every branch of the sort; an order that also looks at payees or amounts, or that depends on how far apart days are, would break it.", "anchors": ["cmd/print.go:printJournal.prepare", "cmd/print.go:printJournal.report"]}
{"id": "C140", "title": "Renaming accounts and payees in listings and statistics", "statement": "When accounts and payees are renamed one to one, income staying income and spending spending, statistics say the same in every line below the files, and accounts and payees list exactly the new names, each once, in their order. More generally, statistics below the files depend on how many accounts and payees there are, not on their names.", "quantifier": "For all machines, journals, date flags and one-to-one renamings (with arguments for statistics, the postings picked corresponding; without for the listings), no transaction picked being on 1 January of the year 1.", "why_tests_cant": "Relates the reports of two journals for every renaming; an account or payee with a special name, or names cut short or compared in part, would break it.", "anchors": ["cmd/stats.go:statisticsJournal.transactionHandler", "cmd/stats.go:statisticsJournal.report", "cmd/accounts.go:accountsJournal.report", "cmd/payees.go:payeesJournal.report"]}
{"id": "C141", "title": "print of a journal moved in time", "statement": "When every entry of a journal is made the same number of days later, print prints the same entries in the same order, each with a date that many days later and the same text after it, even where entries of one day do not keep the journal's order.", "quantifier": "For all machines, journals of any length, arguments and date flags and numbers of days, the entries picked being the same, with the sort of Go 1.15.", "why_tests_cant": "Relates two runs for every shift, across months and leap years, through every branch of the sort; an order by the text of dates, by day of the month, or by anything but the date would break it.", "anchors": ["cmd/print.go:printJournal.prepare", "cmd/print.go:printJournal.report", "journal/transaction.go:Transaction.String"]}
