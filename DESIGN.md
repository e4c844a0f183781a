# Formal model of gledger in Rocq (Coq 8.16.1)

## What is modelled

A program run is modelled from the bytes of the journal files and the command line to the text on standard
output and the way the run ends.

| file (rocq/theories) | models | from |
|---|---|---|
| `Base.v` | byte strings, int64 wrap-around, run status, `strings.Split/Join`, sorting, `%Ns` padding | Go runtime/library facts used by the code |
| `Utf8.v` | `utf8.DecodeRune`, `string([]rune)` | library |
| `Unicode.v` | `unicode.IsSpace/IsLetter/IsNumber/IsUpper` (exact in Latin-1, oracle above) | library |
| `Lexer.v` | the lexer with explicit `pos`/`width` | parser/lexer.go |
| `GoTime.v` | calendar dates, `time.Parse` for the layouts used | parser/dates.go, parser/parser.go:117-142,195-212 |
| `Strconv.v` | `strconv.ParseInt/Atoi`, `parseAmount` | parser/parser.go:144-193 |
| `Display.v` | `float64(q)/100` (IEEE binary64, the standard library's `SpecFloat`) and `%.2f` | journal/amount.go |
| `Journal.v` | `Amount`, `Posting`, `Transaction`, `PeriodicTransaction` | journal/{amount,posting,transaction,periodictransaction}.go |
| `Parser.v` | builder and parser state machine, includes, handlers | parser/{parser,transactionbuilder}.go |
| `Account.v` | account tree, all operations | journal/account.go, journal/journal.go |
| `Heap.v` | `PathComponents` with Go's shared slices (addresses, lengths, capacities) | journal/account.go:12-33,90-139 |
| `Reporting.v` | tree, flattened tree, filters | reporting/*.go |
| `Budget.v` | budget months | journal/budget.go |
| `GoSort.v` | `sort.Slice` as of Go 1.15 (quicksort, heapsort, insertion sort) | library, for cmd/print.go:54-58 |
| `Humanize.v` | `humanize.Time` of go-humanize v1.0.0 | library, for cmd/stats.go:191-192 |
| `Cmd.v` | balance, print, accounts, payees, stats, budget | cmd/*.go |
| `Unused.v` | exported or generated code no command reaches | reporting/filter.go:131-148, cmd/common.go:75-98, journal/account.go:68-77, the `String` methods |
| `Main.v` | the whole program: command line, names and flags of the commands, texts of errors, exit status | main.go, cmd/root.go, cmd/version.go, the `init` functions of cmd/*.go |

Every definition cites the lines it models.  `Conformance.v` runs the repository's own tests on the model.

Not modelled: help texts and cobra's own commands (arguments of the model), what is written to standard error,
the texts of errors made by time, strconv, os and regexp (the argument `L` of the model, a function of what the call was given),
and allocation, except where sharing is visible (`Heap.v`).

Conventions: byte strings and rune slices are `list Z`; int64 arithmetic is `Z` with explicit wrap
(`wrap64`); errors, panics, `log.Fatalln` and "include depth exhausted" are distinct outcomes of a run and
never look like success; maps are association lists, and wherever Go iterates over a map the theorems
quantify over the order; external behaviour (file system, regular expressions, clock, zone, Unicode tables above
U+00FF, the unstable `sort.Slice`) is an explicit parameter (the record `env` of `Cmd.v`, or an argument), never an axiom.
Hypotheses about these parameters are named: `orders` (map iteration gives a permutation), `sorts` (`sort.Slice`
gives a sorted permutation; proved of `GoSort.v` in `SortFacts.v`), `sane_clock` (the clock shows a year of four digits), `words_match` (C97 only: package
regexp finds plain words).

## How the proofs are organised

* Specifications, independent of the model's functions: `Spec`, `TextSpec` (dates and amounts as texts),
  `JournalText`, `BookText`, `FilesText`, `PlaceText` (how a journal is written, and the file an entry is counted for), `MistakeText` (mistakes in one), `CrashText` (what breaks the program off), `FlagText` (date flags that are none), `LexSpec` (lexing on runes), `FlatSpec` (a journal as one list of lines),
  `PanicSpec`, `TreeSpec`, `ReportSpec`, `CmdSpec`, `BudgetSpec`, `MainSpec` (command lines).
* Lexer: `LexerFacts` proves that the positional lexer computes `LexSpec.lex_runes`; `LexBounds` that its loops end
  and stay in the line; `LexText`, `LexedFacts` describe the texts in items.
* Parser: `ParserFacts` proves that a run with any handlers is a fold over one stream of events; `FlatFacts` that the
  stream is that of the flattened list of lines; `BuilderFacts`, `LineFacts`, `IncludeFacts`, `InputFacts`,
  `KeptFacts`, `PanicFacts`, `OriginFacts`, `StreamFacts` are invariants of it; `ReadFacts`, `WriteFacts`, `BodyFacts`,
  `WholeFacts`, `FilesFacts`, `PrintFacts` read back what is written, `PlaceFacts` says where it stood, `LocateFacts`, `MistakeFacts`, `CrashFacts`, `FlagFacts` find what is wrong, `HandFacts` says where an entry is handed to the command; `ParseRel` relates two runs.
* Numbers and dates: `DisplayFacts`, `AmountFacts`, `LargeFacts`, `DateFacts`, `CalendarFacts`, `DayFacts`, `FloatFacts`.
* Library: `SortFacts` (sort.Slice sorts).
* Trees and reports: `TreeFacts`, `PruneFacts`, `ReportFacts`, `CollapseFacts`.
* Commands: `CmdFacts`, `BalanceFacts`, `AgeFacts`, `BankFacts`, `BudgetFacts`, `BudgetRun`, `StopFacts` (runs cut short), `MainFacts`.
* Theorems about the properties: `Props*.v`, each with an `Example` that meets its hypotheses.

A property that is false of the program has a `_refuted` theorem with a witness and theorems that say where it holds
(status "partial" in MANIFEST.json).

## Trusted base

* Coq 8.16.1's kernel (and its virtual machine, used by `vm_compute` in examples and witnesses).
* The reading of the Go source in the cited lines.
* The library behaviour named in the table above, written from the Go documentation and source as of Go 1.15.
* What cobra v1.1.1 and pflag v1.0.5 (go.mod) do with a command line, written down in `Main.v` for the commands and
  flags this program declares.  Only the theorems of `PropsMain.v` depend on it; all others start from the parsed flags.

No axioms: `Print Assumptions` on each of the theorems below answers "Closed under the global context".
The only libraries used are Coq's own.

## The properties and their theorems

| property | status | theorems | Print Assumptions |
|---|---|---|---|
| C01 Every delivered transaction balances | proved | `C01_delivered_transactions_balance`, `C01_handlers_see_balanced_transactions` | closed |
| C02 Elided amount is inferred exactly; unbalanced transactions are rejected | proved | `C02_elided_posting_is_unique`, `C02_close` | closed |
| C03 At most one posting may omit its amount | partial | `C03_two_elided_refuted`, `C03_elided_postings_partial`, `C03_delivered` | closed |
| C04 Amounts are read exactly | partial | `C04_amounts_exact_partial`, `C04_accepted_texts`, `C04_one_decimal_refuted` | closed |
| C05 Displayed quantities are exact | partial | `C05_display_exact_partial`, `C05_display_refuted`, `C05_display_close` | closed |
| C06 Displaying then reading an amount gives the same amount | partial | `C06_read_back_partial`, `C06_close_partial`, `C06_read_back_refuted` | closed |
| C07 Header dates are accepted exactly when they are calendar dates | proved | `C07_header_dates`, `C07_header_lines`, `C07_success_means_dates` | closed |
| C08 A malformed header date is an error, never a crash | partial | `C08_short_date_refuted`, `C08_panic_iff_short_word_partial` | closed |
| C09 Smart dates of --begin/--end | proved | `C09_smart_dates`, `C09_never_panics` | closed |
| C10 Lexing terminates on every line and never reads out of bounds | proved | `C10_scanning`, `C10_stepping_back` | closed |
| C11 Column-zero comment lines are inert | proved | `C11_comment_lines_are_inert`, `C11_program` | closed |
| C12 The blank line between transactions is optional | proved | `C12_blank_line_before_header_is_inert`, `C12_program` | closed |
| C13 LF and CRLF journals parse alike | proved | `C13_crlf`, `C13_crlf_everywhere`, `C13_program` | closed |
| C14 The final newline is optional | proved | `C14_final_newline`, `C14_program` | closed |
| C15 Over-long lines stop the program, they are never truncated | proved | `C15_lines_are_short`, `C15_long_line_is_fatal`, `C15_only_long_lines` | closed |
| C16 One transaction per header, in file order | proved | `C16_one_entry_per_header` | closed |
| C17 Including a file is reading its lines in place | proved | `C17_include_reads_lines_in_place`, `C17_inlining_the_text` | closed |
| C18 Include paths are relative to the including file | partial | `C18_include_path_refuted`, `C18_include_exactly`, `C18_include_path_partial`, `C18_path_is_opened` | closed |
| C19 Cyclic includes never succeed | proved | `C19_cycles_never_succeed` | closed |
| C20 Transactions are attributed to the file they are written in | partial | `C20_attribution_refuted`, `C20_open_transaction_refuted`, `C20_attribution_partial`, `C20_exact`, `C20_one_level_partial` | closed |
| C21 Errors name the file and line where reading stopped | partial | `C21_location_refuted`, `C21_location_partial`, `C21_message_partial` | closed |
| C22 Transactions balance per commodity | partial | `C22_per_commodity_refuted`, `C22_one_commodity_partial` | closed |
| C23 An account's balance is the sum of the postings at or below it | proved | `C23_balance`, `C23_accounts`, `C23_parent`, `C23_added` | closed |
| C24 The grand total of an unfiltered balance is zero | proved | `C24_total` | closed |
| C25 Balances do not depend on the order of transactions | proved | `C25_order` | closed |
| C26 Balance output is deterministic | partial | `C26_one_commodity_partial`, `C26_unfiltered_partial`, `C26_deterministic_refuted`, `C26_rows_partial` | closed |
| C27 Without --show-zero exactly the zero accounts are hidden | partial | `C27_zero_hidden_refuted`, `C27_shown_partial`, `C27_zero_accounts_partial` | closed |
| C28 The flat report lists every leaf account once and adds up | partial | `C28_flat_partial`, `C28_adds_up_refuted`, `C28_adds_up_partial` | closed |
| C29 The tree report shows each account exactly once in its place | proved | `C29_tree` | closed |
| C30 Collapsed tree report | proved | `C30_collapse`, `C30_rows` | closed |
| C31 FindOrCreateAccount finds or creates exactly the named account | proved | `C31_find_or_create` | closed |
| C32 An account's Path is its components joined by ':' | proved | `C32_path` | closed |
| C33 An account's PathComponents stay its own | partial | `C33_own_array_partial`, `C33_shallow_partial`, `C33_sibling_refuted`, `C33_spending_refuted` | closed |
| C34 PruneChildren keeps exactly the accounts down to the given depth | proved | `C34_prune`, `C34_negative` | closed |
| C35 RemoveChildren keeps exactly matching accounts and their ancestors | proved | `C35_remove` | closed |
| C36 FindAccounts returns every matching account once | proved | `C36_find`, `C36_leaves` | closed |
| C37 Filters select whole transactions or exactly the matching postings | proved | `C37_filters`, `C37_arguments` | closed |
| C38 --begin is inclusive and --end exclusive | partial | `C38_range_partial`, `C38_west_partial`, `C38_range_refuted` | closed |
| C39 --current stops at today | partial | `C39_current_partial`, `C39_midnight`, `C39_current_refuted` | closed |
| C40 The accounts command lists each used account once, sorted | proved | `C40_accounts` | closed |
| C41 The payees command lists each payee once, sorted | proved | `C41_payees`, `C41_bad_argument` | closed |
| C42 print shows exactly the selected transactions in date order | proved | `C42_print`, `C42_own_sort` | closed |
| C43 print's output reads back as the same transactions | partial | `C43_reads_back_partial`, `C43_print_partial`, `C43_reads_back_refuted`, `C43_exactly_partial`, `C43_print_exactly_partial` | closed |
| C44 Statistics counts and dates | partial | `C44_stats_partial`, `C44_completes`, `C44_dates_refuted` | closed |
| C45 Age of money spends income first-in first-out and conserves it | proved | `C45_one_day`, `C45_ages` | closed |
| C46 Age of money averages the most recent ages | partial | `C46_mean_partial`, `C46_days_partial`, `C46_mean_refuted`, `C46_overflow_refuted` | closed |
| C47 Budget: envelope and spending trees always match | proved | `C47_enter`, `C47_same_paths`, `C47_report_goes_on` | closed |
| C48 Budget: each category's amounts are the month's sums | proved | `C48_amounts`, `C48_other_months`, `C48_report` | closed |
| C49 Budget: columns show what their headings say | partial | `C49_columns_partial`, `C49_columns_refuted` | closed |
| C50 Budget: postings are grouped by calendar month | proved | `C50_same_month`, `C50_months` | closed |
| C51 Unrecognised periods are rejected | partial | `C51_period_refuted`, `C51_period_partial` | closed |
| C52 No journal text crashes the program | partial | `C52_no_crash_refuted`, `C52_crashing_lines_partial`, `C52_handlers_partial` | closed |
| C53 No posting line is silently ignored | partial | `C53_ignored_inert`, `C53_ignored_only`, `C53_ignored_exactly`, `C53_ignored_refuted`, `C53_letter_lines_partial`, `C53_program` | closed |
| C54 Header notes are kept whole | partial | `C54_close_note_partial`, `C54_tab_note_partial`, `C54_no_note_partial`, `C54_first_letter_refuted`, `C54_spaced_note_partial` | closed |
| C55 Text survives: UTF-8 decode/encode | proved | `C55_decoded_is_valid`, `C55_decode_encode`, `C55_encode_decode`, `C55_text_kept`, `C55_filled_in`, `C55_decoded`, `C55_encoded` | closed |
| C56 All commands see the same transaction stream | proved | `C56_same_stream`, `C56_counts` | closed |
| C57 Every listed account is in the balance tree | proved | `C57_accounts_in_tree` | closed |
| C58 Budget: what is assigned to envelopes leaves the fund | proved | `C58_root`, `C58_fund_is_income` | closed |
| C59 Invalid date flags are reported | partial | `C59_flags_refuted`, `C59_flags_partial`, `C59_reported_partial` | closed |
| C60 Budget respects the date flags | partial | `C60_transactions_partial`, `C60_flags_refuted`, `C60_report_partial` | closed |
| C61 balance prints exactly the shown accounts | proved | `C61_balance`, `C61_rows`, `C61_flat`, `C61_collapsed` | closed |
| C62 Texts in delivered transactions are well-formed | proved | `C62_latin`, `C62_beyond`, `C62_space`, `C62_texts` | closed |
| C63 Stats: the time period is the number of days | proved | `C63_period` | closed |
| C64 Budget: no complaints when there is one commodity | partial | `C64_quiet_partial`, `C64_deep`, `C64_one_commodity_refuted` | closed |
| C65 All ways of matching a transaction agree | proved | `C65_how`, `C65_regex`, `C65_regex_bad`, `C65_handler` | closed |
| C66 Head is the top-level account | partial | `C66_exactly`, `C66_head`, `C66_reserved_refuted` | closed |
| C67 Enumerations are named | proved | `C67_strings`, `C67_items` | closed |
| C68 Account.String lists the tree | proved | `C68_string`, `C68_count` | closed |
| C69 Periodic transactions are expanded between bounds | partial | `C69_run_partial`, `C69_interval_refuted` | closed |
| C70 print is idempotent | partial | `C70_print_again_partial`, `C70_print_again_refuted`, `C70_exactly_partial`, `C70_up_to_twelve` | closed |
| C71 balance of print is balance | partial | `C71_balance_of_print_partial`, `C71_in_order_partial`, `C71_mixed_refuted`, `C71_figures_partial`, `C71_figures_arguments_partial`, `C71_arguments_partial` | closed |
| C72 More arguments select more | proved | `C72_arguments`, `C72_listings` | closed |
| C73 Adjacent date ranges split a journal | proved | `C73_ranges` | closed |
| C74 The journal file is named by --file or LEDGER_FILE | proved | `C74_journal_named`, `C74_flag_wins`, `C74_variable`, `C74_neither` | closed |
| C75 Journals can be put end to end | proved | `C75_concatenation`, `C75_attribution`, `C75_end_to_end`, `C75_blank_needed` | closed |
| C76 The transactions per day that stats prints | partial | `C76_rate_partial`, `C76_rate_refuted` | closed |
| C77 The exit status tells whether the command succeeded | partial | `C77_silent_partial`, `C77_exit_partial`, `C77_listing_partial`, `C77_reports_partial`, `C77_filters_partial`, `C77_exit_refuted` | closed |
| C78 Every name of a command stands for that command | partial | `C78_alias_refuted`, `C78_alias_partial` | closed |
| C79 Flags mean the same wherever and however they are given | partial | `C79_flags_partial`, `C79_flags_refuted`, `C79_first_taken` | closed |
| C80 Command lines that cannot be understood are refused | proved | `C80_refused`, `C80_unknown`, `C80_alone` | closed |
| C81 Without a command the help is shown | proved | `C81_help` | closed |
| C82 Listings of a printed journal | proved | `C82_listings`, `C82_stats` | closed |
| C83 Balances add up | proved | `C83_ranges`, `C83_joined` | closed |
| C84 Journals put end to end | proved | `C84_print`, `C84_listings` | closed |
| C85 The layout of lines is free | proved | `C85_layout`, `C85_program` | closed |
| C86 How deeply includes may nest does not matter | proved | `C86_deeper`, `C86_enough` | closed |
| C87 Only the files included are read | proved | `C87_elsewhere` | closed |
| C88 Dates and amounts may be spelled in any way | proved | `C88_spelling`, `C88_program` | closed |
| C89 The flags of balance change only its rows | proved | `C89_shape` | closed |
| C90 Statistics of a journal made of two | proved | `C90_joined` | closed |
| C91 Budget of a journal made of two | proved | `C91_joined` | closed |
| C92 The order of a journal's parts does not matter | proved | `C92_figures`, `C92_budget_text`, `C92_print`, `C92_listings`, `C92_balance`, `C92_stats`, `C92_budget`, `C92_stats_report` | closed |
| C93 Adjacent date ranges add up | proved | `C93_listings`, `C93_stats`, `C93_budget` | closed |
| C94 Reports do not depend on the time, the zone or the order of maps | proved | `C94_time`, `C94_orders`, `C94_stats`, `C94_program`, `C94_stats_filtered`, `C94_budget` | closed |
| C95 stats counts what the other commands list | proved | `C95_print`, `C95_listings` | closed |
| C96 The budget of a month is the balance of that month | proved | `C96_month` | closed |
| C97 Plain words as filters | proved | `C97_processed`, `C97_balance`, `C97_print`, `C97_listings` | closed |
| C98 How long ago, in whole units | partial | `C98_told`, `C98_stats`, `C98_refuted` | closed |
| C99 A switch of one command before the command hides the word after it | proved | `C99_skipped`, `C99_refused`, `C99_help` | closed |
| C100 What print prints of a transaction | partial | `C100_sheets`, `C100_refuted` | closed |
| C101 print keeps the journal's order within a day | partial | `C101_order_partial`, `C101_refuted` | closed |
| C102 From the text of a journal to the report | proved | `C102_print`, `C102_listings`, `C102_balance`, `C102_balance_flat`, `C102_statistics`, `C102_refused` | closed |
| C103 From the text of budget entries to the budget report | proved | `C103_read`, `C103_budget`, `C103_fails`, `C103_columns` | closed |
| C104 From a journal in several files, with dates and filters, to what is printed | proved | `C104_read`, `C104_print`, `C104_listings`, `C104_balance`, `C104_balance_flat`, `C104_balance_collapsed`, `C104_budget`, `C104_statistics`, `C104_pages` | closed |
| C105 From a journal with a mistake to the message | proved | `C105_message`, `C105_statistics`, `C105_balance`, `C105_budget` | closed |
| C106 From a journal that breaks the program off to the exit status | proved | `C106_listing`, `C106_statistics`, `C106_balance`, `C106_budget` | closed |
| C107 The columns of the reports line up | proved | `C107_budget`, `C107_bars`, `C107_balance`, `C107_flat`, `C107_collapsed`, `C107_fits` | closed |
| C108 From a journal in several files to the whole statistics report | proved | `C108_report`, `C108_places`, `C108_statistics` | closed |
| C109 A date flag that is no date: what is said, and where | proved | `C109_message`, `C109_balance`, `C109_budget`, `C109_said` | closed |
| C110 What is posted elsewhere does not change an account's rows | proved | `C110_rows`, `C110_appended`, `C110_forms`, `C110_appended_forms` | closed |
| C111 A journal may be moved with the files it includes | proved | `C111_moved` | closed |
| C112 The journal that balance builds holds what was used | proved | `C112_kept` | closed |
| C113 An absolute include names that file | partial | `C113_absolute_refuted`, `C113_absolute_partial` | closed |
| C114 The order of the arguments does not matter | proved | `C114_possible`, `C114_listings`, `C114_balance`, `C114_program`, `C114_stats`, `C114_budget` | closed |
| C115 An empty range of dates selects nothing | partial | `C115_nothing_partial`, `C115_day_one_refuted` | closed |
| C116 A wider range of dates selects more | proved | `C116_wider` | closed |
| C117 Marks, payees, notes and comments do not change a balance | proved | `C117_ignored` | closed |
| C118 Transfers inside an account leave it alone | proved | `C118_inside`, `C118_forms` | closed |
| C119 A balance depends only on what is posted to each account in all | proved | `C119_sums` | closed |
| C120 A budget depends only on what is earned, assigned and spent in each month | proved | `C120_sums` | closed |
| C121 The budget of what print prints is the budget | partial | `C121_earned_and_spent_partial`, `C121_no_entries_partial`, `C121_entries_refuted` | closed |
| C122 Statistics depend only on counts, names, the first and last day and day sums | proved | `C122_figures` | closed |
| C123 The order of the postings of an entry does not matter | proved | `C123_read`, `C123_print`, `C123_listings`, `C123_balance`, `C123_stats`, `C123_budget`, `C123_two_commodities` | closed |
| C124 Renaming accounts renames the rows of a balance and changes nothing else | proved | `C124_balance`, `C124_accounts` | closed |
| C125 A month's budget section tells of that month's entries only | proved | `C125_month`, `C125_appended` | closed |
| C126 What cancels out leaves no trace in a balance | proved | `C126_sums`, `C126_joined` | closed |
| C127 Budget entries are seen by budget alone | proved | `C127_unseen`, `C127_struck`, `C127_appended` | closed |
| C128 The date flags strike out the transactions of other days | proved | `C128_print`, `C128_listings`, `C128_balance`, `C128_stats`, `C128_budget`, `C128_parts` | closed |
| C129 Arguments that pick whole transactions strike out the others | proved | `C129_print`, `C129_balance`, `C129_stats`, `C129_budget`, `C129_parts` | closed |
| C130 Date flags mean only the days they name | proved | `C130_same_days`, `C130_spelling`, `C130_current`, `C130_program` | closed |
| C131 Where entries are written matters to stats alone | proved | `C131_elsewhere`, `C131_stats`, `C131_inlined` | closed |
| C132 Listings depend only on the names used | proved | `C132_accounts`, `C132_payees` | closed |
| C133 A journal entered twice | proved | `C133_listings`, `C133_print`, `C133_balance`, `C133_stats`, `C133_budget` | closed |
| C134 Renaming the categories of a budget renames its rows and changes nothing else | proved | `C134_budget` | closed |
| C135 What follows a mistake in a journal is not looked at | proved | `C135_unread`, `C135_program` | closed |
| C136 Entries written before a journal move its mistakes down, and change nothing else about them | proved | `C136_further`, `C136_message` | closed |
| C137 Statistics of a journal moved in time | proved | `C137_stats` | closed |
| C138 A budget moved by whole months | proved | `C138_budget` | closed |
| C139 The order in which print prints depends on the order of the days only | proved | `C139_print` | closed |
| C140 Renaming accounts and payees in listings and statistics | proved | `C140_numbers`, `C140_stats`, `C140_accounts`, `C140_payees` | closed |
| C141 print of a journal moved in time | proved | `C141_print` | closed |

## Tests of the theorems

`seeded/LOG.jsonl` records edits made to the model in a scratch copy, the way a bug would change the program, and
the theorems that no longer prove.
