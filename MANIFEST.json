{
 "claims": [
  {
   "property": "C01",
   "status": "proved",
   "theorems": [
    "C01_delivered_transactions_balance",
    "C01_handlers_see_balanced_transactions"
   ],
   "note": "Sums are of quantities over all commodities (see C22)."
  },
  {
   "property": "C02",
   "status": "proved",
   "theorems": [
    "C02_elided_posting_is_unique",
    "C02_close"
   ],
   "note": ""
  },
  {
   "property": "C03",
   "status": "partial",
   "theorems": [
    "C03_two_elided_refuted",
    "C03_elided_postings_partial",
    "C03_delivered"
   ],
   "note": "False: an amount-less posting after an earlier one, not last, is silently dropped instead of rejected (refuted). Proved: exactly what reading any written transaction with elided postings delivers (C03_elided_postings_partial, C03_delivered)."
  },
  {
   "property": "C04",
   "status": "partial",
   "theorems": [
    "C04_amounts_exact_partial",
    "C04_accepted_texts",
    "C04_one_decimal_refuted"
   ],
   "note": "False as stated: one-digit and signed decimals are accepted and read as hundredths (refuted); proved: the exact meaning of every accepted text, exact for two-decimal texts and integers in range."
  },
  {
   "property": "C05",
   "status": "partial",
   "theorems": [
    "C05_display_exact_partial",
    "C05_display_refuted",
    "C05_display_close"
   ],
   "note": "False beyond 100*2^46 where the float64 division rounds (refuted); proved exact for all quantities up to that size, and for every int64 quantity the text is a numeral of the same sign off by at most one hundredth and one part in 2^52."
  },
  {
   "property": "C06",
   "status": "partial",
   "theorems": [
    "C06_read_back_partial",
    "C06_close_partial",
    "C06_read_back_refuted"
   ],
   "note": "False beyond 100*2^46 (refuted); proved exact for all quantities up to that size and to within one hundredth and one part in 2^52 for all but the last 2048 on either side."
  },
  {
   "property": "C07",
   "status": "proved",
   "theorems": [
    "C07_header_dates",
    "C07_header_lines",
    "C07_success_means_dates"
   ],
   "note": ""
  },
  {
   "property": "C08",
   "status": "partial",
   "theorems": [
    "C08_short_date_refuted",
    "C08_panic_iff_short_word_partial"
   ],
   "note": "False: header words shorter than five runes panic (refuted); proved: panics exactly on those."
  },
  {
   "property": "C09",
   "status": "proved",
   "theorems": [
    "C09_smart_dates",
    "C09_never_panics"
   ],
   "note": ""
  },
  {
   "property": "C10",
   "status": "proved",
   "theorems": [
    "C10_scanning",
    "C10_stepping_back"
   ],
   "note": ""
  },
  {
   "property": "C11",
   "status": "proved",
   "theorems": [
    "C11_comment_lines_are_inert",
    "C11_program"
   ],
   "note": "For any handlers; error line numbers aside."
  },
  {
   "property": "C12",
   "status": "proved",
   "theorems": [
    "C12_blank_line_before_header_is_inert",
    "C12_program"
   ],
   "note": "For any handlers; error line numbers aside."
  },
  {
   "property": "C13",
   "status": "proved",
   "theorems": [
    "C13_crlf",
    "C13_crlf_everywhere",
    "C13_program"
   ],
   "note": ""
  },
  {
   "property": "C14",
   "status": "proved",
   "theorems": [
    "C14_final_newline",
    "C14_program"
   ],
   "note": ""
  },
  {
   "property": "C15",
   "status": "proved",
   "theorems": [
    "C15_lines_are_short",
    "C15_long_line_is_fatal",
    "C15_only_long_lines"
   ],
   "note": ""
  },
  {
   "property": "C16",
   "status": "proved",
   "theorems": [
    "C16_one_entry_per_header"
   ],
   "note": ""
  },
  {
   "property": "C17",
   "status": "proved",
   "theorems": [
    "C17_include_reads_lines_in_place",
    "C17_inlining_the_text"
   ],
   "note": ""
  },
  {
   "property": "C18",
   "status": "partial",
   "theorems": [
    "C18_include_path_refuted",
    "C18_include_exactly",
    "C18_include_path_partial",
    "C18_path_is_opened"
   ],
   "note": "False for a directory whose name is not UTF-8 (refuted); proved for UTF-8 directories. C18_include_exactly gives the path opened for any directory."
  },
  {
   "property": "C19",
   "status": "proved",
   "theorems": [
    "C19_cycles_never_succeed"
   ],
   "note": ""
  },
  {
   "property": "C20",
   "status": "partial",
   "theorems": [
    "C20_attribution_refuted",
    "C20_open_transaction_refuted",
    "C20_attribution_partial",
    "C20_exact",
    "C20_one_level_partial"
   ],
   "note": "False: after a nested include the including file's transactions are attributed to the top file, and one still open at an include line to the included file (refuted). Proved: exactly which file every entry carries; the file of the finishing line when only the main file includes; always a file that was read."
  },
  {
   "property": "C21",
   "status": "partial",
   "theorems": [
    "C21_location_refuted",
    "C21_location_partial",
    "C21_message_partial"
   ],
   "note": "False: errors found at the end of a file carry no line (refuted); proved: the location carried by every other error."
  },
  {
   "property": "C22",
   "status": "partial",
   "theorems": [
    "C22_per_commodity_refuted",
    "C22_one_commodity_partial"
   ],
   "note": "False: commodities are ignored when summing (refuted); proved for one commodity."
  },
  {
   "property": "C23",
   "status": "proved",
   "theorems": [
    "C23_balance",
    "C23_accounts",
    "C23_parent",
    "C23_added"
   ],
   "note": "Proved for every account tree built by the parser's postings."
  },
  {
   "property": "C24",
   "status": "proved",
   "theorems": [
    "C24_total"
   ],
   "note": ""
  },
  {
   "property": "C25",
   "status": "proved",
   "theorems": [
    "C25_order"
   ],
   "note": "Proved for every account tree built by the parser's postings."
  },
  {
   "property": "C26",
   "status": "partial",
   "theorems": [
    "C26_one_commodity_partial",
    "C26_unfiltered_partial",
    "C26_deterministic_refuted",
    "C26_rows_partial"
   ],
   "note": "False with filters and several commodities: the matched postings are added in map order, which decides commodities and complaints (refuted). Proved: without filters for any commodities, and with filters when one commodity is used throughout, nothing depends on the order; with any filters and commodities the rows, their order, their quantities, the total and whether the run ends normally do not."
  },
  {
   "property": "C27",
   "status": "partial",
   "theorems": [
    "C27_zero_hidden_refuted",
    "C27_shown_partial",
    "C27_zero_accounts_partial"
   ],
   "note": "False as stated: a zero account with non-zero children is removed with them (refuted). Proved: which accounts remain and which rows appear."
  },
  {
   "property": "C28",
   "status": "partial",
   "theorems": [
    "C28_flat_partial",
    "C28_adds_up_refuted",
    "C28_adds_up_partial"
   ],
   "note": "False as stated when zero accounts are hidden (refuted). Proved: the flat listing shows exactly the leaves, and the leaf amounts add up when every inner account is the sum of its children."
  },
  {
   "property": "C29",
   "status": "proved",
   "theorems": [
    "C29_tree"
   ],
   "note": ""
  },
  {
   "property": "C30",
   "status": "proved",
   "theorems": [
    "C30_collapse",
    "C30_rows"
   ],
   "note": ""
  },
  {
   "property": "C31",
   "status": "proved",
   "theorems": [
    "C31_find_or_create"
   ],
   "note": ""
  },
  {
   "property": "C32",
   "status": "proved",
   "theorems": [
    "C32_path"
   ],
   "note": ""
  },
  {
   "property": "C33",
   "status": "partial",
   "theorems": [
    "C33_own_array_partial",
    "C33_shallow_partial",
    "C33_sibling_refuted",
    "C33_spending_refuted"
   ],
   "note": "False: at depth 4, 6-8, 10-16, ... and below the spending root of a budget month a new sibling overwrites the last component of the existing account (refuted for all such trees). Proved: accounts at depths 1, 2, 3, 5, 9, 17, ... never change, every account keeps its components up to the nearest such depth, and down to depth 3 they are the account's path."
  },
  {
   "property": "C34",
   "status": "proved",
   "theorems": [
    "C34_prune",
    "C34_negative"
   ],
   "note": ""
  },
  {
   "property": "C35",
   "status": "proved",
   "theorems": [
    "C35_remove"
   ],
   "note": ""
  },
  {
   "property": "C36",
   "status": "proved",
   "theorems": [
    "C36_find",
    "C36_leaves"
   ],
   "note": ""
  },
  {
   "property": "C37",
   "status": "proved",
   "theorems": [
    "C37_filters",
    "C37_arguments"
   ],
   "note": ""
  },
  {
   "property": "C38",
   "status": "partial",
   "theorems": [
    "C38_range_partial",
    "C38_west_partial",
    "C38_range_refuted"
   ],
   "note": "False as stated: flags mean local midnight, transactions are dated in UTC, so west of Greenwich a transaction of the begin day is dropped and one of the end day taken (refuted). Proved exactly as stated for zones at or east of Greenwich, and with both bounds a day later for zones west of it."
  },
  {
   "property": "C39",
   "status": "partial",
   "theorems": [
    "C39_current_partial",
    "C39_midnight",
    "C39_current_refuted"
   ],
   "note": "False as stated: transactions dated tomorrow are processed (refuted). Proved: exactly which dates --current keeps."
  },
  {
   "property": "C40",
   "status": "proved",
   "theorems": [
    "C40_accounts"
   ],
   "note": ""
  },
  {
   "property": "C41",
   "status": "proved",
   "theorems": [
    "C41_payees",
    "C41_bad_argument"
   ],
   "note": ""
  },
  {
   "property": "C42",
   "status": "proved",
   "theorems": [
    "C42_print",
    "C42_own_sort"
   ],
   "note": ""
  },
  {
   "property": "C43",
   "status": "partial",
   "theorems": [
    "C43_reads_back_partial",
    "C43_print_partial",
    "C43_reads_back_refuted",
    "C43_exactly_partial",
    "C43_print_exactly_partial"
   ],
   "note": "False in general (refuted by four journals: header note without payee, blank comment, amount beyond 100*2^46 hundredths, posting left without amount). Proved for every list of delivered transactions outside these cases whose printed lines the line reader can take; and for every list with all amounts present and not too large, what exactly comes back (C43_exactly_partial): blank notes and comments longer by a space, a note without payee shorter by its first character, all else the same."
  },
  {
   "property": "C44",
   "status": "partial",
   "theorems": [
    "C44_stats_partial",
    "C44_completes",
    "C44_dates_refuted"
   ],
   "note": "False for the first date when a transaction is dated 0001-01-01 (C44_dates_refuted). Proved otherwise: counts, listings and dates (C44_stats_partial), and exactly when the report is made at all (C44_completes)."
  },
  {
   "property": "C45",
   "status": "proved",
   "theorems": [
    "C45_one_day",
    "C45_ages"
   ],
   "note": "C45_one_day: one spending day takes from the income days first in first out and conserves; C45_ages: the printed age is computed from the queue of the day sums"
  },
  {
   "property": "C46",
   "status": "partial",
   "theorems": [
    "C46_mean_partial",
    "C46_days_partial",
    "C46_mean_refuted",
    "C46_overflow_refuted"
   ],
   "note": "False as stated: with more than 20 ages the last 11 are dropped but counted (refuted), and the sum may overflow (refuted). Proved: exactly what is averaged, and that the number printed is that mean rounded to the nearest whole day, 0 if negative."
  },
  {
   "property": "C47",
   "status": "proved",
   "theorems": [
    "C47_enter",
    "C47_same_paths",
    "C47_report_goes_on"
   ],
   "note": ""
  },
  {
   "property": "C48",
   "status": "proved",
   "theorems": [
    "C48_amounts",
    "C48_other_months",
    "C48_report"
   ],
   "note": ""
  },
  {
   "property": "C49",
   "status": "partial",
   "theorems": [
    "C49_columns_partial",
    "C49_columns_refuted"
   ],
   "note": "false: the Budgeted column shows spending and the Activity column what was assigned; the theorem says what the columns show"
  },
  {
   "property": "C50",
   "status": "proved",
   "theorems": [
    "C50_same_month",
    "C50_months"
   ],
   "note": ""
  },
  {
   "property": "C51",
   "status": "partial",
   "theorems": [
    "C51_period_refuted",
    "C51_period_partial"
   ],
   "note": "False: an unrecognised period is read as the zero period (refuted); proved: exactly YYYY-MM is recognised and everything else gives the zero period."
  },
  {
   "property": "C52",
   "status": "partial",
   "theorems": [
    "C52_no_crash_refuted",
    "C52_crashing_lines_partial",
    "C52_handlers_partial"
   ],
   "note": "False: four kinds of lines panic (refuted); proved: reading panics exactly at those lines, and otherwise only if a handler does."
  },
  {
   "property": "C53",
   "status": "partial",
   "theorems": [
    "C53_ignored_inert",
    "C53_ignored_only",
    "C53_ignored_exactly",
    "C53_ignored_refuted",
    "C53_letter_lines_partial",
    "C53_program"
   ],
   "note": "False: indented lines not starting with a letter are ignored (refuted). Proved: every indented line starting with a letter and carrying an amount is delivered, in order, as written; and exactly which lines are without effect (C53_ignored_inert, C53_ignored_only, C53_ignored_exactly)."
  },
  {
   "property": "C54",
   "status": "partial",
   "theorems": [
    "C54_close_note_partial",
    "C54_tab_note_partial",
    "C54_no_note_partial",
    "C54_first_letter_refuted",
    "C54_spaced_note_partial"
   ],
   "note": "False: after a single space the first character of the note is lost (refuted). Proved: what is stored in each case. With two or more spaces or a tab before the sign the note is kept; with one space or none its first character is lost, with the spaces after it; a sign alone gives an empty note."
  },
  {
   "property": "C55",
   "status": "proved",
   "theorems": [
    "C55_decoded_is_valid",
    "C55_decode_encode",
    "C55_encode_decode",
    "C55_text_kept",
    "C55_filled_in",
    "C55_decoded",
    "C55_encoded"
   ],
   "note": ""
  },
  {
   "property": "C56",
   "status": "proved",
   "theorems": [
    "C56_same_stream",
    "C56_counts"
   ],
   "note": ""
  },
  {
   "property": "C57",
   "status": "proved",
   "theorems": [
    "C57_accounts_in_tree"
   ],
   "note": ""
  },
  {
   "property": "C58",
   "status": "proved",
   "theorems": [
    "C58_root",
    "C58_fund_is_income"
   ],
   "note": "exact amount of the root for any postings; equal to the month's income in every run, because entries balance"
  },
  {
   "property": "C59",
   "status": "partial",
   "theorems": [
    "C59_flags_refuted",
    "C59_flags_partial",
    "C59_reported_partial"
   ],
   "note": "False: a bad flag is only noticed when there is a transaction to look at (refuted). Proved: with one, no command ends normally, and print, accounts and payees report it if it is the first transaction."
  },
  {
   "property": "C60",
   "status": "partial",
   "theorems": [
    "C60_transactions_partial",
    "C60_flags_refuted",
    "C60_report_partial"
   ],
   "note": "false for budget entries, which are taken whatever their month; true of transactions"
  },
  {
   "property": "C61",
   "status": "proved",
   "theorems": [
    "C61_balance",
    "C61_rows",
    "C61_flat",
    "C61_collapsed"
   ],
   "note": ""
  },
  {
   "property": "C62",
   "status": "proved",
   "theorems": [
    "C62_latin",
    "C62_beyond",
    "C62_space",
    "C62_texts"
   ],
   "note": ""
  },
  {
   "property": "C63",
   "status": "proved",
   "theorems": [
    "C63_period"
   ],
   "note": ""
  },
  {
   "property": "C64",
   "status": "partial",
   "theorems": [
    "C64_quiet_partial",
    "C64_deep",
    "C64_one_commodity_refuted"
   ],
   "note": "false for categories of several levels; true for one level (theorem), and the complaint is exactly characterised"
  },
  {
   "property": "C65",
   "status": "proved",
   "theorems": [
    "C65_how",
    "C65_regex",
    "C65_regex_bad",
    "C65_handler"
   ],
   "note": ""
  },
  {
   "property": "C66",
   "status": "partial",
   "theorems": [
    "C66_exactly",
    "C66_head",
    "C66_reserved_refuted"
   ],
   "note": "False for accounts with a component named like a root (refuted); proved for all others."
  },
  {
   "property": "C67",
   "status": "proved",
   "theorems": [
    "C67_strings",
    "C67_items"
   ],
   "note": ""
  },
  {
   "property": "C68",
   "status": "proved",
   "theorems": [
    "C68_string",
    "C68_count"
   ],
   "note": ""
  },
  {
   "property": "C69",
   "status": "partial",
   "theorems": [
    "C69_run_partial",
    "C69_interval_refuted"
   ],
   "note": "False for periods with an interval: nothing is generated, whatever the bounds (refuted). Proved: exactly what is returned and printed for every period and all bounds."
  },
  {
   "property": "C70",
   "status": "partial",
   "theorems": [
    "C70_print_again_partial",
    "C70_print_again_refuted",
    "C70_exactly_partial",
    "C70_up_to_twelve"
   ],
   "note": "False for a header note without payee (refuted). Proved for transactions that read back (C43) dated from year 1: same texts, in the same order when the dates differ, and when there are at most twelve of them. For all others with amounts, none too large, and lines that can be read: exactly what the second printing gives (C70_exactly_partial)."
  },
  {
   "property": "C71",
   "status": "partial",
   "theorems": [
    "C71_balance_of_print_partial",
    "C71_in_order_partial",
    "C71_mixed_refuted",
    "C71_figures_partial",
    "C71_figures_arguments_partial",
    "C71_arguments_partial"
   ],
   "note": "False for several commodities (refuted). Proved for transactions whose amounts are all there and none too large, with lines that can be read: in one commodity, and in any commodities when they stand in order of date; with any arguments for those that read back (C43). For any commodities, rows, quantities and total agree (C71_figures_partial). Transactions are dated in the year 1 or later (without --begin earlier ones are not used, C38)."
  },
  {
   "property": "C72",
   "status": "proved",
   "theorems": [
    "C72_arguments",
    "C72_listings"
   ],
   "note": ""
  },
  {
   "property": "C73",
   "status": "proved",
   "theorems": [
    "C73_ranges"
   ],
   "note": ""
  },
  {
   "property": "C74",
   "status": "proved",
   "theorems": [
    "C74_journal_named",
    "C74_flag_wins",
    "C74_variable",
    "C74_neither"
   ],
   "note": ""
  },
  {
   "property": "C75",
   "status": "proved",
   "theorems": [
    "C75_concatenation",
    "C75_attribution",
    "C75_end_to_end",
    "C75_blank_needed"
   ],
   "note": ""
  },
  {
   "property": "C76",
   "status": "partial",
   "theorems": [
    "C76_rate_partial",
    "C76_rate_refuted"
   ],
   "note": "False when all transactions are on one day: +Inf per day (refuted). Proved for every longer period, and that one day always prints +Inf. For transactions not dated 0001-01-01 (C44)."
  },
  {
   "property": "C77",
   "status": "partial",
   "theorems": [
    "C77_silent_partial",
    "C77_exit_partial",
    "C77_listing_partial",
    "C77_reports_partial",
    "C77_filters_partial",
    "C77_exit_refuted"
   ],
   "note": "False as stated: errors found while reading are printed and the program exits with 0 (C77_exit_refuted). Proved instead: exactly which status and output each end of reading gives, for every command line (C77_exit_partial, C77_listing_partial, C77_silent_partial, C77_filters_partial, C77_reports_partial)."
  },
  {
   "property": "C78",
   "status": "partial",
   "theorems": [
    "C78_alias_refuted",
    "C78_alias_partial"
   ],
   "note": "False for \"p\", which print and payees both claim (C78_alias_refuted); proved for all other aliases (C78_alias_partial)."
  },
  {
   "property": "C79",
   "status": "partial",
   "theorems": [
    "C79_flags_partial",
    "C79_flags_refuted",
    "C79_first_taken"
   ],
   "note": "False when a value given before the command equals the command's name (C79_flags_refuted); proved for all other command lines (C79_flags_partial), and which argument is taken for the name then (C79_first_taken)."
  },
  {
   "property": "C80",
   "status": "proved",
   "theorems": [
    "C80_refused",
    "C80_unknown",
    "C80_alone"
   ],
   "note": ""
  },
  {
   "property": "C81",
   "status": "proved",
   "theorems": [
    "C81_help"
   ],
   "note": ""
  },
  {
   "property": "C82",
   "status": "proved",
   "theorems": [
    "C82_listings",
    "C82_stats"
   ],
   "note": "Transactions are dated in the year 1 or later (without --begin earlier ones are not used, C38); for stats, not on 0001-01-01 (C44), and the clock of both runs is the same."
  },
  {
   "property": "C83",
   "status": "proved",
   "theorems": [
    "C83_ranges",
    "C83_joined"
   ],
   "note": ""
  },
  {
   "property": "C84",
   "status": "proved",
   "theorems": [
    "C84_print",
    "C84_listings"
   ],
   "note": ""
  },
  {
   "property": "C85",
   "status": "proved",
   "theorems": [
    "C85_layout",
    "C85_program"
   ],
   "note": ""
  },
  {
   "property": "C86",
   "status": "proved",
   "theorems": [
    "C86_deeper",
    "C86_enough"
   ],
   "note": ""
  },
  {
   "property": "C87",
   "status": "proved",
   "theorems": [
    "C87_elsewhere"
   ],
   "note": ""
  },
  {
   "property": "C88",
   "status": "proved",
   "theorems": [
    "C88_spelling",
    "C88_program"
   ],
   "note": ""
  },
  {
   "property": "C89",
   "status": "proved",
   "theorems": [
    "C89_shape"
   ],
   "note": ""
  },
  {
   "property": "C90",
   "status": "proved",
   "theorems": [
    "C90_joined"
   ],
   "note": ""
  },
  {
   "property": "C91",
   "status": "proved",
   "theorems": [
    "C91_joined"
   ],
   "note": ""
  },
  {
   "property": "C92",
   "status": "proved",
   "theorems": [
    "C92_figures",
    "C92_budget_text",
    "C92_print",
    "C92_listings",
    "C92_balance",
    "C92_stats",
    "C92_budget",
    "C92_stats_report"
   ],
   "note": ""
  },
  {
   "property": "C93",
   "status": "proved",
   "theorems": [
    "C93_listings",
    "C93_stats",
    "C93_budget"
   ],
   "note": ""
  },
  {
   "property": "C94",
   "status": "proved",
   "theorems": [
    "C94_time",
    "C94_orders",
    "C94_stats",
    "C94_program",
    "C94_stats_filtered",
    "C94_budget"
   ],
   "note": ""
  },
  {
   "property": "C95",
   "status": "proved",
   "theorems": [
    "C95_print",
    "C95_listings"
   ],
   "note": ""
  },
  {
   "property": "C96",
   "status": "proved",
   "theorems": [
    "C96_month"
   ],
   "note": ""
  },
  {
   "property": "C97",
   "status": "proved",
   "theorems": [
    "C97_processed",
    "C97_balance",
    "C97_print",
    "C97_listings"
   ],
   "note": ""
  },
  {
   "property": "C98",
   "status": "partial",
   "theorems": [
    "C98_told",
    "C98_stats",
    "C98_refuted"
   ],
   "note": "False of the program: from 18 to 24 months it tells \"2 years\" (C98_refuted). C98_told and C98_stats give the exact text for every instant. For transactions not dated 0001-01-01 (C44)."
  },
  {
   "property": "C99",
   "status": "proved",
   "theorems": [
    "C99_skipped",
    "C99_refused",
    "C99_help"
   ],
   "note": ""
  },
  {
   "property": "C100",
   "status": "partial",
   "theorems": [
    "C100_sheets",
    "C100_refuted"
   ],
   "note": "False of the program: a posting without amount (left so when the others sum to zero) is printed as a notice of package fmt, without its account and comments (C100_refuted). C100_sheets gives the exact lines in all cases."
  },
  {
   "property": "C101",
   "status": "partial",
   "theorems": [
    "C101_order_partial",
    "C101_refuted"
   ],
   "note": "False: with seven transactions (the last dated earlier) or thirteen in date order, same-day transactions change places, since sort.Slice is not stable (C101_refuted, on a model of package sort of Go 1.15). Proved: up to six printed transactions keep their order within a day, up to twelve in date order stay as they are; the sort always gives a sorted rearrangement (C42_own_sort)."
  },
  {
   "property": "C102",
   "status": "proved",
   "theorems": [
    "C102_print",
    "C102_listings",
    "C102_balance",
    "C102_balance_flat",
    "C102_statistics",
    "C102_refused"
   ],
   "note": "Transactions are dated in the year 1 or later (earlier ones are never reported, C38); stats: none on 0001-01-01 (C44). Lines of the form described are under 4096 bytes (C15)."
  },
  {
   "property": "C103",
   "status": "proved",
   "theorems": [
    "C103_read",
    "C103_budget",
    "C103_fails",
    "C103_columns"
   ],
   "note": "Months are written YYYY-MM (other texts: C51). Notes before the first posting of an entry crash the program (C52) and are left out. Transactions are dated in the year 1 or later."
  },
  {
   "property": "C104",
   "status": "proved",
   "theorems": [
    "C104_read",
    "C104_print",
    "C104_listings",
    "C104_balance",
    "C104_balance_flat",
    "C104_balance_collapsed",
    "C104_budget",
    "C104_statistics",
    "C104_pages"
   ],
   "note": "Directories in UTF-8 (C18). The files named by statistics are those the parser attributes (C20). Which transactions are chosen is the relation [chosen]: dates as in C38, filters as in C39. Statistics: no chosen transaction dated 0001-01-01 (C44)."
  },
  {
   "property": "C105",
   "status": "proved",
   "theorems": [
    "C105_message",
    "C105_statistics",
    "C105_balance",
    "C105_budget"
   ],
   "note": "The wording of errors of the standard library (time.Parse, strconv, os.Open) is the parameter L. The third sentence says what the program does (see C21 for what one would expect of the line number)."
  },
  {
   "property": "C106",
   "status": "proved",
   "theorems": [
    "C106_listing",
    "C106_statistics",
    "C106_balance",
    "C106_budget"
   ],
   "note": "Standard error (the panic's trace, the log message) is not modelled."
  },
  {
   "property": "C107",
   "status": "proved",
   "theorems": [
    "C107_budget",
    "C107_bars",
    "C107_balance",
    "C107_flat",
    "C107_collapsed",
    "C107_fits"
   ],
   "note": ""
  },
  {
   "property": "C108",
   "status": "proved",
   "theorems": [
    "C108_report",
    "C108_places",
    "C108_statistics"
   ],
   "note": "Rate and mean are the nearest of the exact quotient; the words of 'how long ago' are those of the humanize library, as modelled."
  },
  {
   "property": "C109",
   "status": "proved",
   "theorems": [
    "C109_message",
    "C109_balance",
    "C109_budget",
    "C109_said"
   ],
   "note": "The texts of errors of the standard library are a parameter, given layout and value."
  },
  {
   "property": "C110",
   "status": "proved",
   "theorems": [
    "C110_rows",
    "C110_appended",
    "C110_forms",
    "C110_appended_forms"
   ],
   "note": ""
  },
  {
   "property": "C111",
   "status": "proved",
   "theorems": [
    "C111_moved"
   ],
   "note": "The texts of errors of opening and reading files are a parameter, given the name. For directories not in UTF-8 see C18."
  },
  {
   "property": "C112",
   "status": "proved",
   "theorems": [
    "C112_kept"
   ],
   "note": "Account.Transactions, which is filled alike and never read, is not modelled."
  },
  {
   "property": "C113",
   "status": "partial",
   "theorems": [
    "C113_absolute_refuted",
    "C113_absolute_partial"
   ],
   "note": "False: the directory of the including file is put before it, so the file opened is another one (C113_absolute_refuted). Proved: which file is opened, and that it is the one named exactly when the including file is named without a directory (C113_absolute_partial)."
  },
  {
   "property": "C114",
   "status": "proved",
   "theorems": [
    "C114_possible",
    "C114_listings",
    "C114_balance",
    "C114_program",
    "C114_stats",
    "C114_budget"
   ],
   "note": "Arguments that are regular expressions Go accepts. payees also compiles each argument with its sign; these are assumed accepted too."
  },
  {
   "property": "C115",
   "status": "partial",
   "theorems": [
    "C115_nothing_partial",
    "C115_day_one_refuted"
   ],
   "note": "False for the end 0001-01-01 at Greenwich, which is taken for no end at all (C115_day_one_refuted); proved for all others (C115_nothing_partial)."
  },
  {
   "property": "C116",
   "status": "proved",
   "theorems": [
    "C116_wider"
   ],
   "note": "The narrower range has a begin; an end at the instant zero is excluded, as in C115."
  },
  {
   "property": "C117",
   "status": "proved",
   "theorems": [
    "C117_ignored"
   ],
   "note": "balance without arguments; accounts with any arguments."
  },
  {
   "property": "C118",
   "status": "proved",
   "theorems": [
    "C118_inside",
    "C118_forms"
   ],
   "note": "balance without arguments; C118_forms for --flatten and --collapse."
  },
  {
   "property": "C119",
   "status": "proved",
   "theorems": [
    "C119_sums"
   ],
   "note": "One commodity, every posting selected has an amount (it has after balancing unless the run fails)."
  },
  {
   "property": "C120",
   "status": "proved",
   "theorems": [
    "C120_sums"
   ],
   "note": "One commodity; both runs succeed."
  },
  {
   "property": "C121",
   "status": "partial",
   "theorems": [
    "C121_earned_and_spent_partial",
    "C121_no_entries_partial",
    "C121_entries_refuted"
   ],
   "note": "False: print drops budget entries (refuted). Proved: nothing else is lost, that is earned and spent agree in every month and category and no failure is added; without budget entries and in one commodity the report is the same, byte for byte if categories have one level. For transactions with legible lines and all amounts there (C43). Transactions are dated in the year 1 or later (without --begin earlier ones are not used, C38)."
  },
  {
   "property": "C122",
   "status": "proved",
   "theorems": [
    "C122_figures"
   ],
   "note": "Both runs succeed; the clock of both runs is the same."
  },
  {
   "property": "C123",
   "status": "proved",
   "theorems": [
    "C123_read",
    "C123_print",
    "C123_listings",
    "C123_balance",
    "C123_stats",
    "C123_budget",
    "C123_two_commodities"
   ],
   "note": "The condition on commodities cannot be dropped: C123_two_commodities shows a journal that meets all but it, whose balances differ in a commodity. For the budget nothing at all differs if categories have one level (journal_flat)."
  },
  {
   "property": "C124",
   "status": "proved",
   "theorems": [
    "C124_balance",
    "C124_accounts"
   ],
   "note": "The reserved names are _root_ and _budget_root_."
  },
  {
   "property": "C125",
   "status": "proved",
   "theorems": [
    "C125_month",
    "C125_appended"
   ],
   "note": "Before the sections budget may complain about commodities even in one commodity; with categories of one level it does not."
  },
  {
   "property": "C126",
   "status": "proved",
   "theorems": [
    "C126_sums",
    "C126_joined"
   ],
   "note": "C119 without the condition that the journals name the same accounts; with --show-zero that condition is needed (see the example)."
  },
  {
   "property": "C127",
   "status": "proved",
   "theorems": [
    "C127_unseen",
    "C127_struck",
    "C127_appended"
   ],
   "note": ""
  },
  {
   "property": "C128",
   "status": "proved",
   "theorems": [
    "C128_print",
    "C128_listings",
    "C128_balance",
    "C128_stats",
    "C128_budget",
    "C128_parts"
   ],
   "note": ""
  },
  {
   "property": "C129",
   "status": "proved",
   "theorems": [
    "C129_print",
    "C129_balance",
    "C129_stats",
    "C129_budget",
    "C129_parts"
   ],
   "note": ""
  },
  {
   "property": "C130",
   "status": "proved",
   "theorems": [
    "C130_same_days",
    "C130_spelling",
    "C130_current",
    "C130_program"
   ],
   "note": ""
  },
  {
   "property": "C131",
   "status": "proved",
   "theorems": [
    "C131_elsewhere",
    "C131_stats",
    "C131_inlined"
   ],
   "note": ""
  },
  {
   "property": "C132",
   "status": "proved",
   "theorems": [
    "C132_accounts",
    "C132_payees"
   ],
   "note": ""
  },
  {
   "property": "C133",
   "status": "proved",
   "theorems": [
    "C133_listings",
    "C133_print",
    "C133_balance",
    "C133_stats",
    "C133_budget"
   ],
   "note": ""
  },
  {
   "property": "C134",
   "status": "proved",
   "theorems": [
    "C134_budget"
   ],
   "note": ""
  },
  {
   "property": "C135",
   "status": "proved",
   "theorems": [
    "C135_unread",
    "C135_program"
   ],
   "note": ""
  },
  {
   "property": "C136",
   "status": "proved",
   "theorems": [
    "C136_further",
    "C136_message"
   ],
   "note": ""
  },
  {
   "property": "C137",
   "status": "proved",
   "theorems": [
    "C137_stats"
   ],
   "note": ""
  },
  {
   "property": "C138",
   "status": "proved",
   "theorems": [
    "C138_budget"
   ],
   "note": ""
  },
  {
   "property": "C139",
   "status": "proved",
   "theorems": [
    "C139_print"
   ],
   "note": ""
  },
  {
   "property": "C140",
   "status": "proved",
   "theorems": [
    "C140_numbers",
    "C140_stats",
    "C140_accounts",
    "C140_payees"
   ],
   "note": ""
  },
  {
   "property": "C141",
   "status": "proved",
   "theorems": [
    "C141_print"
   ],
   "note": ""
  }
 ]
}