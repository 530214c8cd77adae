{
 "claims": [
  {
   "property": "C01",
   "status": "proved",
   "theorems": [
    "C01_amount_exact"
   ],
   "note": "all amount trees, both build modes, under the stated no-overflow bound"
  },
  {
   "property": "C02",
   "status": "proved",
   "theorems": [
    "C02_overflow"
   ],
   "note": "all amount trees"
  },
  {
   "property": "C03",
   "status": "proved",
   "theorems": [
    "C03_getters",
    "C03_getters_zero"
   ],
   "note": "getters on every amount (no overflow), zero on non-amounts, overflow case separately in C02 style"
  },
  {
   "property": "C04",
   "status": "proved",
   "theorems": [
    "C04_algebra"
   ],
   "note": "identical results under commutation and re-association when nothing overflows"
  },
  {
   "property": "C05",
   "status": "proved",
   "theorems": [
    "C05_total"
   ],
   "note": "termination of the mutual recursion and value-only results for every tree of valid leaves"
  },
  {
   "property": "C06",
   "status": "proved",
   "theorems": [
    "C06_shape"
   ],
   "note": "complete syntactic decision of acceptance"
  },
  {
   "property": "C07",
   "status": "proved",
   "theorems": [
    "C07_moment_left_only"
   ],
   "note": "all trees on the left"
  },
  {
   "property": "C08",
   "status": "partial",
   "theorems": [
    "C08_sub_then_add_partial",
    "C08_sub_then_add_refuted"
   ],
   "note": "false of the code: every such expression is CannotAdd; the partial theorem gives the exact behaviour, the refuted theorem a witness where moving back and then forward works"
  },
  {
   "property": "C09",
   "status": "proved",
   "theorems": [
    "C09_end_of_operand"
   ],
   "note": "Holds for every expression, moment and mode; both sides of + and - are covered."
  },
  {
   "property": "C10",
   "status": "proved",
   "theorems": [
    "C10_add_exact",
    "C10_inst_injective",
    "C10_add_tree_exact"
   ],
   "note": "single amounts and whole amount trees; uniqueness of the moment at an instant"
  },
  {
   "property": "C11",
   "status": "partial",
   "theorems": [
    "C11_add_days_exact_partial",
    "C11_add_days_exact_refuted",
    "C11_exactly_partial",
    "C11_every_amount_partial"
   ],
   "note": "false of the code from 31 January of the next year on (witness 2000-12-31 + 31 days = 2001-02-01); partial theorem is the exact range, C12 the complete behaviour; C11_exactly_partial is the exact condition (if and only if) for amounts within about 2^31 years, C11_every_amount_partial for every amount"
  },
  {
   "property": "C12",
   "status": "proved",
   "theorems": [
    "C12_add_clock_complete",
    "C12_add_overflow"
   ],
   "note": "closed form for every n >= 0 and the overflow panic"
  },
  {
   "property": "C13",
   "status": "proved",
   "theorems": [
    "C13_add_months_complete",
    "C13_add_months_same_day"
   ],
   "note": "closed form plus the day<=28 reading"
  },
  {
   "property": "C14",
   "status": "proved",
   "theorems": [
    "C14_add_years_complete",
    "C14_add_years_in_range",
    "C14_add_years_out_of_range"
   ],
   "note": "closed form for both signs, in-range and out-of-range readings"
  },
  {
   "property": "C15",
   "status": "partial",
   "theorems": [
    "C15_out_of_range_partial",
    "C15_out_of_range_refuted",
    "C15_exactly_partial"
   ],
   "note": "false beyond 32-bit years / negative amounts below -2^31 (witnesses Years(2^32), Days(-2^32)); proved inside that span; C15_exactly_partial: for amounts that do not overflow, a sum beyond the last year succeeds iff the year aimed at less a multiple of 2^32 can be represented and has the day"
  },
  {
   "property": "C16",
   "status": "proved",
   "theorems": [
    "C16_add_negative",
    "C16_representable"
   ],
   "note": "exact or OutOfBounds down to -2^31 units, and for every amount whose target can be represented"
  },
  {
   "property": "C17",
   "status": "proved",
   "theorems": [
    "C17_add_forward",
    "C17_add_forward_tree"
   ],
   "note": "single amounts and amount trees"
  },
  {
   "property": "C18",
   "status": "partial",
   "theorems": [
    "C18_add_order_partial",
    "C18_add_order_refuted",
    "C18_exactly_partial",
    "C18_same_year_partial",
    "C18_clock_exactly_partial",
    "C18_signed_partial",
    "C18_negative_partial"
   ],
   "note": "false in general (three witnesses); proved on the regular fragments; C18_signed_partial is the exact condition for months and years of either sign (C18_exactly_partial: for n >= 0), C18_clock_exactly_partial for clock units; clock units never reverse the order within one year, and negative ones down to -2^31 keep the distance"
  },
  {
   "property": "C19",
   "status": "proved",
   "theorems": [
    "C19_sub_clock_complete"
   ],
   "note": "closed form, including the off-by-one-cycle case"
  },
  {
   "property": "C20",
   "status": "proved",
   "theorems": [
    "C20_sub_days_complete",
    "C20_sub_days_deviation"
   ],
   "note": "closed form, and the exact deviation when a shorter month is entered"
  },
  {
   "property": "C21",
   "status": "proved",
   "theorems": [
    "C21_sub_months_complete",
    "C21_sub_years_complete"
   ],
   "note": "closed forms (years for both signs)"
  },
  {
   "property": "C22",
   "status": "partial",
   "theorems": [
    "C22_exactly_partial",
    "C22_every_amount_partial",
    "C22_sub_exact_partial",
    "C22_sub_exact_refuted"
   ],
   "note": "false of the code (witnesses 00:05:00 - 60 s = 00:03:00, 3 March - 5 days = 29 February); the partial theorem gives the exact deviation of every other successful subtraction; C22_exactly_partial is the exact condition for every amount below 2^31; C22_every_amount_partial for every 64-bit amount of either sign"
  },
  {
   "property": "C23",
   "status": "proved",
   "theorems": [
    "C23_sub_negative"
   ],
   "note": "exact or OutOfBounds down to -2^31 units; below that a moment is never exact (C22_every_amount_partial)"
  },
  {
   "property": "C24",
   "status": "partial",
   "theorems": [
    "C24_exactly_partial",
    "C24_back_exactly_partial",
    "C24_large_partial",
    "C24_period_partial",
    "C24_years_exactly_partial",
    "C24_round_clock_partial",
    "C24_round_months_partial",
    "C24_round_years_partial",
    "C24_round_refuted"
   ],
   "note": "false of the code (witnesses for each kind of unit); partial theorems give the fragment per unit; C24_exactly_partial is the exact condition for all six units and amounts below 2^31; C24_back_exactly_partial for amounts below zero, C24_years_exactly_partial for years of any size, C24_large_partial: no other amount from 2^31 up to the period of its unit is undone, C24_period_partial reduces larger ones"
  },
  {
   "property": "C25",
   "status": "proved",
   "theorems": [
    "C25_ok_moments_valid",
    "C25_bare_moment"
   ],
   "note": "Holds for every expression over valid moments, in both modes."
  },
  {
   "property": "C26",
   "status": "partial",
   "theorems": [
    "C26_day_is_hour_partial",
    "C26_add_clock_reports_partial",
    "C26_add_months_reports_partial",
    "C26_add_years_reports_partial",
    "C26_sub_days_reports_partial",
    "C26_sub_months_reports_partial",
    "C26_sub_years_reports_partial",
    "C26_reports_refuted"
   ],
   "note": "false of the code: the day component always equals the hour component; the other components are shown right for every closed form"
  },
  {
   "property": "C27",
   "status": "proved",
   "theorems": [
    "C27_end_forms",
    "C27_last"
   ],
   "note": "Holds for every valid moment. Note that end_of_year and end_of_month give midnight of the last day, not the last second; the statement says so."
  },
  {
   "property": "C28",
   "status": "proved",
   "theorems": [
    "C28_end_idempotent",
    "C28_end_nests",
    "C28_end_monotone"
   ],
   "note": "Holds for every valid moment and every pair of moments."
  },
  {
   "property": "C29",
   "status": "partial",
   "theorems": [
    "C29_end_forward_partial",
    "C29_end_day_forward_partial",
    "C29_end_forward_refuted",
    "C29_exactly_partial"
   ],
   "note": "false for end_of_year/month inside the last day (witness); proved otherwise, and by date always; C29_exactly_partial: backwards if and only if inside the last day of the month or year"
  },
  {
   "property": "C30",
   "status": "proved",
   "theorems": [
    "C30_end_complete"
   ],
   "note": "complete behaviour of end_of on every expression"
  },
  {
   "property": "C31",
   "status": "proved",
   "theorems": [
    "C31_leap_rule",
    "C31_month_length",
    "C31_other_months",
    "C31_truncation"
   ],
   "note": "all i32 years and all u32 month numbers; truncation of out-of-range years stated separately"
  },
  {
   "property": "C32",
   "status": "proved",
   "theorems": [
    "C32_one_day",
    "C32_one_month",
    "C32_day_advance",
    "C32_matchers_agree",
    "C32_non_moments"
   ],
   "note": "all moments, all non-moments"
  },
  {
   "property": "C33",
   "status": "proved",
   "theorems": [
    "C33_compare_eq",
    "C33_compare_antisym",
    "C33_compare_trans",
    "C33_chronological",
    "C33_amounts",
    "C33_kinds",
    "C33_lexicographic"
   ],
   "note": "derived comparison on all TimeType trees"
  },
  {
   "property": "C34",
   "status": "proved",
   "theorems": [
    "C34_build",
    "C34_build_fails",
    "C34_constructors",
    "C34_other_receivers",
    "C34_weekly",
    "C34_weekly_overflow"
   ],
   "note": "all receivers and increments, including the overflow of 7*n"
  },
  {
   "property": "C35",
   "status": "proved",
   "theorems": [
    "C35_first",
    "C35_never_none"
   ],
   "note": "no hypothesis on the state for the never-None part"
  },
  {
   "property": "C36",
   "status": "proved",
   "theorems": [
    "C36_kth",
    "C36_end_of_range"
   ],
   "note": "both build modes, all k"
  },
  {
   "property": "C37",
   "status": "proved",
   "theorems": [
    "C37_monthly",
    "C37_yearly"
   ],
   "note": "monthly for n >= 0 and days 1-28; yearly for both signs"
  },
  {
   "property": "C38",
   "status": "partial",
   "theorems": [
    "C38_keep_partial",
    "C38_drift_partial",
    "C38_fails_partial",
    "C38_leap_day_partial",
    "C38_day_kept_refuted"
   ],
   "note": "false of the code (witness 2016-01-31 monthly: 31 Jan, 2 Mar, 2 Apr); the partial theorems describe all cases: for steps of any number of months, the items keep the day as long as it fits, what the first misfit turns into, and when it fails instead; yearly steps from 29 February; witness for the drift"
  },
  {
   "property": "C39",
   "status": "proved",
   "theorems": [
    "C39_sticky",
    "C39_sticky_all"
   ],
   "note": "next() alone and any mix of next, skip and rollback"
  },
  {
   "property": "C40",
   "status": "partial",
   "theorems": [
    "C40_rollback_exactly_partial",
    "C40_rollback_every_partial",
    "C40_skip_partial",
    "C40_skip_fails_partial",
    "C40_rollback_partial",
    "C40_skip_refuted",
    "C40_rollback_refuted"
   ],
   "note": "false in two ways (witnesses: a failing skip() before the first next() makes next() return Ok of an unevaluated expression; rollback from 31 January does not restore the base); proved for successful skips, later failing skips and the undoable fragments; C40_rollback_exactly_partial: one step and one rollback restore the iterator if and only if the amount can be undone (C40_rollback_every_partial: for every amount)"
  },
  {
   "property": "C41",
   "status": "proved",
   "theorems": [
    "C41_passes",
    "C41_fused",
    "C41_negative_checked",
    "C41_wrapping"
   ],
   "note": "any inner iterator, every n of i64, both build modes (negative n: overflow panic after 2^63-1 items, or n modulo 2^64 items)"
  },
  {
   "property": "C42",
   "status": "proved",
   "theorems": [
    "C42_moment",
    "C42_not_a_moment",
    "C42_evaluation_error",
    "C42_rest",
    "C42_one_inner_call"
   ],
   "note": "any inner iterator"
  },
  {
   "property": "C43",
   "status": "partial",
   "theorems": [
    "C43_none_or_error_partial",
    "C43_clock_partial",
    "C43_months_partial",
    "C43_years_partial",
    "C43_terminates_refuted",
    "C43_exactly_partial",
    "C43_clock_exactly_partial"
   ],
   "note": "false of the code (witnesses: every 2 months from 2016-12-29 until 2018 yields errors for ever; every 2^32 years yields the base for ever); partial theorems: None or a constant error for every step inside the 32-bit span, None for the regular steps; exactly: it ends at an item iff the unbounded iteration is there not before the end, and for steps up to 30 days iff such a moment can be represented"
  },
  {
   "property": "C44",
   "status": "proved",
   "theorems": [
    "C44_every",
    "C44_without",
    "C44_every_matches",
    "C44_without_matches",
    "C44_every_without",
    "C44_every_diverges"
   ],
   "note": "any inner iterator and matcher; a call that never finds a match is shown not to return"
  },
  {
   "property": "C45",
   "status": "proved",
   "theorems": [
    "C45_evaluation",
    "C45_iteration",
    "C45_skip",
    "C45_rollback",
    "C45_times",
    "C45_until",
    "C45_every",
    "C45_without",
    "C45_matchers",
    "C45_constructors",
    "C45_parsing",
    "C45_parsed_iterators"
   ],
   "note": "evaluation, iteration, adapters, matchers, constructors and parsing; the iso8601 parsers are arbitrary functions returning fields in range"
  },
  {
   "property": "C46",
   "status": "proved",
   "theorems": [
    "C46_unit",
    "C46_unit_only",
    "C46_unit_followed",
    "C46_adverb",
    "C46_adverb_only"
   ],
   "note": "all spellings, any following text"
  },
  {
   "property": "C47",
   "status": "proved",
   "theorems": [
    "C47_number",
    "C47_number_only",
    "C47_no_number"
   ],
   "note": "digit strings of any length"
  },
  {
   "property": "C48",
   "status": "proved",
   "theorems": [
    "C48_roundtrip",
    "C48_followed",
    "C48_only",
    "C48_unambiguous"
   ],
   "note": "round trip for every expression, spelling and blanks; unambiguous"
  },
  {
   "property": "C49",
   "status": "partial",
   "theorems": [
    "C49_exactly_partial",
    "C49_value_partial",
    "C49_left_to_right_partial",
    "C49_left_to_right_refuted"
   ],
   "note": "false of the code: a - b + c is read as a - (b + c) (witness 3 days - 2 days + 1 day = 0 days); the partial theorems give the value for the right-nested reading and the sums for which it is the left-to-right one; exactly: the value deviates by twice the amounts with an odd number of minus signs before their own operator"
  },
  {
   "property": "C50",
   "status": "proved",
   "theorems": [
    "C50_date",
    "C50_no_such_date",
    "C50_date_and_amounts",
    "C50_plus_exact"
   ],
   "note": "for every ISO parser that returns fields in range"
  },
  {
   "property": "C51",
   "status": "partial",
   "theorems": [
    "C51_today",
    "C51_tomorrow",
    "C51_tomorrow_arithmetic",
    "C51_yesterday_partial",
    "C51_yesterday_minus_partial",
    "C51_yesterday_plus_refuted",
    "C51_yesterday_refuted"
   ],
   "note": "today and tomorrow as stated; false for yesterday (witnesses: 1 March has no yesterday, yesterday + x never evaluates); partial theorems give exactly when yesterday evaluates and its value"
  },
  {
   "property": "C52",
   "status": "partial",
   "theorems": [
    "C52_late_partial",
    "C52_offset_partial",
    "C52_dates_refuted"
   ],
   "note": "false of the code: ordinal dates are one day late, ISO week dates 5 to 11 days late, offsets are ignored; partial theorems give the exact deviation"
  },
  {
   "property": "C53",
   "status": "partial",
   "theorems": [
    "C53_exactly_partial",
    "C53_beginning_partial",
    "C53_rest_ignored_partial",
    "C53_rejected_refuted"
   ],
   "note": "false of the code (witnesses '5 days garbage', malformed until); partial theorems: an accepted input begins with an expression of the grammar, and the rest has no influence; C53_exactly_partial: accepted if and only if the text has a reading (C88)"
  },
  {
   "property": "C54",
   "status": "proved",
   "theorems": [
    "C54_means",
    "C54_never_not_a_date",
    "C54_items",
    "C54_items_times",
    "C54_items_until"
   ],
   "note": "all iterator expressions; items in closed form for steps of at most 30 days"
  },
  {
   "property": "C55",
   "status": "proved",
   "theorems": [
    "C55_amounts",
    "C55_fuel_irrelevant",
    "C55_iterators",
    "C55_dates",
    "C55_parse"
   ],
   "note": "every parser, every input, every nom configuration; iso8601 parsers assumed to leave a suffix"
  },
  {
   "property": "C56",
   "status": "partial",
   "theorems": [
    "C56_exactly_partial",
    "C56_no_checks_partial",
    "C56_checks_partial",
    "C56_returns_refuted"
   ],
   "note": "false with overflow checks (every number of weeks above 2^63/7 panics); without overflow checks parse always returns, and with them only overflow panics; C56_exactly_partial says which accepted texts panic: those whose reading has a number of weeks, a step or a first iterator date that overflows"
  },
  {
   "property": "C57",
   "status": "proved",
   "theorems": [
    "C57_compositional"
   ],
   "note": "for every pair of trees of accepted shape"
  },
  {
   "property": "C58",
   "status": "proved",
   "theorems": [
    "C58_weekday",
    "C58_month"
   ],
   "note": "Holds for every base and any number of items; the bound of seven steps is part of the theorem."
  },
  {
   "property": "C59",
   "status": "proved",
   "theorems": [
    "C59_error_kinds"
   ],
   "note": "Holds for every well-formed expression, in both modes."
  },
  {
   "property": "C60",
   "status": "proved",
   "theorems": [
    "C60_evaluation",
    "C60_getters",
    "C60_skip",
    "C60_rollback",
    "C60_iterator",
    "C60_times",
    "C60_until",
    "C60_every",
    "C60_without",
    "C60_parsed_iterator",
    "C60_items",
    "C60_weeks",
    "C60_weekly",
    "C60_parse"
   ],
   "note": "All operations that take a build mode; the filter adapters for every fuel. The model of the loop keeps the same fuel in both modes."
  },
  {
   "property": "C61",
   "status": "proved",
   "theorems": [
    "C61_until",
    "C61_until_months",
    "C61_until_years",
    "C61_until_empty",
    "C61_times",
    "C61_unique"
   ],
   "note": "until for clock units with steps up to 30 days, for months from days up to 28, for years from any day but 29 February, as long as the items stay in chrono's range; times for every n >= 0 (negative n: C41)"
  },
  {
   "property": "C62",
   "status": "partial",
   "theorems": [
    "C62_years_exactly_partial",
    "C62_months_exactly_partial",
    "C62_clock_partial",
    "C62_months_partial",
    "C62_years_partial",
    "C62_sequence_refuted",
    "C62_clock_exactly_partial"
   ],
   "note": "False as stated: C62_sequence_refuted (months from the 31st, years from 29 February, days over two year ends). Proved for clock amounts up to 30 January of the next year, for months with day <= 28, for years except from 29 February; C62_years_exactly_partial, C62_months_exactly_partial and C62_clock_exactly_partial are the exact conditions for years, months and clock amounts (the last where all three sums succeed)"
  },
  {
   "property": "C63",
   "status": "proved",
   "theorems": [
    "C63_zero"
   ],
   "note": "Every amount expression with a total of zero whose intermediate sums fit in i64."
  },
  {
   "property": "C64",
   "status": "proved",
   "theorems": [
    "C64_add_clock",
    "C64_add_months",
    "C64_sub_clock"
   ],
   "note": "Closed form for every clock unit and for months, amounts down to -2^31 (below that the conversion to 32 bits wraps). Adding negative years is covered by C14, which has no sign condition."
  },
  {
   "property": "C65",
   "status": "partial",
   "theorems": [
    "C65_exactly_partial",
    "C65_within_field_partial",
    "C65_months_partial",
    "C65_years_partial",
    "C65_both_succeed_partial",
    "C65_opposite_refuted"
   ],
   "note": "False as stated: C65_opposite_refuted. Proved: equal within the field; exact conditions for months within the year and for years; where both succeed they agree except when the field drops by exactly its size. Exactly: both give the same moment iff the amount can be taken from its own field and the date exists."
  },
  {
   "property": "C66",
   "status": "proved",
   "theorems": [
    "C66_month_loop",
    "C66_year_loop",
    "C66_turns_unique"
   ],
   "note": "Number of executions of the loop body, for the loop condition and body of the model of util.rs."
  },
  {
   "property": "C67",
   "status": "partial",
   "theorems": [
    "C67_test_until_1",
    "C67_test_until_2",
    "C67_test_until_partial",
    "C67_yesterday",
    "C67_test_until_refuted"
   ],
   "note": "test_until is false on the first of a month after a month shorter than 31 days (C67_test_until_refuted); C67_yesterday states exactly when. The other two hold for all readings."
  },
  {
   "property": "C68",
   "status": "proved",
   "theorems": [
    "C68_arguments",
    "C68_white_space",
    "C68_trim",
    "C68_lines",
    "C68_status",
    "C68_printable",
    "C68_ends"
   ],
   "note": "Model of examples/main.rs; output up to any number of items. Panics are those of C45; the ISO 8601 parsers are assumed to terminate, to leave a suffix of their input and to keep field ranges."
  },
  {
   "property": "C69",
   "status": "proved",
   "theorems": [
    "C69_amounts",
    "C69_endless",
    "C69_times",
    "C69_until",
    "C69_until_past"
   ],
   "note": "Steps in seconds to days of at most thirty days per step; months and years are covered for the items themselves by C37, C38."
  },
  {
   "property": "C70",
   "status": "partial",
   "theorems": [
    "C70_lower_case_partial",
    "C70_amounts_refuted",
    "C70_moments_refuted",
    "C70_exactly_partial"
   ],
   "note": "False as stated: printed units are capitalised and not understood (C70_amounts_refuted), and of a printed moment only the date is read (C70_moments_refuted). Proved: amounts that are not negative are read back when the unit is written in lower case. Exactly: a printed moment is read back iff it is a midnight."
  },
  {
   "property": "C71",
   "status": "proved",
   "theorems": [
    "C71_values",
    "C71_trees",
    "C71_errors",
    "C71_names",
    "C71_formats"
   ],
   "note": "Texts as produced by the Display and Debug implementations of chrono and of the derive macros, which are modelled in Show.v. C71_formats: every message is its format string filled in."
  },
  {
   "property": "C72",
   "status": "proved",
   "theorems": [
    "C72_increasing",
    "C72_decreasing",
    "C72_until_misses_nothing",
    "C72_until_backward"
   ],
   "note": "steps up to span32 seconds forward, 32-bit negative steps"
  },
  {
   "property": "C73",
   "status": "proved",
   "theorems": [
    "C73_until_times",
    "C73_until_until",
    "C73_times_times",
    "C73_every_until",
    "C73_without_until"
   ],
   "note": "matchers that decide every moment, as Day and Month do; the case where no later item is let through is C44_every_diverges"
  },
  {
   "property": "C74",
   "status": "proved",
   "theorems": [
    "C74_clock",
    "C74_order",
    "C74_months",
    "C74_mixed"
   ],
   "note": "each amount between 0 and 30 days; C74_mixed is the witness that the order matters otherwise"
  },
  {
   "property": "C75",
   "status": "proved",
   "theorems": [
    "C75_day_filter",
    "C75_month_filter",
    "C75_not_a_moment",
    "C75_every_without",
    "C75_test_compile_skip",
    "C75_test_compile"
   ],
   "note": "`or` of the filters crate taken as Boolean or; `take` as times"
  },
  {
   "property": "C76",
   "status": "partial",
   "theorems": [
    "C76_smaller_partial",
    "C76_weeks_partial",
    "C76_rules_refuted",
    "C76_exactly_partial"
   ],
   "note": "False of the code: a month is 30 days (28 days are 0 months, one month is 30 days) and 60 seconds are one minute. Proved: zero exactly if worth less than one queried unit; n weeks are at most n/4 months and fewer from 60 weeks on. Exactly: n weeks count n/4 months iff 2(n/4) <= 7(n mod 4)."
  },
  {
   "property": "C77",
   "status": "proved",
   "theorems": [
    "C77_accepted"
   ],
   "note": "full; strengthens C53_beginning_partial"
  },
  {
   "property": "C78",
   "status": "partial",
   "theorems": [
    "C78_step_partial",
    "C78_step_refuted"
   ],
   "note": "False of the code: such a text is read as the date alone (proved for every date and number)."
  },
  {
   "property": "C79",
   "status": "partial",
   "theorems": [
    "C79_iterators_partial",
    "C79_numbers_partial",
    "C79_dates_rejected_partial",
    "C79_others_rejected_partial",
    "C79_blanks_refuted",
    "C79_exactly_partial"
   ],
   "note": "False of the code: blanks before keywords and adverbs make the parser reject (proved for all such texts). Proved: before iterators and before numbers they do not matter. C79_exactly_partial: the readings of a text after blanks, exactly"
  },
  {
   "property": "C80",
   "status": "proved",
   "theorems": [
    "C80_forward",
    "C80_backward"
   ],
   "note": "full for the stated steps; zero steps are C63/C72"
  },
  {
   "property": "C81",
   "status": "partial",
   "theorems": [
    "C81_utf8",
    "C81_not_text",
    "C81_no_crash_partial",
    "C81_overflow_only_partial",
    "C81_crash_refuted",
    "C81_exactly_partial"
   ],
   "note": "False in builds with overflow checks (large week counts, C81_crash_refuted). Proved: no crash without checks, no other crash with them; the UTF-8 check accepts exactly encodings of scalar values. C81_exactly_partial says which inputs crash."
  },
  {
   "property": "C82",
   "status": "proved",
   "theorems": [
    "C82_kinds"
   ],
   "note": "full"
  },
  {
   "property": "C83",
   "status": "proved",
   "theorems": [
    "C83_amounts",
    "C83_dates",
    "C83_iterators"
   ],
   "note": "full"
  },
  {
   "property": "C84",
   "status": "proved",
   "theorems": [
    "C84_amounts",
    "C84_add",
    "C84_sub",
    "C84_expressions"
   ],
   "note": "full"
  },
  {
   "property": "C85",
   "status": "proved",
   "theorems": [
    "C85_month_ago",
    "C85_far",
    "C85_right_exactly",
    "C85_right_month",
    "C85_variant"
   ],
   "note": "complete for every number of days below the period; right month for n up to 28, exactly described beyond (wrong from 29 days on for some days: example)"
  },
  {
   "property": "C86",
   "status": "proved",
   "theorems": [
    "C86_items",
    "C86_errors",
    "C86_grows"
   ],
   "note": "the state after every successful item, after errors, and the number of nodes after any operations"
  },
  {
   "property": "C87",
   "status": "partial",
   "theorems": [
    "C87_exactly_partial",
    "C87_dates_partial",
    "C87_twice_refuted"
   ],
   "note": "False as stated (00:05:00 - 30 s - 30 s against - 60 s, C87_twice_refuted). Proved: true for days, months and years; C87_exactly_partial is the exact condition for all units."
  },
  {
   "property": "C88",
   "status": "proved",
   "theorems": [
    "C88_parse",
    "C88_one_reading",
    "C88_shorter_not_tried"
   ],
   "note": "complete description of the parser as a longest-match reading; C88_shorter_not_tried: a text where only a shorter unit would leave an iterator"
  },
  {
   "property": "C89",
   "status": "partial",
   "theorems": [
    "C89_wide_refuted",
    "C89_round_partial",
    "C89_others_partial",
    "C89_clock_partial",
    "C89_days_partial",
    "C89_months_partial",
    "C89_far_partial",
    "C89_add_negative_partial",
    "C89_add_months_partial",
    "C89_sub_negative_partial"
   ],
   "note": "False as stated: C89_wide_refuted (adding -2^32 days gives the same moment). The exact description is proved: a subtraction of 2^31 or more gives a moment iff the rest modulo the period of the unit (13*2^32 months up to 60*60*24*32*13*2^32 seconds) does and borrows from the year, else it is out of bounds; below the period none does (closed forms); exact results of adding or subtracting negative amounts of any size."
  },
  {
   "property": "C90",
   "status": "proved",
   "theorems": [
    "C90_value",
    "C90_release",
    "C90_texts",
    "C90_amounts",
    "C90_items",
    "C90_items_release",
    "C90_iterators"
   ],
   "note": "value_correct for all well-typed expressions; texts of all readings through the longest-match readings of C88, with amounts of any size; items of iterations and iterator texts by iterating the closed form of addition. Builds without overflow checks agree wherever the worth is not an overflow."
  },
  {
   "property": "C91",
   "status": "proved",
   "theorems": [
    "C91_program",
    "C91_release",
    "C91_rejects"
   ],
   "note": "Composition of C68 (arguments, trimming), C88 (reading), C90 (worth of texts and items) and the printing loop; texts without a reading print one parser error."
  },
  {
   "property": "C92",
   "status": "proved",
   "theorems": [
    "C92_answer",
    "C92_calls"
   ],
   "note": "Covers ill-typed expressions and builds without overflow checks, which C90 leaves open. Simultaneous induction over the sizes of expressions; the loops of fix are replaced by month_day and by division."
  },
  {
   "property": "C93",
   "status": "proved",
   "theorems": [
    "C93_output"
   ],
   "note": "Strengthens C91: nothing is blurred and overflows in release builds are included. Texts without a reading are in C91_rejects."
  },
  {
   "property": "C94",
   "status": "proved",
   "theorems": [
    "C94_depth",
    "C94_needed",
    "C94_texts",
    "C94_errors_grow"
   ],
   "note": "The number of nested calls is the fuel of the model's evaluator, one unit for each call of a function of src/timetype.rs 454-1180. The number of calls in total is C100."
  },
  {
   "property": "C95",
   "status": "proved",
   "theorems": [
    "C95_unfinished",
    "C95_others",
    "C95_texts",
    "C95_program"
   ],
   "note": "The ISO date parsers and the two variants of nom are parameters, as everywhere. Needed::Unknown and Needed::Size give the same error in the code and are one answer in the model."
  },
  {
   "property": "C96",
   "status": "proved",
   "theorems": [
    "C96_returns",
    "C96_zero",
    "C96_every_hangs",
    "C96_without_hangs",
    "C96_times",
    "C96_until"
   ],
   "note": "The fuel of the two loops counts their turns; a call hangs if no fuel is enough. Steps outside the first sentence are covered by the criterion only (example: 2^32 years stays at the start for ever)."
  },
  {
   "property": "C97",
   "status": "proved",
   "theorems": [
    "C97_echo",
    "C97_no_such_day",
    "C97_plus",
    "C97_months",
    "C97_days_back",
    "C97_repeat",
    "C97_until",
    "C97_parsers"
   ],
   "note": "The bound on sums is needed (example: thirty days after 1999-12-31 prints a day too many). That the assumptions on the parsers can be met is shown by a reader written for it, which is not a model of the crate."
  },
  {
   "property": "C98",
   "status": "proved",
   "theorems": [
    "C98_programs",
    "C98_weeks_overflow",
    "C98_tests",
    "C98_ends"
   ],
   "note": "Holds for every sequence of calls; C98_weeks_overflow gives the one panic while building."
  },
  {
   "property": "C99",
   "status": "proved",
   "theorems": [
    "C99_months",
    "C99_years",
    "C99_clock",
    "C99_seconds",
    "C99_increment"
   ],
   "note": "Examples show what happens beyond the conditions: going back by days over the end of a month fails, and 24 hours back are 48."
  },
  {
   "property": "C100",
   "status": "proved",
   "theorems": [
    "C100_calls",
    "C100_bound",
    "C100_exact",
    "C100_texts"
   ],
   "note": "The calls of a single function are given by `subcalls`, which is proved to name exactly the calls on whose results it depends. Turns of the loops in src/util.rs are counted in C66, not here."
  },
  {
   "property": "C101",
   "status": "proved",
   "theorems": [
    "C101_days",
    "C101_months",
    "C101_week",
    "C101_year"
   ],
   "note": "Holds for all days, months and pairs of valid moments."
  },
  {
   "property": "C102",
   "status": "proved",
   "theorems": [
    "C102_grammar",
    "C102_linear",
    "C102_expression",
    "C102_iso_calls"
   ],
   "note": "The steps are counted on the parsers written as trees of combinators (`Grammar.v`), which are proved to read the same as the parsers of the model. Steps inside the iso8601 crate are not counted, its calls are."
  },
  {
   "property": "C103",
   "status": "proved",
   "theorems": [
    "C103_next",
    "C103_item",
    "C103_items",
    "C103_error",
    "C103_errors"
   ],
   "note": "Calls are those counted in C100; C86 says what the iterator holds."
  },
  {
   "property": "C104",
   "status": "proved",
   "theorems": [
    "C104_times",
    "C104_without_month",
    "C104_complex"
   ],
   "note": "Composition of C36 (steps), C41-C43 and C58 (filters) and C61 (collect); the README's names Mark::MONTH_START and take are read as a closure and times()."
  },
  {
   "property": "C105",
   "status": "proved",
   "theorems": [
    "C105_leaps",
    "C105_same_output",
    "C105_same_answer",
    "C105_line_ends"
   ],
   "note": "The output is modelled as text in Stdout.v; nom's text and failure's backtrace are arbitrary. A leap second on the clock is printed like the second after it (example)."
  },
  {
   "property": "C106",
   "status": "proved",
   "theorems": [
    "C106_exactly",
    "C106_enough",
    "C106_unique",
    "C106_prefix",
    "C106_hangs",
    "C106_moving",
    "C106_parsed"
   ],
   "note": "Stack.v is the syntax of what a caller can write; the library has no such type. Uses C41, C42, C44 and C92 for the single adapters."
  },
  {
   "property": "C107",
   "status": "proved",
   "theorems": [
    "C107_counted",
    "C107_exact",
    "C107_work",
    "C107_success",
    "C107_subtraction",
    "C107_texts",
    "C107_truncated"
   ],
   "note": "Counts loop turns over all calls of an evaluation (C66 counts those of one loop, C100 the calls). C107_success excludes amounts whose year needs more than 32 bits: the cast `y as i32` (C15) can make those succeed after more turns."
  },
  {
   "property": "C108",
   "status": "proved",
   "theorems": [
    "C108_values",
    "C108_items",
    "C108_until"
   ],
   "note": "The bare moment is the only value that keeps its parts of seconds (C25); this says that nothing else depends on them."
  },
  {
   "property": "C109",
   "status": "proved",
   "theorems": [
    "C109_values",
    "C109_stays",
    "C109_items",
    "C109_items_stay",
    "C109_queries",
    "C109_order",
    "C109_elapsed"
   ],
   "note": "Both exceptions occur (C109_leaves_case, C109_panic_case). C109_stays: no error if the moved values of all parts are inside the calendar."
  },
  {
   "property": "C110",
   "status": "proved",
   "theorems": [
    "C110_words",
    "C110_until",
    "C110_first_parts",
    "C110_second_parts",
    "C110_from_today"
   ],
   "note": "The clock is a parameter of the model, read once per date in the order of evaluation (now1 for the date, now2 for the end)."
  },
  {
   "property": "C111",
   "status": "partial",
   "theorems": [
    "C111_refuted",
    "C111_add_partial",
    "C111_items_partial",
    "C111_negative_exactly_partial",
    "C111_sub_exactly_partial",
    "C111_years_exactly_partial",
    "C111_sub_years_exactly_partial"
   ],
   "note": "False as stated (C111_refuted): differences and negative amounts borrow only once per field, and months after December count 30 days. Proved: sums and iterations by non-negative seconds, minutes, hours and days agree in every result including errors (C111_add_partial, C111_items_partial); exactly when negative sums, differences, and months and years agree (the _exactly_partial theorems). A month and 30 days are not claimed to agree."
  },
  {
   "property": "C112",
   "status": "partial",
   "theorems": [
    "C112_refuted",
    "C112_dates_partial",
    "C112_clock_partial",
    "C112_exactly_partial",
    "C112_negative_partial"
   ],
   "note": "False for seconds, minutes and hours when the later moment's field drops to exactly its size below zero (C112_refuted). Proved: always true for days, months and years below 2^62; true for clock units of any size unless only the later moment loses one too many; C112_exactly_partial gives the exact distance of the differences; negative clock amounts down to -2^31 keep the distance. Negative months and years are left to C64 and C14."
  },
  {
   "property": "C113",
   "status": "proved",
   "theorems": [
    "C113_add",
    "C113_trees",
    "C113_sub"
   ],
   "note": "Full for the stated range; C113_bound_case shows that 32-bit years limit it. Differences of larger amounts are out of bounds up to the period of the unit (C89)."
  },
  {
   "property": "C114",
   "status": "partial",
   "theorems": [
    "C114_refuted",
    "C114_moves",
    "C114_exactly_partial",
    "C114_sums_partial",
    "C114_dates_partial",
    "C114_clock_partial",
    "C114_negative_partial",
    "C114_month_partial"
   ],
   "note": "False of the code (C114_refuted). C114_moves gives the exact way of every step with a result (counts from -2^31; differences of clock units below the period, else 2^31; sums within about 2^31 years), C114_exactly_partial and C114_sums_partial say exactly when the order does not matter; it does not for months and years up to the 28th, for additions of clock units up to 30 January, for negative amounts of clock units, and for clock units within a month with months or years. Missing: larger counts."
  },
  {
   "property": "C115",
   "status": "proved",
   "theorems": [
    "C115_two",
    "C115_one",
    "C115_amount",
    "C115_amount_tree",
    "C115_months",
    "C115_years"
   ],
   "note": "Full."
  },
  {
   "property": "C116",
   "status": "partial",
   "theorems": [
    "C116_refuted",
    "C116_exactly_partial",
    "C116_nine_partial"
   ],
   "note": "False of the code (C116_refuted: from 1 March no subtractions lead to the evening of 28 February). C116_exactly_partial is the exact condition; C116_nine_partial: nine subtractions are enough."
  },
  {
   "property": "C117",
   "status": "proved",
   "theorems": [
    "C117_clock",
    "C117_months",
    "C117_years",
    "C117_once",
    "C117_dates",
    "C117_common",
    "C117_finer",
    "C117_weekly"
   ],
   "note": "C117_clock, C117_months, C117_years: exactly the moments visited; C117_once: none twice, in any unit; C117_dates: one item a date; C117_common, C117_finer: two iterations from one start; C117_weekly: every() on the daily iteration is the weekly one."
  },
  {
   "property": "C118",
   "status": "partial",
   "theorems": [
    "C118_refuted",
    "C118_meet_partial",
    "C118_three_partial",
    "C118_year_partial",
    "C118_negative_partial",
    "C118_hit_partial"
   ],
   "note": "False of the code (C118_refuted: 31 January 2015 and 3 February 2015 plus a month are both 3 March; no moment plus 60 days is 1 March 2015 at midnight). C118_meet_partial: exactly when two moments are confused; C118_three_partial: never three; C118_year_partial: not within a year by clock units; C118_negative_partial: the same for negative amounts; C118_hit_partial: exactly which moments are reached."
  },
  {
   "property": "C119",
   "status": "proved",
   "theorems": [
    "C119_apart",
    "C119_left",
    "C119_left_negative"
   ],
   "note": "C119_apart: subtraction of one amount keeps moments apart (unlike addition, C118). C119_left: exactly which moments are some moment less an amount that is not negative. C119_left_negative: the same for negative amounts."
  },
  {
   "property": "C120",
   "status": "proved",
   "theorems": [
    "C120_add",
    "C120_sub",
    "C120_add_years",
    "C120_sub_years",
    "C120_trees_add",
    "C120_trees_sub"
   ],
   "note": "C120_add, C120_sub: the ends of minutes, hours and days and longer units, every 64-bit amount. C120_add_years, C120_sub_years: the end of the year and years; subtraction with its exact exception. C120_trees_add, C120_trees_sub: the same of expressions."
  },
  {
   "property": "C121",
   "status": "proved",
   "theorems": [
    "C121_add",
    "C121_add_range",
    "C121_sub",
    "C121_sub_range",
    "C121_weeks_add",
    "C121_weeks_sub",
    "C121_iteration"
   ],
   "note": "C121_add, C121_sub: the error in closed form. C121_add_range, C121_sub_range: its bounds. C121_weeks_add, C121_weeks_sub: when whole weeks keep the weekday. C121_iteration: an iteration against the sum of its steps."
  },
  {
   "property": "C122",
   "status": "proved",
   "theorems": [
    "C122_merge",
    "C122_distance",
    "C122_meet"
   ],
   "note": "C122_merge: runs that meet stay together. C122_distance, C122_meet: steps by clock units of at most 30 days."
  },
  {
   "property": "C123",
   "status": "proved",
   "theorems": [
    "C123_month_add",
    "C123_month_add_exact",
    "C123_month_sub",
    "C123_year_add",
    "C123_year_sub"
   ],
   "note": "C123_month_add, C123_month_add_exact: value and existence of the end of the month n months later. C123_month_sub: the same n months before. C123_year_add, C123_year_sub: years."
  },
  {
   "property": "C124",
   "status": "proved",
   "theorems": [
    "C124_clock",
    "C124_needed",
    "C124_months",
    "C124_years",
    "C124_mixed"
   ],
   "note": "C124_clock and its converse C124_needed; C124_months, C124_years, C124_mixed (years against months)."
  },
  {
   "property": "C125",
   "status": "proved",
   "theorems": [
    "C125_add",
    "C125_iter",
    "C125_sub",
    "C125_months",
    "C125_sub_months",
    "C125_years"
   ],
   "note": "Equivalences C125_add, C125_iter, C125_sub (clock units), C125_months, C125_sub_months, C125_years."
  },
  {
   "property": "C126",
   "status": "proved",
   "theorems": [
    "C126_days",
    "C126_off",
    "C126_years",
    "C126_months",
    "C126_leap"
   ],
   "note": "Equivalences C126_days, C126_years, C126_months for each start; C126_off bounds the place of the wrong item; C126_leap justifies the condition on years."
  },
  {
   "property": "C127",
   "status": "proved",
   "theorems": [
    "C127_items",
    "C127_end",
    "C127_count",
    "C127_month",
    "C127_over",
    "C127_year"
   ],
   "note": "C127_items, C127_end, C127_count: complete for plain steps; C127_month, C127_over, C127_year: steps of any size."
  },
  {
   "property": "C128",
   "status": "proved",
   "theorems": [
    "C128_day",
    "C128_no_day",
    "C128_month",
    "C128_no_month"
   ],
   "note": "C128_day, C128_month: the period and the moments yielded; C128_no_day, C128_no_month: filters that never match."
  },
  {
   "property": "C129",
   "status": "proved",
   "theorems": [
    "C129_collects",
    "C129_fair"
   ],
   "note": "C129_collects: the moments and their number; C129_fair: two weekdays."
  },
  {
   "property": "C130",
   "status": "proved",
   "theorems": [
    "C130_collects",
    "C130_weeks"
   ],
   "note": "C130_collects: the moments; C130_weeks: their number for whole weeks."
  },
  {
   "property": "C131",
   "status": "proved",
   "theorems": [
    "C131_months",
    "C131_years",
    "C131_in_a_year",
    "C131_in_400_years"
   ],
   "note": "C131_months, C131_years: distances; C131_in_a_year, C131_in_400_years: numbers."
  },
  {
   "property": "C132",
   "status": "proved",
   "theorems": [
    "C132_value",
    "C132_trouble",
    "C132_items"
   ],
   "note": "The format strings are those of the source, filled in by SpecFormat.fill; moments and numbers are printed as chrono and the standard library do (Show, trusted)."
  }
 ]
}