{"id": "C01", "title": "Amount expressions evaluate to the exact sum in the finest unit", "statement": "calculate() on any tree of + and - over seconds/minutes/hours/days/months/years returns Ok of a single amount whose unit is the finest unit occurring in the tree and whose value, converted to seconds with 60s/60min/24h/30d/12mo, is exactly the signed sum of the leaves, whenever the sum of the absolute leaf values (in seconds) fits in i64.", "quantifier": "every amount-only expression tree of any depth and shape, every i64 leaf, debug and release arithmetic", "why_tests_cant": "the value space is i64 x dates x tree shapes; the unit tests sample a few dozen points around 2000-01-01", "anchors": ["src/timetype.rs:add", "src/timetype.rs:sub", "src/timetype.rs:add_to_seconds..add_to_years", "src/timetype.rs:sub_from_seconds..sub_from_years", "src/timetype.rs:do_calculate"]}
{"id": "C02", "title": "Overflow is never silent in checked builds and is modular in release builds", "statement": "For amount-only expressions, a build with overflow checks either returns the exact value or panics with arithmetic overflow; a build without them always returns Ok, in the finest unit, with a value congruent to the exact sum modulo 2^64.", "quantifier": "every amount-only tree and every i64 leaf", "why_tests_cant": "overflow needs values near 2^63; which subexpression overflows depends on tree shape", "anchors": ["src/timetype.rs:add_to_*", "src/timetype.rs:sub_from_*"]}
{"id": "C03", "title": "Getters agree with each other and truncate toward zero", "statement": "For every amount, get_minutes/hours/days/months/years equal the amount in seconds divided by 60/3600/86400/2592000/31104000 truncated toward zero; coarser-or-equal units are exact multiples; every getter returns 0 on anything that is not an amount; the sign never flips.", "quantifier": "every amount in every unit, every i64 (no multiplication overflow), and every non-amount TimeType", "why_tests_cant": "the value space is i64 x dates x tree shapes; the unit tests sample a few dozen points around 2000-01-01", "anchors": ["src/timetype.rs:TimeType::get_seconds", "src/timetype.rs:TimeType::get_minutes", "src/timetype.rs:TimeType::get_hours", "src/timetype.rs:TimeType::get_days", "src/timetype.rs:TimeType::get_months", "src/timetype.rs:TimeType::get_years"]}
{"id": "C04", "title": "Algebra of amounts", "statement": "On amount-only expressions that do not overflow, + is commutative and associative, a-(b-c) equals (a-b)+c and a-(b+c) equals (a-b)-c, in the sense that calculate() returns the identical value and unit.", "quantifier": "all triples of amount-only expressions", "why_tests_cant": "the value space is i64 x dates x tree shapes; the unit tests sample a few dozen points around 2000-01-01", "anchors": ["src/timetype.rs:add", "src/timetype.rs:sub"]}
{"id": "C05", "title": "calculate() is total and returns only values", "statement": "calculate() terminates on every TimeType, its Ok results are always a plain amount or a Moment (never an unevaluated expression), and calculating a result again returns it unchanged.", "quantifier": "every TimeType tree of any size, both arithmetic modes", "why_tests_cant": "mutual recursion over unbounded trees; a diverging input cannot be found by finitely many tests", "anchors": ["src/timetype.rs:TimeType::calculate", "src/timetype.rs:do_calculate", "src/timetype.rs:add", "src/timetype.rs:sub"]}
{"id": "C06", "title": "Which expressions are accepted is decided by their shape alone", "statement": "A syntactic check (amounts only, or a moment spine extended by amount-only operands, with end_of_* only around moment-valued expressions and never as an operand, and no + directly on top of a moment-valued -) decides calculate(): accepted amount shapes give an amount or an overflow panic, accepted moment shapes give a Moment, OutOfBounds, or an overflow panic, and every other shape never returns Ok.", "quantifier": "every TimeType tree", "why_tests_cant": "the value space is i64 x dates x tree shapes; the unit tests sample a few dozen points around 2000-01-01", "anchors": ["src/timetype.rs:add", "src/timetype.rs:sub", "src/timetype.rs:end_of_year..end_of_minute"]}
{"id": "C07", "title": "A Moment is only ever a left operand", "statement": "amount + moment and moment + moment fail with CannotAdd, amount - moment and moment - moment fail with CannotSub, carrying the operands that were given, for every amount-only left operand that does not panic.", "quantifier": "every amount, every moment", "why_tests_cant": "the value space is i64 x dates x tree shapes; the unit tests sample a few dozen points around 2000-01-01", "anchors": ["src/timetype.rs:add", "src/timetype.rs:sub", "src/timetype.rs:add_to_moment", "src/timetype.rs:sub_from_moment"]}
{"id": "C08", "title": "Subtract-then-add on a moment (README example)", "statement": "(moment - a + b).calculate() behaves like moving back by a and then forward by b.", "quantifier": "every moment and all amounts a, b", "why_tests_cant": "the value space is i64 x dates x tree shapes; the unit tests sample a few dozen points around 2000-01-01", "anchors": ["src/timetype.rs:add (arm (Subtraction, other))", "README.md"]}
{"id": "C09", "title": "end_of_* cannot be an operand of + or -", "statement": "Adding to or subtracting from (or adding/subtracting) an end_of_* expression never returns Ok.", "quantifier": "every end_of_* expression, every other operand", "why_tests_cant": "the value space is i64 x dates x tree shapes; the unit tests sample a few dozen points around 2000-01-01", "anchors": ["src/timetype.rs:add", "src/timetype.rs:sub"]}
{"id": "C10", "title": "Adding seconds, minutes, hours or days is exact elapsed time up to 30 January of the next year", "statement": "For every moment and every non-negative n seconds/minutes/hours/days whose target instant is before 31 January 00:00:00 of the year after the moment's year (and inside chrono's year range), moment + amount is Ok of the valid moment exactly n units of elapsed time later, with the sub-second part cleared.", "quantifier": "every valid moment, every n, four units", "why_tests_cant": "the value space is i64 x dates x tree shapes; the unit tests sample a few dozen points around 2000-01-01", "anchors": ["src/timetype.rs:add_to_moment", "src/util.rs:adjust_times_add"]}
{"id": "C11", "title": "Adding days: elapsed-time exactness for every distance", "statement": "moment + n days is exactly n days later for every n >= 0 whose target is representable.", "quantifier": "every valid moment, every n >= 0", "why_tests_cant": "the failing targets start at 31 January of the next year; the tests stay within one year", "anchors": ["src/timetype.rs:add_to_moment", "src/util.rs:adjust_times_add"]}
{"id": "C12", "title": "Adding days: complete behaviour", "statement": "For every n >= 0 (no i64 overflow) moment + n days is: inside the year, the exact date; past December, the date obtained by giving every month after December 30 days, reported Ok if that is a real date in chrono's range (after truncation of the year to 32 bits) and OutOfBounds otherwise. The same holds for seconds/minutes/hours after exact carry into days.", "quantifier": "every valid moment, every n >= 0", "why_tests_cant": "the value space is i64 x dates x tree shapes; the unit tests sample a few dozen points around 2000-01-01", "anchors": ["src/timetype.rs:add_to_moment", "src/util.rs:adjust_times_add", "src/util.rs:get_num_of_days_in_month"]}
{"id": "C13", "title": "Adding months: complete behaviour", "statement": "For every n >= 0 moment + n months keeps the time of day and lands n months later on the same day of month if the day is at most 28; for later days it spills into the following month or is OutOfBounds exactly as described by the closed form in the specification.", "quantifier": "every valid moment, every n >= 0", "why_tests_cant": "the value space is i64 x dates x tree shapes; the unit tests sample a few dozen points around 2000-01-01", "anchors": ["src/timetype.rs:add_to_moment", "src/util.rs:adjust_times_add"]}
{"id": "C14", "title": "Adding years: complete behaviour", "statement": "For every n of either sign with year+n representable, moment + n years keeps month, day and time and changes the year by n, except that 29 February moves to 1 March in non-leap years; if year+n is outside chrono's range but within 32 bits the result is OutOfBounds.", "quantifier": "every valid moment, every n", "why_tests_cant": "the value space is i64 x dates x tree shapes; the unit tests sample a few dozen points around 2000-01-01", "anchors": ["src/timetype.rs:add_to_moment", "src/util.rs:adjust_times_add"]}
{"id": "C15", "title": "Out-of-range additions are reported as errors", "statement": "If the true target of moment + amount is outside the representable range, or the amount is negative and cannot be applied, the result is an error, not some other moment.", "quantifier": "every valid moment, every i64 amount", "why_tests_cant": "needs amounts of magnitude 2^32", "anchors": ["src/timetype.rs:add_to_moment (as i32 / as u32 casts)"]}
{"id": "C16", "title": "Adding a negative amount is exact or an error", "statement": "For -2^31 <= n < 0 seconds/minutes/hours/days, moment + amount is either the moment exactly |n| units earlier or OutOfBounds, never a different moment.", "quantifier": "every valid moment, every negative n down to -2^31", "why_tests_cant": "the value space is i64 x dates x tree shapes; the unit tests sample a few dozen points around 2000-01-01", "anchors": ["src/timetype.rs:add_to_moment", "src/util.rs:adjust_times_add"]}
{"id": "C17", "title": "Adding a positive amount moves strictly forward", "statement": "If moment + n units (n > 0, any unit, no 32-bit year truncation) is Ok then the result is strictly later than the moment.", "quantifier": "every valid moment, every n > 0, six units", "why_tests_cant": "the value space is i64 x dates x tree shapes; the unit tests sample a few dozen points around 2000-01-01", "anchors": ["src/timetype.rs:add_to_moment", "src/util.rs:adjust_times_add"]}
{"id": "C18", "title": "Addition preserves order", "statement": "If m1 <= m2 then m1 + d <= m2 + d for every amount d for which both are Ok.", "quantifier": "all pairs of moments, all amounts", "why_tests_cant": "the value space is i64 x dates x tree shapes; the unit tests sample a few dozen points around 2000-01-01", "anchors": ["src/timetype.rs:add_to_moment", "src/util.rs:adjust_times_add"]}
{"id": "C19", "title": "Subtracting seconds, minutes or hours: complete behaviour", "statement": "For 0 <= n < 2^31 units, with x = field - n: x >= 0 is exact; one borrow (x > -60, -60, -24) is exact, or OutOfBounds when it crosses into a previous month with fewer than 31 days; x exactly -60/-60/-24 gives a result one minute/hour/day too early (or OutOfBounds); anything smaller is OutOfBounds.", "quantifier": "every valid moment, every n", "why_tests_cant": "the value space is i64 x dates x tree shapes; the unit tests sample a few dozen points around 2000-01-01", "anchors": ["src/timetype.rs:sub_from_moment", "src/util.rs:adjust_times_sub"]}
{"id": "C20", "title": "Subtracting days: complete behaviour", "statement": "For 0 <= n < 2^31: inside the month it is exact; reaching back 0..30 days before the 1st lands in the previous month as if it had 31 days (exact for 31-day months, otherwise 31-L days too late or OutOfBounds); further back is OutOfBounds.", "quantifier": "every valid moment, every n", "why_tests_cant": "the value space is i64 x dates x tree shapes; the unit tests sample a few dozen points around 2000-01-01", "anchors": ["src/timetype.rs:sub_from_moment", "src/util.rs:adjust_times_sub"]}
{"id": "C21", "title": "Subtracting months and years: complete behaviour", "statement": "For 0 <= n < 2^31: months keep day and time and move n months back if that stays within this or the previous year and the day exists there, otherwise OutOfBounds; years keep everything else and are OutOfBounds if the date does not exist (29 February) or the year is not representable.", "quantifier": "every valid moment, every n", "why_tests_cant": "the value space is i64 x dates x tree shapes; the unit tests sample a few dozen points around 2000-01-01", "anchors": ["src/timetype.rs:sub_from_moment", "src/util.rs:adjust_times_sub"]}
{"id": "C22", "title": "Subtraction of elapsed time is exact", "statement": "moment - n seconds/minutes/hours/days is the moment exactly n units earlier whenever it is Ok.", "quantifier": "every valid moment, every n >= 0", "why_tests_cant": "the value space is i64 x dates x tree shapes; the unit tests sample a few dozen points around 2000-01-01", "anchors": ["src/timetype.rs:sub_from_moment", "src/util.rs:adjust_times_sub"]}
{"id": "C23", "title": "Subtracting a negative amount is exact or an error", "statement": "For -2^31 <= n < 0 seconds/minutes/hours/days, moment - amount is either the moment exactly |n| units later or OutOfBounds.", "quantifier": "every valid moment, every negative n down to -2^31", "why_tests_cant": "the value space is i64 x dates x tree shapes; the unit tests sample a few dozen points around 2000-01-01", "anchors": ["src/timetype.rs:sub_from_moment", "src/util.rs:adjust_times_sub"]}
{"id": "C24", "title": "Subtracting undoes adding", "statement": "(moment + d - d).calculate() returns the original moment (with whole seconds).", "quantifier": "every moment, every amount", "why_tests_cant": "the value space is i64 x dates x tree shapes; the unit tests sample a few dozen points around 2000-01-01", "anchors": ["src/timetype.rs:add_to_moment", "src/timetype.rs:sub_from_moment"]}
{"id": "C25", "title": "Every Ok moment is a real date-time; arithmetic clears sub-seconds", "statement": "Any Moment returned by calculate() on an expression over valid moments is a valid proleptic Gregorian date-time within chrono's range; if any +, - or end_of_* was applied its sub-second part is zero; a bare Moment is returned unchanged.", "quantifier": "every TimeType tree over valid moments", "why_tests_cant": "the value space is i64 x dates x tree shapes; the unit tests sample a few dozen points around 2000-01-01", "anchors": ["src/timetype.rs:TimeType::calculate"]}
{"id": "C26", "title": "OutOfBounds reports the date that was attempted", "statement": "When moment +/- amount fails with OutOfBounds, the error carries the year, month, day, hour, minute and second that could not be built.", "quantifier": "every failing moment +/- amount", "why_tests_cant": "the value space is i64 x dates x tree shapes; the unit tests sample a few dozen points around 2000-01-01", "anchors": ["src/timetype.rs:add_to_moment", "src/timetype.rs:sub_from_moment"]}
{"id": "C27", "title": "end_of_* computes the last day / last second of the enclosing period", "statement": "If inner evaluates to a moment, end_of_year gives 31 December 00:00:00 of its year, end_of_month the last day of its month 00:00:00, end_of_day 23:59:59 of its date, end_of_hour and end_of_minute the last second of its hour and minute; they always succeed; the following day (resp. second) lies in the next period.", "quantifier": "every expression evaluating to a valid moment", "why_tests_cant": "the value space is i64 x dates x tree shapes; the unit tests sample a few dozen points around 2000-01-01", "anchors": ["src/timetype.rs:end_of_year", "src/timetype.rs:end_of_month", "src/timetype.rs:end_of_day", "src/timetype.rs:end_of_hour", "src/timetype.rs:end_of_minute"]}
{"id": "C28", "title": "end_of_* is idempotent and monotone and nests as expected", "statement": "Applying the same end_of_* twice equals applying it once; m1 <= m2 implies end_of(m1) <= end_of(m2); end_of_year(end_of_month(m)) = end_of_year(m).", "quantifier": "all moments / pairs of moments", "why_tests_cant": "the value space is i64 x dates x tree shapes; the unit tests sample a few dozen points around 2000-01-01", "anchors": ["src/timetype.rs:end_of_*"]}
{"id": "C29", "title": "end_of_* never moves backwards", "statement": "The result of end_of_* is not earlier than the moment it was applied to.", "quantifier": "all moments", "why_tests_cant": "the value space is i64 x dates x tree shapes; the unit tests sample a few dozen points around 2000-01-01", "anchors": ["src/timetype.rs:end_of_*"]}
{"id": "C30", "title": "end_of_* fails on amounts, and inner errors propagate", "statement": "end_of_* of an expression that evaluates to an amount fails with the documented error carrying that amount; if the inner expression fails, its error is returned unchanged.", "quantifier": "every expression", "why_tests_cant": "the value space is i64 x dates x tree shapes; the unit tests sample a few dozen points around 2000-01-01", "anchors": ["src/timetype.rs:end_of_*"]}
{"id": "C31", "title": "Month lengths and leap years", "statement": "The library's month length is the Gregorian one for months 1..12 of every i32 year (including negative ones) and 30 for any other month number; leap years follow the 4/100/400 rule.", "quantifier": "every year and month number", "why_tests_cant": "the value space is i64 x dates x tree shapes; the unit tests sample a few dozen points around 2000-01-01", "anchors": ["src/util.rs:get_num_of_days_in_month", "src/util.rs:is_leap_year"]}
{"id": "C32", "title": "Weekday and month queries", "statement": "For every moment exactly one Day satisfies is_a and exactly one Month satisfies is_in; the weekday advances cyclically by one per calendar day; Matcher and Filter agree with is_a/is_in; on every non-moment is_a/is_in/matches fail and the filters are false.", "quantifier": "every moment, every Day/Month, every TimeType", "why_tests_cant": "the value space is i64 x dates x tree shapes; the unit tests sample a few dozen points around 2000-01-01", "anchors": ["src/timetype.rs:TimeType::is_a", "src/timetype.rs:TimeType::is_in", "src/matcher.rs", "src/indicator.rs"]}
{"id": "C33", "title": "Equality and ordering of TimeType", "statement": "The derived comparison is a total order consistent with equality; on moments it is chronological; on amounts of the same unit it is numeric.", "quantifier": "all pairs and triples of TimeType trees", "why_tests_cant": "the value space is i64 x dates x tree shapes; the unit tests sample a few dozen points around 2000-01-01", "anchors": ["src/timetype.rs:TimeType (derive PartialOrd, Ord)"]}
{"id": "C34", "title": "Iter::build and the *ly constructors accept exactly a moment base and a plain amount", "statement": "Iter::build succeeds iff the increment is a plain amount; minutely/hourly/daily/weekly/monthly/yearly/every succeed only on a Moment receiver; weekly(n) is daily(7n).", "quantifier": "every receiver and increment", "why_tests_cant": "the value space is i64 x dates x tree shapes; the unit tests sample a few dozen points around 2000-01-01", "anchors": ["src/iter.rs:Iter::build", "src/iter.rs:extensions"]}
{"id": "C35", "title": "A stepping iterator starts at its base and never ends by itself", "statement": "The first next() returns the base unchanged; no next() ever returns None.", "quantifier": "every Iter, every number of next() calls", "why_tests_cant": "the value space is i64 x dates x tree shapes; the unit tests sample a few dozen points around 2000-01-01", "anchors": ["src/iter.rs:Iter::next"]}
{"id": "C36", "title": "The k-th item is base + k * increment (clock units)", "statement": "Iterating with an increment of at most 30 days expressed in seconds/minutes/hours/days yields, at position k >= 1, exactly the moment k*increment after the (whole-second) base, for every k whose target is representable, and an OutOfBounds error from then on.", "quantifier": "every base, every increment up to 30 days, every k", "why_tests_cant": "induction over unboundedly many next() calls", "anchors": ["src/iter.rs:Iter::next", "src/iter.rs:Iter::skip"]}
{"id": "C37", "title": "The k-th item of monthly/yearly iteration", "statement": "With base day <= 28, n-monthly iteration yields the same day and time k*n months later; yearly iteration likewise for any date other than 29 February.", "quantifier": "every such base, every n >= 0, every k", "why_tests_cant": "the value space is i64 x dates x tree shapes; the unit tests sample a few dozen points around 2000-01-01", "anchors": ["src/iter.rs:Iter::next"]}
{"id": "C38", "title": "Monthly iteration keeps the day of month", "statement": "Iterating monthly from a base on day 29, 30 or 31 stays at that day (or the end of month) in later months.", "quantifier": "every base", "why_tests_cant": "the value space is i64 x dates x tree shapes; the unit tests sample a few dozen points around 2000-01-01", "anchors": ["src/iter.rs:Iter::next", "src/util.rs:adjust_times_add"]}
{"id": "C39", "title": "Iterator errors are sticky", "statement": "Once next() returns an error, every later next() returns the same error.", "quantifier": "every Iter state, every number of further calls", "why_tests_cant": "the value space is i64 x dates x tree shapes; the unit tests sample a few dozen points around 2000-01-01", "anchors": ["src/iter.rs:Iter::skip", "src/iter.rs:Iter::recalculate"]}
{"id": "C40", "title": "skip() and next() agree; rollback() undoes next()", "statement": "skip() advances exactly like an ignored next(); after a successful next(), rollback() makes the following next() return the same item again.", "quantifier": "every Iter state", "why_tests_cant": "the value space is i64 x dates x tree shapes; the unit tests sample a few dozen points around 2000-01-01", "anchors": ["src/iter.rs:Iter::skip", "src/iter.rs:Iter::rollback"]}
{"id": "C41", "title": "times(n) yields exactly n items and is fused", "statement": "times(n), n >= 0, passes through exactly the first n items of the inner iterator (errors included), then returns None forever without touching the inner iterator; a negative n never stops it before 2^63 items.", "quantifier": "every inner iterator, every n, every number of calls", "why_tests_cant": "the value space is i64 x dates x tree shapes; the unit tests sample a few dozen points around 2000-01-01", "anchors": ["src/iter.rs:TimesIter"]}
{"id": "C42", "title": "until(end) yields exactly the items before end", "statement": "until(end) passes through the inner items, evaluated, in order as long as they are moments strictly before end, returns None at the first one that is not, and passes errors through; the end itself is excluded.", "quantifier": "every inner iterator and end", "why_tests_cant": "the value space is i64 x dates x tree shapes; the unit tests sample a few dozen points around 2000-01-01", "anchors": ["src/iter.rs:UntilIter"]}
{"id": "C43", "title": "until(end) on a forward-stepping iterator terminates", "statement": "Iterating any positive step until any end reaches None after finitely many items.", "quantifier": "every base, positive increment and end", "why_tests_cant": "termination over all inputs", "anchors": ["src/iter.rs:UntilIter", "src/iter.rs:Iter"]}
{"id": "C44", "title": "every(m)/without(m) are filter and complement", "statement": "FilterIter returns, in order, exactly the inner items that match, WithoutIter exactly those that do not; inner errors and matcher errors are passed through; every(m).without(m) never yields an Ok item.", "quantifier": "every inner iterator, every matcher, every number of calls", "why_tests_cant": "the value space is i64 x dates x tree shapes; the unit tests sample a few dozen points around 2000-01-01", "anchors": ["src/iter.rs:FilterIter", "src/iter.rs:WithoutIter"]}
{"id": "C45", "title": "No panics other than arithmetic overflow", "statement": "Evaluation, iteration and parsing never panic except by i64 arithmetic overflow in builds with overflow checks; in builds without overflow checks they never panic.", "quantifier": "every input", "why_tests_cant": "the value space is i64 x dates x tree shapes; the unit tests sample a few dozen points around 2000-01-01", "anchors": ["src/timetype.rs", "src/iter.rs", "src/parser/mod.rs"]}
{"id": "C46", "title": "All documented unit spellings are recognised", "statement": "Each of the 24 documented unit spellings is recognised as its unit, taking the longest spelling that matches, whatever follows; each alias denotes one unit.", "quantifier": "all spellings, all following text", "why_tests_cant": "the value space is i64 x dates x tree shapes; the unit tests sample a few dozen points around 2000-01-01", "anchors": ["src/parser/timetype.rs:unit_parser", "src/parser/timetype.rs:unit_alias"]}
{"id": "C47", "title": "Numbers", "statement": "A digit string is read as its exact decimal value if it fits i64 and is rejected otherwise; surrounding blanks are skipped.", "quantifier": "every digit string of any length", "why_tests_cant": "the value space is i64 x dates x tree shapes; the unit tests sample a few dozen points around 2000-01-01", "anchors": ["src/parser/timetype.rs:integer"]}
{"id": "C48", "title": "Amount expressions: printing then parsing is the identity", "statement": "Any amount expression of the documented grammar, printed with any documented spelling and any blanks where allowed, parses back to exactly the same terms and operators and consumes all of it.", "quantifier": "every amount expression of any length", "why_tests_cant": "the value space is i64 x dates x tree shapes; the unit tests sample a few dozen points around 2000-01-01", "anchors": ["src/parser/timetype.rs:amount_expr", "src/parser/timetype.rs:amount_parser", "src/parser/timetype.rs:operator_parser"]}
{"id": "C49", "title": "Value of a parsed amount expression", "statement": "parse(text).calculate() of an amount expression is the left-to-right value of the text.", "quantifier": "every amount expression", "why_tests_cant": "the value space is i64 x dates x tree shapes; the unit tests sample a few dozen points around 2000-01-01", "anchors": ["src/parser/timetype.rs:AmountExpr::into_timetype"]}
{"id": "C50", "title": "Dates and date expressions", "statement": "A parsed calendar date or date-time denotes exactly that moment, or OutOfBounds if it does not exist; a date followed by +/- an amount expression denotes the moment +/- the value of the whole amount expression.", "quantifier": "every date, time and amount expression whose amounts add up to at most i64::MAX seconds", "why_tests_cant": "the value space is i64 x dates x tree shapes; the unit tests sample a few dozen points around 2000-01-01", "anchors": ["src/parser/timetype.rs:ExactDate::into_timetype", "src/parser/timetype.rs:Date::into_timetype", "src/parser/timetype.rs:date"]}
{"id": "C51", "title": "today, tomorrow and yesterday", "statement": "today is the clock reading, tomorrow one day later, yesterday one day earlier, and both can be used in further arithmetic.", "quantifier": "every clock reading", "why_tests_cant": "depends on the day the tests run", "anchors": ["src/parser/timetype.rs:ExactDate::into_timetype"]}
{"id": "C52", "title": "ISO week dates, ordinal dates and offsets", "statement": "YYYY-DDD denotes the DDD-th day of the year, YYYY-Www-D the ISO week date, and a UTC offset shifts the instant.", "quantifier": "every year, ordinal day, week and offset", "why_tests_cant": "the value space is i64 x dates x tree shapes; the unit tests sample a few dozen points around 2000-01-01", "anchors": ["src/parser/timetype.rs:ExactDate::into_timetype", "doc/language.md"]}
{"id": "C53", "title": "Unparsable trailing text is rejected", "statement": "parse returns an error if some of the input is not part of the recognised expression.", "quantifier": "every input", "why_tests_cant": "the value space is i64 x dates x tree shapes; the unit tests sample a few dozen points around 2000-01-01", "anchors": ["src/parser/mod.rs:parse", "src/parser/timetype.rs:date", "src/parser/iterator.rs:iterator"]}
{"id": "C54", "title": "Iterator expressions mean what they say", "statement": "DATE SPEC [until DATE | n times] builds an iterator whose base is the value of DATE, whose step is the SPEC amount, bounded as specified; it fails only if one of the dates does not evaluate; the NotADateInsideIterator error never occurs.", "quantifier": "every iterator AST and clock", "why_tests_cant": "the value space is i64 x dates x tree shapes; the unit tests sample a few dozen points around 2000-01-01", "anchors": ["src/parser/iterator.rs:Iterator::into_user_iterator", "src/parser/iterator.rs:UserIterator"]}
{"id": "C55", "title": "Parsing terminates and only consumes a prefix", "statement": "Every parser of the grammar terminates on every input and leaves a suffix of it; a successful amount expression consumes at least one byte.", "quantifier": "every byte string", "why_tests_cant": "the value space is i64 x dates x tree shapes; the unit tests sample a few dozen points around 2000-01-01", "anchors": ["src/parser/timetype.rs", "src/parser/iterator.rs"]}
{"id": "C56", "title": "parse never panics", "statement": "parse(s) returns (Ok or Err) for every string s.", "quantifier": "every string (the fuzz target's claim)", "why_tests_cant": "needs numbers near 2^63/7", "anchors": ["fuzz/fuzz_targets/parse.rs", "src/parser/mod.rs:parse", "src/timetype.rs:TimeType::weeks"]}
{"id": "C57", "title": "Evaluation is compositional", "statement": "For every sum or difference of an accepted shape, calculate() succeeds with v iff both operands evaluate on their own and combining their values gives v: nesting never changes what an operand means.", "quantifier": "every pair of expression trees, both build modes", "why_tests_cant": "unbounded nesting; the code re-associates and swaps operands while evaluating", "anchors": ["src/timetype.rs:add", "src/timetype.rs:sub", "src/timetype.rs:do_calculate"]}
{"id": "C58", "title": "Weekdays of a daily iteration, months of a monthly one", "statement": "Filtering a daily iteration by a weekday yields exactly the successive dates with that weekday, seven days apart, the first within six days of the base, each found in at most seven steps of the loop; filtering a monthly iteration (base day <= 28) by a month yields that month of successive years.", "quantifier": "all valid bases, all weekdays and months, all item indexes whose target is representable, both build modes", "why_tests_cant": "the statement is about every position of an unbounded stream from every base date, and about the loop of next() returning each time", "anchors": ["src/iter.rs:FilterIter (91-124)", "src/matcher.rs:Matcher for Day and Month (16-35)"]}
{"id": "C59", "title": "Kinds of evaluation error", "statement": "calculate() on any well-formed expression fails only with OutOfBounds, CannotAdd, CannotSub, or CannotCalculateEndOfYearOn/EndOfMonthOn carrying an amount; none of the argument, comparison, parser and iterator errors occurs.", "quantifier": "every expression tree, both build modes", "why_tests_cant": "ranges over every expression tree of any depth", "anchors": ["src/error.rs", "src/timetype.rs:do_calculate", "src/timetype.rs:end_of_year"]}
{"id": "C60", "title": "The build mode only matters on overflow", "statement": "Evaluation, getters, skip, rollback, next() of every iterator and adapter, weekly/weeks and parse give the same outcome in builds with and without overflow checks, unless the build with checks panics with arithmetic overflow.", "quantifier": "every expression tree, amount, iterator state, number of next() calls and input string", "why_tests_cant": "tests run in one build mode on a few inputs; the statement compares two builds on all of them", "anchors": ["src/timetype.rs", "src/iter.rs", "src/parser/mod.rs:parse"]}
{"id": "C61", "title": "Number of items", "statement": "until(e) on a clock-unit iterator yields exactly the instants base, base+step, ... that lie before e, so their count is a quotient of the time to e and the step, and none when the base is not before e; times(n) yields exactly n items for n >= 0.", "quantifier": "all valid bases and ends, steps up to 30 days in clock units, all n in 0..i64::MAX, both build modes", "why_tests_cant": "the count is a function of the base, the step and the end; tests read the clock and compare three lengths", "anchors": ["src/iter.rs:until", "src/iter.rs:times", "src/iter.rs:collect tests 567-627"]}
{"id": "C62", "title": "Adding twice", "statement": "m + a + b evaluates to the same moment as m + (a + b).", "quantifier": "all moments and amount expressions a, b", "why_tests_cant": "depends on all pairs of amounts and on month lengths and leap years between the steps", "anchors": ["src/timetype.rs:do_calculate", "src/util.rs:adjust_times_add"]}
{"id": "C63", "title": "Zero amounts are neutral", "statement": "Adding or subtracting any amount expression whose value is zero leaves a moment unchanged except for its sub-second part, which is dropped.", "quantifier": "all valid moments, all amount expressions of value zero, both build modes", "why_tests_cant": "ranges over every expression tree whose amounts cancel", "anchors": ["src/timetype.rs:add", "src/timetype.rs:sub"]}
{"id": "C64", "title": "Negative amounts", "statement": "Adding a negative clock amount gives the exact instant when no field has to borrow in a way the carry loop cannot express and the day stays at least 1, and an OutOfBounds error otherwise; adding negative months keeps the year, moves surplus days into the next month, or is OutOfBounds; subtracting a negative amount is exact while the field stays in range and OutOfBounds otherwise.", "quantifier": "all valid moments, all negative amounts down to -2^31, both build modes", "why_tests_cant": "the outcome depends on divisibility conditions between field values and the amount", "anchors": ["src/util.rs:adjust_times_add", "src/util.rs:adjust_times_sub", "src/timetype.rs:add", "src/timetype.rs:sub"]}
{"id": "C65", "title": "Subtraction against adding the opposite", "statement": "m - n evaluates like m + (-n) for every amount n.", "quantifier": "all valid moments, all positive amounts of each unit", "why_tests_cant": "the two directions use different carry code; they differ only at particular boundaries", "anchors": ["src/util.rs:adjust_times_add", "src/util.rs:adjust_times_sub"]}
{"id": "C66", "title": "Cost of an addition", "statement": "From day count d the month loop executes its body between (d-1)/31 and (d-1)/28 times, and from month count mo the year loop exactly (mo-1)/12 times.", "quantifier": "all day counts, months and years in range of i64, both build modes", "why_tests_cant": "cost for amounts that no test can afford to run", "anchors": ["src/util.rs:adjust_times_add"]}
{"id": "C67", "title": "The clock-reading repository tests", "statement": "test_until, test_until_1 and test_until_2 of src/iter.rs pass whatever the clock reads, provided their two readings are close together.", "quantifier": "all pairs of clock readings less than a day (an hour) apart", "why_tests_cant": "a test run checks the one reading it happens to make", "anchors": ["src/iter.rs:test_until, test_until_1, test_until_2 (567-627)"]}
{"id": "C68", "title": "The command line program: arguments, forms of output, exit status", "statement": "The program's output depends only on the arguments joined by single spaces with surrounding Unicode white space removed; it prints either values, or one error, or (items of an iterator) values followed by one error; it never prints 'Cannot pretty-print'; the exit status is 1 exactly when an item of an iterator fails; it panics only on overflow in the checked mode and never hangs between two items.", "quantifier": "all argument lists, clock readings, nom behaviours, ISO 8601 parsers and both build modes", "why_tests_cant": "the example program has no tests; argument lists are unbounded", "anchors": ["examples/main.rs:pretty_print, main (5-42)"]}
{"id": "C69", "title": "The command line program: lines printed for amounts and iterator expressions", "statement": "For an amount expression one line with the number and the finest unit is printed; for a date with a step of at most thirty days it prints the moments base + k * step: for ever, exactly n of them for 'n times', and exactly those before the bound for 'until'; nothing when the bound is not after the base.", "quantifier": "all texts of the documented language, spaced and split into arguments in any way", "why_tests_cant": "infinitely many texts; unbounded output", "anchors": ["examples/main.rs:main (18-42)", "src/parser/mod.rs:do_parse, parse (64-78)"]}
{"id": "C70", "title": "The command line program: reading its own output", "statement": "A line that the program printed, given to it as argument, makes it print the same line.", "quantifier": "all lines it prints", "why_tests_cant": "unbounded set of lines", "anchors": ["examples/main.rs:pretty_print (5-16)", "src/parser/timetype.rs:unit_parser (23-49)"]}
{"id": "C71", "title": "Printed values and error messages identify what they stand for", "statement": "Two results of evaluation print alike only if equal, and two errors (other than parse errors of nom) have the same message only if equal, leap seconds aside.", "quantifier": "all trees, values and errors without leap seconds", "why_tests_cant": "pairs of unbounded trees", "anchors": ["examples/main.rs:pretty_print (5-16)", "src/error.rs:ErrorKind (6-41)"]}
{"id": "C72", "title": "Iteration moves in the direction of the step", "statement": "With a positive step every later item of an iterator is a strictly later moment and with a negative step a strictly earlier one (in whatever unit, month lengths and drift included); hence until() with a positive step never cuts off an item that is before the end, and with a negative step from a base before the end it never ends the iteration.", "quantifier": "all bases, units, steps in 32-bit range, ends and pairs of positions", "why_tests_cant": "pairs of positions in unbounded sequences", "anchors": ["src/iter.rs:Iter::skip, rollback, recalculate, next (44-89)", "src/iter.rs:UntilIter (187-222)"]}
{"id": "C73", "title": "Order of adapters", "statement": "until() and times() commute; until() twice is until() with the earlier end; times() twice is times() with the smaller bound; every() and without() commute with until() on forward iteration as long as the filter lets a later item through.", "quantifier": "all inner iterators, bounds, ends and (for every/without) matchers that decide moments", "why_tests_cant": "arbitrary inner iterators and matchers", "anchors": ["src/iter.rs:FilterIter (91-124)", "src/iter.rs:WithoutIter (139-172)", "src/iter.rs:UntilIter (187-222)", "src/iter.rs:TimesIter::next, times (257-282)"]}
{"id": "C74", "title": "Chains of additions", "statement": "moment + a1 + ... + an for amounts of at most thirty days each over seconds to days is the moment that many seconds later, whatever the order of the amounts; for months from a day up to 28 it is one addition of the sum. Mixing days and months the order matters.", "quantifier": "all moments and all lists of amounts", "why_tests_cant": "lists of unbounded length", "anchors": ["src/timetype.rs:Add for TimeType (42-48)", "src/timetype.rs:add (618-662)", "src/timetype.rs:add_to_moment (790-899)"]}
{"id": "C75", "title": "Filters as matchers", "statement": "With the feature with-filters, a Day or Month turned into a filter decides moments like the matcher and like is_a/is_in, and says no to anything else where the matcher fails; every(x) followed by without(x) collects nothing from a finite stream of moments; the tests test_compile and test_compile_skip hold for every reading of the clock.", "quantifier": "all values, days, months, finite streams and clock readings at least 83 days before the end of chrono's range", "why_tests_cant": "the tests run on the day they are run", "anchors": ["src/indicator.rs:DayFilter, MonthFilter (73-113)", "src/matcher.rs:Matcher for Day, Month and closures (16-47)", "src/iter.rs:test_compile, test_compile_skip (534-566)"]}
{"id": "C76", "title": "Documented getter rules", "statement": "The documentation of TimeType says that getters count 4 weeks as a month and return zero if the value is smaller than the queried unit.", "quantifier": "all units, all i64 counts, all week counts", "why_tests_cant": "all counts of all pairs of units", "anchors": ["src/timetype.rs:TimeType (documentation of the rules) (71-90)", "src/timetype.rs:TimeType::get_seconds..get_years (242-382)"]}
{"id": "C77", "title": "Accepted texts are of the language", "statement": "Whenever the parser accepts, the consumed part of the input is an iterator, a date expression or an amount expression of the grammar, and the result is the one of that text.", "quantifier": "all strings, all ISO 8601 parsers, all nom behaviours", "why_tests_cant": "all strings", "anchors": ["src/parser/mod.rs:do_parse, parse (64-78)", "src/parser/timetype.rs:unit_parser..timetype (23-303)", "src/parser/iterator.rs:iter_spec, until_spec, iterator (11-66)"]}
{"id": "C78", "title": "Documented step 'number unit'", "statement": "doc/language.md allows 'date number unit' as an iterator.", "quantifier": "all dates and numbers", "why_tests_cant": "all texts of that form", "anchors": ["doc/language.md:Iter specification (150-166)", "src/parser/iterator.rs:iter_spec (11-28)"]}
{"id": "C79", "title": "Blanks at the beginning", "statement": "Blanks at the beginning of the input do not change the result.", "quantifier": "all strings of blanks in front of all texts of the language", "why_tests_cant": "unbounded strings", "anchors": ["src/parser/mod.rs:do_parse, parse (64-78)", "src/parser/iterator.rs:iterator (58-66)", "src/parser/timetype.rs:amount_parser (108-111)"]}
{"id": "C80", "title": "Iteration without bound", "statement": "An iterator without bound yields finitely many valid moments and from then on always the same error; it never panics (the documentation says it yields 'until it panics').", "quantifier": "all valid bases, all positive steps up to span32 and all negative i32 steps in every unit, all call counts, both build modes", "why_tests_cant": "up to 2^43 calls", "anchors": ["src/iter.rs:Iter::next (77-89)", "doc/language.md:Iterator (168-177)"]}
{"id": "C81", "title": "Fuzz target", "statement": "The fuzz target passes exactly the encodings of character sequences to the parser, and no input crashes it.", "quantifier": "all byte strings, all clock readings, all ISO 8601 parsers", "why_tests_cant": "all byte strings; a fuzzer samples them", "anchors": ["fuzz/fuzz_targets/parse.rs:fuzz_target! (5-9)", "src/parser/mod.rs:parse (69-78)"]}
{"id": "C82", "title": "What a parsed text evaluates to", "statement": "A parsed date or amount text evaluates to an amount, a valid moment or OutOfBounds; an error of another kind occurs only for 'yesterday + ...', and a panic only through overflow checks.", "quantifier": "all strings, all clock readings", "why_tests_cant": "all strings", "anchors": ["src/parser/mod.rs:parse (69-78)", "src/timetype.rs:TimeType::calculate, do_calculate (435-471)", "src/timetype.rs:add (618-662)"]}
{"id": "C83", "title": "Synonyms", "statement": "Texts with the same reading (other spelling of a unit, leading zeros, other blanks, other ignored rest) have the same result.", "quantifier": "all pairs of texts of the language with the same reading", "why_tests_cant": "pairs of unbounded strings", "anchors": ["src/parser/timetype.rs:unit_parser, operator_parser, unit_alias, amount_parser (23-111)", "src/parser/iterator.rs:iter_spec, until_spec, iterator (11-66)", "src/parser/mod.rs:do_parse, parse (64-78)"]}
{"id": "C84", "title": "When evaluation overflows", "statement": "With overflow checks, evaluating an expression panics exactly if an operation that is reached does not fit 64 bits: in a node of amounts an operand or the result counted in the finest unit of the node, at a moment the sum or difference of the count and the field of its unit (adding months on a 31st: one more month). Left operands are evaluated first, except that a difference is evaluated before the sum it is subtracted from.", "quantifier": "all amount expressions, all moments, units and counts, all typed expressions", "why_tests_cant": "boundaries of 64-bit numbers in trees of unbounded depth", "anchors": ["src/timetype.rs:do_calculate, end_of_year..end_of_minute (454-617)", "src/timetype.rs:add, add_to_seconds..add_to_moment (618-900)", "src/timetype.rs:sub, sub_from_seconds..sub_from_moment (901-1180)", "src/util.rs:adjust_times_add, adjust_times_sub, get_num_of_days_in_month, is_leap_year (2-101)"]}
{"id": "C85", "title": "End of the month some days ago (README)", "statement": "(today - n days).end_of_month() for n up to 28 is midnight of the last day of the month in which the day n days ago lies, except that it is OutOfBounds when the day, counted back as if the previous month had 31 days, does not exist in it (the README's 5 days: on 5 May, on 3 to 5 March of a common year, ...). With more days the month it gives is the right one exactly when n is less than the day plus the length of the previous month, and beyond 30 days more than the day it always fails. The README's first variant, today - weeks(1) + days(2), always fails.", "quantifier": "all moments; all numbers of days up to the period of 32 * 13 * 2^32 for the date, all for the variant", "why_tests_cant": "the result depends on the day on which the program runs", "anchors": ["README.md:examples (19-25)", "src/timetype.rs:TimeType::today (97-99)", "src/timetype.rs:add, add_to_seconds..add_to_moment (618-900)", "src/timetype.rs:sub, sub_from_seconds..sub_from_moment (901-1180)"]}
{"id": "C86", "title": "What an iterator holds", "statement": "The documentation of Iter says that it only wraps objects into each other and may run out of memory. In fact it holds a single moment, the last item, as long as its items succeed; from the first error on every next(), skip() or rollback() wraps the held expression once more, so the memory held grows without bound although the item no longer changes.", "quantifier": "all moments, units, counts and positions; all sequences of operations after an error", "why_tests_cant": "internal state over unbounded histories", "anchors": ["src/iter.rs:Iter::skip, rollback, recalculate (44-63)", "src/iter.rs:Iter::next (66-89)"]}
{"id": "C87", "title": "Subtracting twice", "statement": "m - a - b evaluates to the same moment as m - (a + b) whenever both succeed.", "quantifier": "all moments, units and non-negative amounts", "why_tests_cant": "pairs of amounts at every moment; the exceptions are single points", "anchors": ["src/timetype.rs:sub, sub_from_seconds..sub_from_moment (901-1180)", "src/util.rs:adjust_times_sub (36-66)"]}
{"id": "C88", "title": "The parser takes as much as possible", "statement": "Every text is read as an iterator if it begins with one, otherwise as a date, otherwise as an amount expression; dates, amount expressions, steps and bounds are taken as long as possible, there is exactly one such reading, and the result of parse is what that reading means. Texts without a reading are rejected.", "quantifier": "all texts, all ISO 8601 parsers that terminate and leave a suffix, all variants of nom", "why_tests_cant": "The set of texts is infinite; which alternative of nom's alternatives wins depends on prefixes of the 24 spellings and on where errors are turned into alternatives.", "anchors": ["src/parser/mod.rs:do_parse, parse (64-78)", "src/parser/timetype.rs:integer, unit_parser (13-49)", "src/parser/timetype.rs:unit_alias, amount_parser, amount_expr_next, amount_expr (98-142)", "src/parser/timetype.rs:exact_date_parser (167-175)", "src/parser/timetype.rs:date, Date, TimeType, timetype (255-303)", "src/parser/iterator.rs:iter_spec, until_spec, iterator (10-63)"]}
{"id": "C89", "title": "Amounts too large for a field fail", "statement": "Subtracting an amount, adding a negative amount or subtracting a negative amount of 2^31 or more seconds, minutes, hours, days or months never evaluates to a moment: these operations change a field by one turn at most, so amounts that large must be out of bounds.", "quantifier": "all moments, all 64-bit amounts of all units but years", "why_tests_cant": "fields are cast from 64 to 32 bits without a check; which amounts slip through depends on residues modulo 2^32", "anchors": ["src/timetype.rs:add_to_moment (790-896)", "src/timetype.rs:sub_from_moment (1071-1177)", "src/util.rs:adjust_times_add, adjust_times_sub (2-65)"]}
{"id": "C90", "title": "Evaluation agrees with a reference evaluator", "statement": "Evaluating an expression that is an amount or a moment, evaluating a text, and taking the k-th item of an iteration or of an iterator text give exactly what a reference evaluator gives that is written from closed forms (seconds of the day, days of the year, months) without loops, carries or casts: the same amount, the same moment, OutOfBounds for a date outside the calendar, an arithmetic panic (with overflow checks) for a number outside 64 bits, and CannotAdd for what a text adds to yesterday. Iterator texts end where their bound says.", "quantifier": "all well-typed expressions of any depth, all readings of all texts, all moments, all steps, all item numbers", "why_tests_cant": "expressions and texts nest without bound; every combination of carry, borrow, spill into the next month or year, overflow and error propagation has to agree", "anchors": ["src/timetype.rs:TimeType::calculate..sub_from_moment (435-1177)", "src/iter.rs:Iter (30-89)", "src/parser/mod.rs:Parsed, do_parse, parse (59-78)", "src/parser/iterator.rs:Iterator::into_user_iterator, UserIterator (68-147)", "src/parser/timetype.rs:into_timetype (Amount, AmountExpr, ExactDate, Date, TimeType) (117-290)"]}
{"id": "C91", "title": "The program prints what its input is worth", "statement": "For every command line, the lines printed by examples/main.rs, their kinds, and the way the program ends are those computed by a reference program from the reading of the text: the amount or moment the text is worth; for iterators the items up to the end of the iteration, an error and exit status 1 at the first date outside the calendar, a panic at the first number outside 64 bits; otherwise one error line (of the parser, the evaluation or the iterator) and exit status 0. Without overflow checks the output is the same wherever the checks find nothing. Which date an OutOfBounds error names is left open.", "quantifier": "all command lines, all clock readings, all numbers of items, all ISO 8601 parsers", "why_tests_cant": "the composition of argument joining, trimming, parsing, evaluation, iteration and printing over unbounded inputs", "anchors": ["examples/main.rs:pretty_print, main (5-42)", "src/parser/mod.rs:Parsed, parse (26-78)", "src/parser/iterator.rs:Iterator::into_user_iterator, UserIterator (68-147)", "src/timetype.rs:TimeType::calculate..sub_from_moment (435-1177)", "src/iter.rs:Iter (30-89)"]}
{"id": "C92", "title": "Every evaluation gives the answer of a reference evaluator", "statement": "For every expression, well typed or not, `calculate` gives exactly the answer of a reference evaluator that has no loops over dates: the same amount or moment, the same error with the same operands or the same reported numbers (CannotAdd, CannotSub, the end errors, OutOfBounds), and the same panic with overflow checks; without overflow checks every number outside 64 bits is replaced by its last 64 bits and the evaluation goes on. Every call to `next` on an iterator gives the answer for the step added to what the iterator holds, which after an error is the expression that failed.", "quantifier": "all expressions of any depth, all moments, all numbers, both kinds of builds, all iterators and call numbers", "why_tests_cant": "the order in which operands are evaluated, swapped and reported depends on the shapes of both operands at every level of an unbounded tree, and on where numbers overflow", "anchors": ["src/timetype.rs:Sub, SubAssign for TimeType, TimeType::today (56-100)", "src/timetype.rs:TimeType::calculate..sub_from_moment (435-1177)", "src/iter.rs:Iter (28-89)"]}
{"id": "C93", "title": "The exact output of the program in both kinds of builds", "statement": "For every command line with a reading, examples/main.rs prints exactly the lines of a reference program and ends the same way, in builds with and without overflow checks, and the dates that OutOfBounds errors name are those of the reference program: parser errors name the date of the text, evaluation errors the numbers that were reached, with the hour in place of the day.", "quantifier": "all command lines, all clock readings, all numbers of items, all ISO 8601 parsers, both kinds of builds", "why_tests_cant": "unbounded texts and iterations; errors, overflows and ends of iterations can come at any item", "anchors": ["examples/main.rs:pretty_print, main (5-42)", "src/parser/mod.rs:Parsed, parse (26-78)", "src/parser/iterator.rs:Iterator::into_user_iterator, UserIterator (68-147)", "src/parser/timetype.rs:into_timetype (Amount, AmountExpr, ExactDate, Date, TimeType) (117-290)", "src/timetype.rs:TimeType::calculate..sub_from_moment (435-1177)", "src/iter.rs:Iter, FilterIter, WithoutIter, UntilIter, TimesIter (28-282)"]}
{"id": "C94", "title": "Depth of recursion", "statement": "Evaluating an expression of height h (the longest chain of operations from the root to a leaf) nests at most 3h calls, whatever the number of operands and the size of the numbers, and for every height there is an expression that needs exactly 3h. A text of k additions needs more than 2k nested calls, so no stack of fixed size is enough for all texts, and the expression held by an iterator grows by one level with every call after an error.", "quantifier": "all expressions, both kinds of builds, all iterators in an error state", "why_tests_cant": "mutual recursion of twenty functions with swapped operands over unbounded trees; a bound and its tightness are statements about all of them", "anchors": ["src/timetype.rs:do_calculate..sub_from_moment (454-1180)", "src/iter.rs:Iter::skip, rollback, recalculate (44-63)", "src/parser/timetype.rs:AmountExpr::into_timetype (150-163)"]}
{"id": "C95", "title": "Errors of rejected texts, and every command line", "statement": "A text that has no reading gives the parser's own error exactly if nom hands on the last alternative's request for more input and the text could go on: it begins with no iterator, and either the ISO date parser asks for more characters, or it is no date and is empty, a number without unit or with a beginning of `yrs`, or a beginning of `yearly`. Every other text without a reading gives an error of nom. So every command line is of one of three kinds, each with its output, and a date parser that asks for more characters keeps short amounts such as `5 d` from being read.", "quantifier": "all texts, all command lines, all ISO parsers that return what they do not consume, all variants of nom, both kinds of builds", "why_tests_cant": "the set of texts is infinite and the two errors differ only in how requests for more input travel through nested alternatives", "anchors": ["src/parser/mod.rs:do_parse, parse (64-78)", "src/parser/timetype.rs:integer, unit_parser (13-49)", "src/parser/timetype.rs:unit_alias, amount_parser (98-111)", "src/parser/timetype.rs:exact_date_parser (167-175)", "src/parser/timetype.rs:date, Date, TimeType, timetype (255-303)", "examples/main.rs:main (18-42)"]}
{"id": "C96", "title": "Filtered iterations return, and when they do not", "statement": "An iteration whose step moves (forward within the 32-bit span, or backward by at most 2^31 units), filtered by a weekday or a month with every() or without(), yields exactly those of its finitely many moments that match (do not match) and then the iteration's error for ever, and every call of next() returns. With a step of zero the first call never returns unless the start itself is let through. For any step and any matcher, a call hangs exactly if all items of the iteration are moments that the filter passes over. Over times(n) with 0 <= n, and over until(end) on a step that moves, every call of the filter returns, for any matcher, and within a number of turns that is known beforehand.", "quantifier": "all starts, units and steps, all weekdays and months, all matchers for the criterion, both kinds of builds", "why_tests_cant": "a call that does not return cannot be told from a slow one by running it, and the calendar has to be exhausted to see that a filter without matches ends", "anchors": ["src/iter.rs:Iter::next, FilterIter, WithoutIter (77-172)", "src/iter.rs:without, UntilIter, TimesIter, extensions (175-300)", "src/matcher.rs:Matcher for Day and Month (11-35)", "src/indicator.rs:Day::into, Month::into (24-71)"]}
{"id": "C97", "title": "Dates written with all their digits, from text to text", "statement": "With any ISO 8601 parsers that read YYYY-MM-DD and YYYY-MM-DDTHH:MM:SS, in front of a text that does not begin with a digit, as the date and time they write, the program prints for such a text that moment; for a day that does not exist the error that names it; for a moment plus an expression in seconds to weeks the moment that much later, if that is before 31 January of the following year; for a moment up to the 28th plus months the same day so many months later; for a moment minus days or weeks that stay within the month that day; and for a moment, \"every\", an amount of at most thirty days, a count and \"times\" so many lines that far apart, and with \"until\" and another such text instead of the count one line for each of these moments before that one. Each line has the form YYYY-MM-DD HH:MM:SS and a space.", "quantifier": "all years 0 to 9999, all dates and times of day, all amounts, expressions, counts and ways to write them and to split them into arguments, both kinds of builds", "why_tests_cant": "the path goes through two foreign parsers, the grammar, the calendar arithmetic and the formatting; a test fixes one text for all of them", "anchors": ["examples/main.rs:main (18-42)", "src/parser/timetype.rs:unit_alias..AmountExpr::into_timetype (98-160)", "src/parser/timetype.rs:exact_date_parser, ExactDate::into_timetype (165-250)", "src/parser/mod.rs:do_parse, parse (64-78)", "src/timetype.rs:TimeType::calculate, do_calculate (435-470)", "src/timetype.rs:add (618-660)", "src/timetype.rs:add_to_moment, sub (790-940)"]}
{"id": "C98", "title": "Expressions built by calls of the public functions", "statement": "Building an expression with seconds(), ..., years(), weeks(), moment(), +, +=, -, -=, end_of_year(), ..., end_of_minute() and evaluating it gives exactly the answer of a reference evaluator for the expression asked for, a week being seven days. With overflow checks a number of weeks that does not fit panics. is_a_amount(), is_moment(), is_addition(), is_subtraction() and get_moment() tell which kind of call came last. Each end_of function gives the end of its own period.", "quantifier": "all sequences of calls with all arguments, both kinds of builds", "why_tests_cant": "the calls can be nested in any way and with any numbers; the unit tests call most builders on a few moments only", "anchors": ["src/timetype.rs:Add, AddAssign, Sub, SubAssign for TimeType (42-68)", "src/timetype.rs:TimeType::is_a_amount..moment (101-165)", "src/timetype.rs:TimeType::end_of_year..end_of_minute (176-226)", "src/timetype.rs:TimeType::get_moment (384-389)"]}
{"id": "C99", "title": "Walks of an iterator: any sequence of next(), skip() and rollback()", "statement": "After any sequence of calls the iterator is at the start plus the step times the number of forward calls less the number of rollbacks (the first next() does not move), and every next() returns that moment: for steps of 0 to 12 months from a day up to the 28th and for steps of any number of years from any day but 29 February, as long as the years can be represented; for steps of 0 to 59 seconds, 0 to 59 minutes, 0 to 23 hours, or any number of days, as long as the walk stays within a month. No call changes increment().", "quantifier": "all starts with whole seconds, all steps and all sequences of calls as described, both kinds of builds", "why_tests_cant": "there are infinitely many sequences of calls, and a mistake in one direction only shows in combination with the other", "anchors": ["src/iter.rs:Iter (28-89)", "src/timetype.rs:add_to_moment, sub (790-940)", "src/timetype.rs:sub_from_moment (1071-1180)"]}
{"id": "C100", "title": "Number of calls of an evaluation", "statement": "Evaluating an expression with k operations makes at most 3k calls of the functions of src/timetype.rs (one if k is 0), whatever its shape and its numbers and whether it succeeds or not: no part is evaluated twice. If it succeeds it makes exactly three calls for each sum or difference and two for each end of a period around them. Hence a text with k operators takes at most 3k calls.", "quantifier": "all expressions, all texts of amounts, both kinds of builds", "why_tests_cant": "a part that is evaluated twice at each level shows as exponential time only in deep expressions of the right shape", "anchors": ["src/timetype.rs:do_calculate (454-467)", "src/timetype.rs:end_of_year..end_of_minute (473-616)", "src/timetype.rs:add, add_to_seconds..add_to_years (618-788)", "src/timetype.rs:sub, sub_from_seconds..sub_from_years (901-1069)"]}
{"id": "C101", "title": "Comparisons of days and months", "statement": "The derived comparisons of Day and Month are total orders that agree with equality. For two moments of the same week (beginning on Monday) their days compare as their dates do, and for two moments of the same year their months compare as they do.", "quantifier": "all days, all months, all moments", "why_tests_cant": "a declaration in another order, or a week that begins on Sunday, changes single pairs only", "anchors": ["src/indicator.rs:Day (13-36)", "src/indicator.rs:Month (38-71)"]}
{"id": "C102", "title": "Parsing takes linear work", "statement": "Parsing a text takes a number of steps (combinators run, bytes compared, skipped or read) that is at most proportional to the length of the text, whether it is accepted or not: 1000 steps for each byte and 1500 more. No operand of an expression is read again for each operand before it. The parsers of the iso8601 crate are called at most four times.", "quantifier": "all texts, all nom behaviours of Nom.v, all ISO 8601 parsers that leave no more text than they get", "why_tests_cant": "a rule that is tried again at each level shows as exponential time only in long texts of the right shape", "anchors": ["src/parser/timetype.rs:integer..exact_date_parser (13-175)", "src/parser/timetype.rs:date, Date, TimeType, timetype (255-303)", "src/parser/iterator.rs:iter_spec, until_spec, iterator (11-63)", "src/parser/mod.rs:do_parse (64-67)"]}
{"id": "C103", "title": "Number of calls of an iteration", "statement": "As long as its items succeed, every call of next() of a stepping iterator after the first makes three calls of the evaluator, however far it has come, so that k+1 items take 3k calls. After the first error the j-th further call makes j+3 calls, because the iterator keeps what it could not evaluate (src/iter.rs 56-63): going on after an error takes quadratic work.", "quantifier": "all starting dates, all steps that are one amount, all numbers of items, both kinds of builds", "why_tests_cant": "the work of a call cannot be seen in its result, and grows only in long iterations", "anchors": ["src/iter.rs:Iter::skip, rollback, recalculate (44-63)", "src/iter.rs:Iter::next (77-89)", "src/timetype.rs:end_of_year..end_of_minute (473-616)"]}
{"id": "C104", "title": "The iterations of the README", "statement": "The three iterations the README announces collect exactly the intended dates: every n days taken c times; every n days without one month until an end; and every day on one weekday, without one month, without the first of a month, until an end. Each filter looks at a bounded number of items of the iterator below it (31/n + 2; 7, 6 and 2), so each call returns.", "quantifier": "all starting and ending dates before the last year chrono represents, all weekdays and months, all steps of 1 to 30 days, both kinds of builds", "why_tests_cant": "tests iterate from today over a fixed number of items and check no dates", "anchors": ["README.md:planned features (28-46)", "src/iter.rs:FilterIter::next (105-124)", "src/iter.rs:WithoutIter::next (153-172)", "src/iter.rs:UntilIter::next (199-222)", "src/iter.rs:TimesIter::next (257-271)", "src/matcher.rs:Matcher for Day, Month and closures (16-48)"]}
{"id": "C105", "title": "What the standard output tells", "statement": "The bytes the program writes determine the lines it has printed, whatever backtraces follow an error: two runs with the same output printed the same values and the same errors with everything they name, and two expressions with the same output have the same result. There is one line end for each line. Expressions without leap seconds have values and errors without leap seconds.", "quantifier": "all command lines, clocks, builds, configurations of nom, ISO 8601 parsers, backtraces and error texts of nom that are not confused with other errors; for equal results, clocks without a leap second", "why_tests_cant": "no test runs the program, and that no two outputs coincide is a statement about all pairs of runs", "anchors": ["examples/main.rs:pretty_print, main (5-42)", "src/error.rs:ErrorKind (3-43)", "src/timetype.rs:TimeType (derives) (21-40)"]}
{"id": "C106", "title": "Adapters in any order and to any depth", "statement": "every, without, until and times can be put on top of each other without limit, and each is an operation on the list of items below it: the first calls of the whole return a list of items exactly if the list operations make it from the items of the iterator at the bottom, a stepping one or one read from a text, errors, ends and panics included. There is at most one such list of each length; a call never returns exactly if no longer list exists. Over a step that moves, every call of every such stack returns, and only finitely many return a value.", "quantifier": "all nestings of the four adapters, all matchers that return, all counts (negative ones too), ends, starts and increments, all numbers of calls, both build modes", "why_tests_cant": "tests stack at most two adapters and take a few items; the nesting is unbounded and the claim about calls that never return cannot be observed", "anchors": ["src/iter.rs:Iter::build (28-38)", "src/iter.rs:Iter::next, FilterIter, WithoutIter, UntilIter, TimesIter (77-283)", "src/parser/iterator.rs:UserIterator (125-147)"]}
{"id": "C107", "title": "Work of the loops of an evaluation", "statement": "The loops over months and years run during the addition of an amount to a moment a number of times that is known exactly for every moment, unit and amount: with seconds, minutes, hours and days once for each month and once for each year passed, where months after the first December have 30 days, so never less than once for each 31 days. Additions that succeed take at most 6815757 turns if the amount is below about 2.1 * 10^9 years (beyond it the year is cut to 32 bits and the bound fails), subtractions none. The text \"today + n days\" takes at least (n - 30) / 31 turns, exponentially many in its length, although it fails in the end when n is large.", "quantifier": "all valid moments, all six units, all amounts up to i64::MAX - 262143, both build modes; all digit strings in the text", "why_tests_cant": "the largest counts are about 3 * 10^17 turns, no test can wait for them; tests measure no work", "anchors": ["src/util.rs:adjust_times_add (1-33)", "src/timetype.rs:add_to_moment (790-899)", "src/parser/timetype.rs:date, Date::into_timetype (255-281)"]}
{"id": "C108", "title": "Parts of seconds have no influence", "statement": "Cutting off the parts of seconds of all moments of an expression before its evaluation is the same as cutting them off in the result (value or error). All items of an iteration after the first are the same whether the start has parts of a second or not. Of the parts of seconds of the end of an until() adapter, items at full seconds only see whether there are any.", "quantifier": "all expressions over valid moments, both build modes; all starts, increments and item numbers; all inner iterators and ends", "why_tests_cant": "a relation between two runs for all expressions; the clock gives other parts of seconds in every run, so a test passes on most of them", "anchors": ["src/timetype.rs:add_to_moment (790-899)", "src/timetype.rs:do_calculate, end_of_year..end_of_minute, add (454-660)", "src/timetype.rs:sub, sub_from_seconds..sub_from_moment (901-1180)", "src/iter.rs:Iter::skip, rollback, recalculate, next (44-92)", "src/iter.rs:UntilIter (187-222)"]}
{"id": "C109", "title": "The calendar repeats every 400 years", "statement": "If all moments of an expression are moved by the same multiple of 400 years and the expression had a value, then the result is that value, moved; otherwise it is an OutOfBounds error and the moved value of some part is outside the calendar, or (with overflow checks) an arithmetic panic. The same for all items of iterations. Weekday and month queries and the derived order do not change, and each 400 years are 146097 days.", "quantifier": "all expressions, all k with both expressions over valid moments, both build modes; all starts, increments and item numbers", "why_tests_cant": "a relation between two runs for all expressions and shifts; years are cast to 32 bits on the way, so it could fail for amounts near 2^32 years only", "anchors": ["src/timetype.rs:TimeType::is_a, is_in (391-411)", "src/timetype.rs:add_to_moment (790-899)", "src/timetype.rs:do_calculate, end_of_year..end_of_minute, add (454-660)", "src/timetype.rs:sub, sub_from_seconds..sub_from_moment (901-1180)", "src/util.rs:adjust_times_add, adjust_times_sub, get_num_of_days_in_month (1-73)", "src/iter.rs:Iter::skip, rollback, recalculate, next (44-92)"]}
{"id": "C110", "title": "What the clock has to do with the output", "statement": "The output of the command line program is the same at all times if none of the words today, tomorrow and yesterday occurs on the command line, and the second reading of the clock (for the end of an iteration) has no influence if the word until does not occur. Parts of seconds of the first reading matter only for the text 'today' and iterations from today, where only the first line differs; those of the second reading matter only for iterations until today, and if the iteration does not also start today, only whether there are any.", "quantifier": "all command lines, all clock readings, both build modes and nom configurations, all external ISO parsers that leave a suffix and give dates in the range of their types", "why_tests_cant": "tests run at one time and cannot choose the clock; the relation is between two runs of the whole program", "anchors": ["src/parser/timetype.rs:ExactDate::into_timetype (186-240)", "src/parser/iterator.rs:Iterator::into_user_iterator, UserIterator (68-147)", "src/parser/mod.rs:Parsed, parse (26-78)", "src/timetype.rs:TimeType::today (97-99)", "src/timetype.rs:add_to_moment (790-899)", "examples/main.rs:pretty_print, main (5-42)"]}
{"id": "C111", "title": "Equal amounts in different units", "statement": "Adding, subtracting and iterating by an amount gives the same result whichever unit the amount is written in: 60 seconds or a minute, 60 minutes or an hour, 24 hours or a day, 12 months or a year.", "quantifier": "all valid moments, all pairs of equal amounts, both build modes, all positions of the iterations", "why_tests_cant": "relates two evaluations for every moment, amount and pair of units; samples show neither that sums always agree nor exactly when differences do", "anchors": ["src/timetype.rs:add_to_moment (790-899)", "src/timetype.rs:sub_from_moment (1071-1180)", "src/util.rs:all functions (1-169)", "src/iter.rs:Iter (28-94)"]}
{"id": "C112", "title": "Subtraction preserves order", "statement": "If one moment is before another, then subtracting the same amount from both, where both differences are moments, gives moments in the same order.", "quantifier": "all pairs of valid moments, all units, all amounts, both build modes", "why_tests_cant": "relates two evaluations for every pair of moments and every amount; the order breaks only at single fields and amounts, which samples miss", "anchors": ["src/timetype.rs:sub_from_moment (1071-1180)", "src/util.rs:adjust_times_sub (36-66)"]}
{"id": "C113", "title": "Larger amounts lead further", "statement": "Of two sums of the same moment with amounts of the same unit, the sum with the larger amount is strictly later; of two differences, the one with the larger amount is strictly earlier. Negative amounts count as smaller. Sums with amounts written in different units of days or less are ordered like the amounts.", "quantifier": "all valid moments, all units, all pairs of amounts of at least -2^31 whose worth is within about 2^31 years (differences: below 2^31), both build modes, wherever both results are moments", "why_tests_cant": "compares results for every pair of amounts at every moment, across month ends, year ends, leap days and skipped fields", "anchors": ["src/timetype.rs:add_to_moment (790-899)", "src/timetype.rs:sub_from_moment (1071-1180)", "src/util.rs:adjust_times_add, adjust_times_sub (2-66)"]}
{"id": "C114", "title": "Order of two steps", "statement": "Two steps, each an addition or a subtraction of an amount, lead from a moment to the same moment whichever is taken first.", "quantifier": "all valid moments, all pairs of steps in any units and directions, both build modes, wherever both orders give moments", "why_tests_cant": "compares four evaluations for every moment and every pair of steps; whether they agree depends on month ends, leap days, the length of counted years and skipped fields", "anchors": ["src/timetype.rs:add_to_moment (790-899)", "src/timetype.rs:sub_from_moment (1071-1180)", "src/util.rs:adjust_times_add, adjust_times_sub (2-66)"]}
{"id": "C115", "title": "Reaching a later moment", "statement": "Every moment with whole seconds is reached from every earlier one by at most two additions of seconds, and by one addition of seconds, minutes, hours or days exactly if it is in the same year or not on a 31st, and the smaller fields agree; the amount is the true distance within a year and otherwise the rest of the year, years of 360 and months of 30 days. Months and years reach exactly the same day at the same time, or the days just after the end of a shorter month.", "quantifier": "all pairs of valid moments, all amounts of clock units up to overflow (exact amount: within about 2^31 years), months and years up to 2^31, both build modes", "why_tests_cant": "says which of all moments are results for any amount, so no finite set of additions can show that a moment is never reached", "anchors": ["src/timetype.rs:add_to_moment (790-899)", "src/util.rs:adjust_times_add (2-34)"]}
{"id": "C116", "title": "Reaching an earlier moment", "statement": "Every moment with whole seconds that is not after a given moment is the value of that moment less some amounts, m - a - b - ...", "quantifier": "all pairs of valid moments, all sequences of subtractions of amounts from 0 to 2^31 - 1 in any units, both build modes", "why_tests_cant": "says which of all moments are the result of any sequence of subtractions, so that no finite set of sequences shows that a moment is never reached", "anchors": ["src/timetype.rs:sub_from_moment (1071-1180)", "src/util.rs:adjust_times_sub (36-66)"]}
{"id": "C117", "title": "What an iteration visits", "statement": "An iteration forward by clock units visits exactly the moments not before its start that are a whole number of steps away from it, each once (by months from a day up to 28, by years from any day but 29 February likewise, counted in months and years with the same day and time of day); hence the daily iteration has exactly one item on each later date, two iterations from one start meet exactly at the multiples of the least common multiple of their steps, one visits all that the other does exactly if its step divides the other's, and every() by the weekday of the start makes a daily iteration the weekly one.", "quantifier": "all valid whole-second starts and candidate moments, steps up to 30 days in clock units or up to 2147000000 * 360 days in months and years, all item indexes, both build modes", "why_tests_cant": "says that no item at all is any other moment, over streams of unbounded length", "anchors": ["src/iter.rs:Iter, FilterIter::new (28-103)", "src/iter.rs:FilterIter::next (105-124)", "src/timetype.rs:add_to_moment (790-899)"]}
{"id": "C118", "title": "One amount added to different moments", "statement": "Adding one amount to two different moments with whole seconds gives two different moments, and every moment that is far enough from the first representable one is the value of some moment plus that amount.", "quantifier": "all pairs of valid moments, all moments asked for, all units and amounts from 0 to 2147000000 * 360 days, both build modes", "why_tests_cant": "says of every pair of moments whether they are ever confused, and of every moment that nothing at all leads to it", "anchors": ["src/timetype.rs:add_to_moment (790-899)", "src/util.rs:adjust_times_add (2-34)"]}
{"id": "C119", "title": "One amount subtracted from different moments", "statement": "Subtracting one amount from two moments that differ in whole seconds never gives the same moment, and a moment is the value of some moment less that amount exactly if the fields of that earlier moment, found by putting the amount back, name a real date.", "quantifier": "all pairs of valid moments, all moments asked for, all units, amounts from -2^31 up to the period of the unit (2^31 for months and years), both build modes", "why_tests_cant": "says of all pairs of moments that they are never confused, and of every moment whether anything at all leads to it", "anchors": ["src/timetype.rs:sub_from_moment (1071-1180)", "src/util.rs:adjust_times_sub (36-66)"]}
{"id": "C120", "title": "The end of a period moves along when the moment is moved", "statement": "Moving a moment by an amount in units at least as long as a minute, hour or day and then taking the end of the minute, hour or day gives the same value as taking the end first and then moving, and fails exactly if that fails; the end of the year moves along with added years, and with subtracted years unless the moment is a 29 February without a counterpart in the year reached.", "quantifier": "all valid moments, all 64-bit amounts, addition and subtraction, the ends of minutes, hours and days with all units at least as long, the ends of years with amounts that keep the year in 64 bits, both build modes", "why_tests_cant": "compares two orders of evaluation for every amount, including those that overflow or leave the calendar", "anchors": ["src/timetype.rs:end_of_year, end_of_day, end_of_hour, end_of_minute (473-620)", "src/timetype.rs:add_to_moment (790-943)", "src/timetype.rs:sub_from_moment (1071-1180)", "src/util.rs:adjust_times_add, adjust_times_sub (1-66)"]}
{"id": "C121", "title": "How far sums and differences with moments are off", "statement": "A moment plus seconds, minutes, hours or days is exact within the calendar year of the moment; in the next year it is at most one day early or five days late, and each further year adds five or six days, by an exact formula. A moment less seconds, minutes, hours or days, where it exists, is at most one day early or three days late, by an exact formula. Whole weeks keep the weekday exactly if the error is a multiple of seven days.", "quantifier": "all valid moments, all non-negative numbers of clock units that keep the year in 32 bits (addition) or have 32 bits (subtraction), both build modes", "why_tests_cant": "bounds the error over all distances; tests stay within a few months of one date, where it is zero", "anchors": ["src/timetype.rs:add_to_moment (790-943)", "src/timetype.rs:sub_from_moment (1071-1180)", "src/util.rs:adjust_times_add, adjust_times_sub, get_num_of_days_in_month (1-80)"]}
{"id": "C122", "title": "Two iterations by the same step", "statement": "Once two iterations by the same step have an item in common, all following items are the same, errors included. By seconds, minutes, hours or days, steps of at most 30 days, their items stay as far apart as the first ones, and they have an item in common exactly if the first ones are a whole number of steps apart.", "quantifier": "all pairs of first moments, all increments for the first part, all numbers of items, both build modes", "why_tests_cant": "compares two unbounded runs item by item for every pair of beginnings", "anchors": ["src/iter.rs:Iter::build, Iter::skip, Iterator::next (24-89)", "src/timetype.rs:add_to_moment (790-943)"]}
{"id": "C123", "title": "The end of a month or year some months or years away", "statement": "The end of the month of a moment plus n months is the beginning of the last day of the nth month after that of the moment if the day of the moment fits in, of the month after it if the sum spills over, and an error otherwise. With subtraction it is the last day of the nth month before, if that month is not before the beginning of the year before and holds the day of the moment, and an error otherwise. The end of the year of a moment plus or minus n years is the beginning of 31 December of that year, except that a 29 February less years has none where it has no counterpart.", "quantifier": "all moments, all n within the representable range (months added: 0 <= n; subtracted: 0 <= n < 2^31), both build modes", "why_tests_cant": "covers every moment and every number of months, including all month lengths across leap years", "anchors": ["src/timetype.rs:end_of_year, end_of_month (473-620)", "src/timetype.rs:add_to_moment (790-943)", "src/timetype.rs:sub_from_moment (1071-1180)"]}
{"id": "C124", "title": "Every so-manieth item of an iteration", "statement": "If the step of one iteration is k times the step of another from the same moment (seconds, minutes, hours and days converted into each other, years into 12 months), its jth item is the (j*k)th item of the other, and one exists exactly if the other does. Months are counted from a day up to 28, years from any day but 29 February. By clock units no other steps have this relation.", "quantifier": "all moments, all steps (by clock units at most 30 days), all k and j, both build modes", "why_tests_cant": "relates two unbounded iterations for every pair of steps", "anchors": ["src/iter.rs:Iter::build, Iterator::next (24-89)", "src/timetype.rs:add_to_moment (790-943)"]}
{"id": "C125", "title": "Which steps are right from every moment", "statement": "An amount in seconds, minutes, hours or days is added exactly to every moment, and all iterations by it are exact, if and only if it is at most 30 days. No such amount but zero is subtracted exactly from every moment. Months are added to every moment on the dth keeping the day if and only if d <= 28, or there are none, or they are whole years from the 30th or whole cycles of 400 years from the 29th; they are subtracted so if and only if they are at most 12 from a day up to 28, or exactly 12 from the 30th or 31st. Years keep the date from every year if and only if it is not 29 February or they are whole cycles of 400 years.", "quantifier": "all amounts within the representable range, all days and dates, all moments inside the equivalence, both build modes", "why_tests_cant": "the right-hand sides are exact: beyond them a counterexample moment exists for every single amount", "anchors": ["src/timetype.rs:add_to_moment (790-943)", "src/timetype.rs:sub_from_moment (1071-1180)", "src/util.rs:adjust_times_add, adjust_times_sub (1-66)", "src/iter.rs:Iterator::next (24-89)"]}
{"id": "C126", "title": "Which iterations stay right for good", "statement": "From every single start up to the year 50000: all items of an iteration by whole days (in any clock unit) are exact if and only if the step is at most 30 days, and with a longer step an item among the first 146098 is off. All items of an iteration by years keep the date if and only if it is not 29 February or none of the years reached is common, which is a condition on the start and the step. All items of an iteration by months keep the day if and only if it is at most the 28th, or the step is zero, or it is at most the 30th and no step leads to February (the gcd of the step and 12 does not divide the distance to February), or it is the 29th and every February reached is of a leap year.", "quantifier": "all starts up to the year 50000, all steps up to 70 million days, 2000 months or 2000 years, all items within range, both build modes", "why_tests_cant": "the first wrong item may come after thousands of right ones; that one always comes is an argument about the 400-year cycle", "anchors": ["src/iter.rs:Iterator::next (24-89)", "src/timetype.rs:add_to_moment (790-943)", "src/util.rs:adjust_times_add (1-40)"]}
{"id": "C127", "title": "Iterations backwards", "statement": "An iteration by a negative step never leaves the enclosing period. With less than 60 seconds, 60 minutes or 24 hours, any number of days, or months from a day up to 28, the k-th item is the start with that one field lowered by k steps, as long as the field does not fall below its first value; from then on every item is the same OutOfBounds error, so that there are (field - first value) / step + 1 moments. With a negative step of any size in clock units the moments among the items are exact and of the month of the start, and there are only errors after as many steps as lead out of the month; with months they are of the year of the start.", "quantifier": "all moments, all negative steps down to -2^31, all items, both build modes", "why_tests_cant": "unbounded iterations for every start and step; the repository has no test with a negative step", "anchors": ["src/iter.rs:Iterator::next (24-89)", "src/timetype.rs:add_to_moment (790-943)", "src/util.rs:adjust_times_add (1-40)"]}
{"id": "C128", "title": "How often filters match", "statement": "On an iteration by a whole number c of days (1 to 30, given in any clock unit), filtering by a weekday yields every 7/gcd(c,7)-th moment, starting from one of the first 7/gcd(c,7), if the weekday is a multiple of gcd(c,7) days away from that of the start, and nothing at all otherwise. On an iteration by n months from a day up to 28, filtering by a month yields every 12/gcd(n,12)-th moment, starting from one of the first 12/gcd(n,12), if the month is a multiple of gcd(n,12) months away from that of the start, and no moment at all otherwise.", "quantifier": "all starting moments, all such steps, all weekdays and months, all items in range, both build modes", "why_tests_cant": "unbounded iterations for every start and step; a filter that never matches cannot be told from a slow one by running it", "anchors": ["src/iter.rs:FilterIter (91-124)", "src/iter.rs:Iterator::next (24-89)", "src/matcher.rs:Matcher for Day and Month (16-35)", "src/timetype.rs:add_to_moment (790-943)"]}
{"id": "C129", "title": "Weekdays up to an end", "statement": "An iteration by a whole number c of days (1 to 30, in any clock unit) from a moment without parts of seconds, filtered by a weekday and bounded by until(end), collects exactly the moments of that weekday from the start up to the end that are a whole number of steps from the start; with N steps before the end and p = 7/gcd(c,7) their number is (N + p - 1 - g)/p, where g < p is the number of steps to the first of them. If c is no multiple of 7, the numbers for any two weekdays differ by at most one.", "quantifier": "all starting moments and ends in range, all such steps, all weekdays that are reached, both build modes", "why_tests_cant": "iterations of any length for every start, end, step and weekday", "anchors": ["src/iter.rs:FilterIter (91-124)", "src/iter.rs:UntilIter (187-222)", "src/iter.rs:Iterator::next (24-89)", "src/matcher.rs:Matcher for Day (16-24)"]}
{"id": "C130", "title": "Iterations without some weekdays", "statement": "Leaving out any weekdays but not all seven with without() from an iteration by c days (1 to 30, in any clock unit, no multiple of 7) and bounding it by until(end) collects what the bounded iteration collects, less the moments on these weekdays: exactly the moments up to the end that are a whole number of steps from the start and on none of the weekdays. If the end is 7w steps away, there are (7 - number of weekdays left out) * w of them; so a daily iteration without Saturday and Sunday has 5 moments for each week.", "quantifier": "all starting moments without parts of seconds and all ends in range, all such steps, all lists of weekdays, both build modes", "why_tests_cant": "iterations of any length for every start, end, step and set of weekdays", "anchors": ["src/iter.rs:WithoutIter (139-172)", "src/iter.rs:UntilIter (187-222)", "src/iter.rs:Iterator::next (24-89)", "src/matcher.rs:Matcher for Day (16-24)"]}
{"id": "C131", "title": "Weekdays of monthly and yearly iterations", "statement": "A monthly iteration from a day up to the 28th, filtered by a weekday with every(), finds its first item within 14 months and each further item within 14 months of the one before, always on the same day of the month. A yearly iteration not starting on 29 February does so within 12 years. Of the twelve months of a year one to three match (times(12) from January). Over 400 years (times(4800)) the number of matches depends only on the day and the weekday and is 684, 685, 687 or 688; the 13th is most often a Friday.", "quantifier": "all starting moments on days up to the 28th (monthly) or other than 29 February (yearly), all weekdays, all items in range, both build modes", "why_tests_cant": "every start in the range of years and every item of the iteration; the bounds are reached only rarely (14 months after July 2001, 12 years around 1900)", "anchors": ["src/iter.rs:FilterIter (91-124)", "src/iter.rs:TimesIter (236-270)", "src/iter.rs:Iterator::next (24-89)", "src/matcher.rs:Matcher for Day (16-24)", "src/timetype.rs:add_to_moment (790-889)"]}
{"id": "C132", "title": "The text on the standard output", "statement": "The program writes a value with the format string that examples/main.rs has for its kind, and an error of the library as the words for the call that failed, the name of the error's case, its fields in parentheses separated by commas, and the backtrace. The items of an iterator are written one per line, up to its end or its first error, which ends the output.", "quantifier": "all command lines, clocks, builds, configurations of nom, ISO 8601 parsers and backtraces; errors of nom itself excepted", "why_tests_cant": "no test runs the example program, and none looks at the Debug output of an error", "anchors": ["examples/main.rs:pretty_print, main (5-42)", "src/error.rs:ErrorKind (3-43)"]}
