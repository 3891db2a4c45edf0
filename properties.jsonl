{"id": "C01", "title": "from_ymd accepts exactly the Gregorian dates", "statement": "Date::from_ymd(y,m,d) returns Some exactly when (y,m,d) is a date of the proleptic Gregorian calendar inside the representable year range, and then year(), month(), day() give back y, m, d. Otherwise it returns None and never panics.", "quantifier": "every i32 year, u32 month, u32 day", "why_tests_cant": "about 2^96 argument triples; a test samples a handful", "anchors": ["crates/qlab-time/src/date.rs::Date::from_ymd", "crates/qlab-time/src/date.rs::Date::year/month/day"]}
{"id": "C02", "title": "serial_date is a faithful day count", "statement": "serial_date maps 0001-01-01 to 1, grows by exactly one per calendar day, is injective and orders dates exactly as < does.", "quantifier": "every representable date and every pair of dates", "why_tests_cant": "190 million dates, all pairs", "anchors": ["crates/qlab-time/src/date.rs::Date::serial_date", "crates/qlab-time/src/date.rs::derive(PartialOrd, Ord)"]}
{"id": "C03", "title": "date subtraction is the signed number of days", "statement": "d2 - d1 equals serial_date(d2) - serial_date(d1); it is antisymmetric, additive along any chain of dates and zero only for equal dates.", "quantifier": "every pair and triple of dates", "why_tests_cant": "pairs and triples of dates cannot be enumerated", "anchors": ["crates/qlab-time/src/date.rs::impl Sub for Date"]}
{"id": "C04", "title": "adding and subtracting days is exact and invertible", "statement": "checked_add_days(n) returns the date exactly n days later, checked_sub_days(n) the date exactly n days earlier; each is None exactly when that date is outside the representable range (n over i32::MAX included). Subtracting what was added gives the start date back. Adding n days equals n calls of succ_opt.", "quantifier": "every date and every u64 n", "why_tests_cant": "unbounded n, every start date, including range ends", "anchors": ["crates/qlab-time/src/date.rs::Date::checked_add_days", "crates/qlab-time/src/date.rs::Date::checked_sub_days", "crates/qlab-time/src/date.rs::Date::succ_opt", "crates/qlab-time/src/date.rs::Date::pred_opt"]}
{"id": "C05", "title": "succ_opt and pred_opt are mutually inverse neighbours", "statement": "succ_opt gives the next calendar day (None only at the last representable date), pred_opt the previous one (None only at the first), and each undoes the other.", "quantifier": "every representable date", "why_tests_cant": "month and year ends of 524,286 years", "anchors": ["crates/qlab-time/src/date.rs::Date::succ_opt", "crates/qlab-time/src/date.rs::Date::pred_opt"]}
{"id": "C06", "title": "adding months lands in the right month with the day clamped", "statement": "checked_add_months(n) returns the date whose month is exactly n months later and whose day is min(day, length of that month). It is None exactly when that month is outside the representable years, and it never panics.", "quantifier": "every date and every u32 n", "why_tests_cant": "every day/month/leap-year/n combination", "anchors": ["crates/qlab-time/src/date.rs::Date::checked_add_months", "crates/qlab-time/src/date.rs::Date::days_in_month"]}
{"id": "C07", "title": "subtracting months lands in the right month with the day clamped", "statement": "checked_sub_months(n) is the mirror image of checked_add_months(n): month exactly n earlier, day clamped, None exactly when out of range.", "quantifier": "every date and every u32 n", "why_tests_cant": "every combination", "anchors": ["crates/qlab-time/src/date.rs::Date::checked_sub_months"]}
{"id": "C08", "title": "month arithmetic composes only up to month-end drift", "statement": "For start days up to 28, adding m and then n months equals adding m+n and subtracting n undoes adding n. For days 29 to 31 both laws can fail by the clamping of the day (witnesses), but the resulting year and month still agree.", "quantifier": "every date, every m and n", "why_tests_cant": "quantifies over all pairs of periods", "anchors": ["crates/qlab-time/src/date.rs::Date::checked_add_months", "crates/qlab-time/src/date.rs::Date::checked_sub_months"]}
{"id": "C09", "title": "adding years keeps month and day", "statement": "checked_add_years(k) keeps month and day; February 29 becomes February 28 when the target year is not leap; None exactly when the target year is not representable. The doc comment's claim that February 29 to a non-leap year gives None does not hold.", "quantifier": "every date and every i32 k with year + k inside i32", "why_tests_cant": "every k", "anchors": ["crates/qlab-time/src/date.rs::Date::checked_add_years"]}
{"id": "C10", "title": "adding years never panics", "statement": "checked_add_years returns an Option for every i32 argument. (Fails in builds with overflow checks when year + k leaves i32; in wrapping builds the result is still None.)", "quantifier": "every date, every i32 k, both overflow-check settings", "why_tests_cant": "extreme arguments at the i32 boundary, two build profiles", "anchors": ["crates/qlab-time/src/date.rs::Date::checked_add_years"]}
{"id": "C11", "title": "leap_year is the Gregorian rule", "statement": "leap_year() holds exactly for years divisible by 4 but not by 100, or by 400; exactly then the year has a 29 February and 366 days.", "quantifier": "every date", "why_tests_cant": "every year", "anchors": ["crates/qlab-time/src/date.rs::Date::leap_year"]}
{"id": "C12", "title": "weekend_roll moves to the next weekday and nowhere else", "statement": "weekend_roll returns the same date on Monday to Friday and the following Monday on Saturday and Sunday: the earliest non-weekend date not before the start. None only when that Monday is not representable. Rolling twice equals rolling once.", "quantifier": "every representable date", "why_tests_cant": "every weekday/month-end combination", "anchors": ["crates/qlab-time/src/date.rs::Date::weekend_roll"]}
{"id": "C13", "title": "weekend_roll rolls back when the month changes", "statement": "As the doc comment says, a roll that would leave the month is taken backwards instead. (The code never does this: refuted.)", "quantifier": "every representable date", "why_tests_cant": "needs the month-end weekends of all years", "anchors": ["crates/qlab-time/src/date.rs::Date::weekend_roll"]}
{"id": "C14", "title": "Following rolls to the first business day on or after", "statement": "checked_roll with Following returns the earliest business day at or after date + period, and None exactly when the period cannot be added or no business day follows in the representable range. The search terminates for every calendar.", "quantifier": "every date, period and calendar predicate", "why_tests_cant": "all calendars, including ones with arbitrarily long closures", "anchors": ["crates/qlab-time/src/date.rs::Date::checked_roll", "crates/qlab-time/src/period.rs::Period", "crates/qlab-time/src/calendar.rs::Calendar"]}
{"id": "C15", "title": "Preceding rolls to the last business day on or before", "statement": "checked_roll with Preceding returns the latest business day at or before date + period, and None exactly when there is none in range or the period cannot be added. The search terminates.", "quantifier": "every date, period and calendar predicate", "why_tests_cant": "all calendars", "anchors": ["crates/qlab-time/src/date.rs::Date::checked_roll"]}
{"id": "C16", "title": "rolled dates are business days and fixed points", "statement": "Whenever an adjusting convention returns a date, that date is a business day; and when date + period is already a business day, Unadjusted, Following and Preceding return exactly date + period.", "quantifier": "every date, period, calendar and convention", "why_tests_cant": "all calendars and conventions", "anchors": ["crates/qlab-time/src/date.rs::Date::checked_roll", "crates/qlab-time/src/date_rolling.rs::DateRolling"]}
{"id": "C17", "title": "ModifiedFollowing stays in the month of the unadjusted date", "statement": "Market convention: follow, unless that leaves the month of date + period, then precede. (The code compares with the month of the start date instead: refuted. What the code does is proved, and it is the market convention whenever date + period is in the start month.)", "quantifier": "every date, period and calendar", "why_tests_cant": "needs arbitrary periods and calendars", "anchors": ["crates/qlab-time/src/date.rs::Date::checked_roll"]}
{"id": "C18", "title": "ModifiedPreceding stays in the month of the unadjusted date", "statement": "Market convention: precede, unless that leaves the month of date + period, then follow. (Refuted for the same reason; conditional form proved.)", "quantifier": "every date, period and calendar", "why_tests_cant": "needs arbitrary periods and calendars", "anchors": ["crates/qlab-time/src/date.rs::Date::checked_roll"]}
{"id": "C19", "title": "Act/360 and Act/365 are days over 360 and 365", "statement": "The fraction equals (d2 - d1)/360 (resp. /365): antisymmetric, additive over adjoining periods, strictly increasing in d2, zero exactly for equal dates, never an error and never a panic.", "quantifier": "every pair/triple of dates", "why_tests_cant": "all pairs of dates", "anchors": ["crates/qlab-time/src/day_count/act_360.rs::Act360", "crates/qlab-time/src/day_count/act_365.rs::Act365"]}
{"id": "C20", "title": "Act/360 and Act/365 in f64 are correctly rounded and monotone", "statement": "In binary64 the returned fraction is the correctly rounded value of the exact quotient; it is finite, weakly monotone in d2 and zero exactly for equal dates.", "quantifier": "every pair of dates, f64", "why_tests_cant": "about 10^16 pairs", "anchors": ["crates/qlab-time/src/day_count/act_360.rs", "crates/qlab-time/src/day_count/act_365.rs", "crates/qlab-math/src/value.rs"]}
{"id": "C21", "title": "30/360 is the capped 30/360 formula", "statement": "For d1 <= d2, in builds without overflow checks, Thirty360 returns (360*dy + 30*dm + min(d2,30) - min(d1,30))/360; for d1 > d2 it returns InvalidInput. The result is never negative, is monotone in d2 and additive over adjoining periods.", "quantifier": "every pair of dates", "why_tests_cant": "all pairs of dates and wrap-around of u32", "anchors": ["crates/qlab-time/src/day_count/thirty_360.rs::Thirty360"]}
{"id": "C22", "title": "30/360 never panics", "statement": "Thirty360 returns a value or an error for every pair of dates. (With overflow checks on it panics exactly when d1 <= d2 and month(d2) < month(d1): refuted.)", "quantifier": "every pair of dates, both overflow-check settings", "why_tests_cant": "depends on build profile and on month order", "anchors": ["crates/qlab-time/src/day_count/thirty_360.rs::Thirty360::date_diff"]}
{"id": "C23", "title": "grid lookup finds the bracketing interval or the right error", "statement": "On points with non-decreasing x, evaluating at x uses the interval whose ends bracket x; below the first x the answer is OutOfLowerBound(x), above the last OutOfUpperBound(x), and with no points InsufficientPointsError.", "quantifier": "every point list sorted by x and every x", "why_tests_cant": "lists of any length", "anchors": ["crates/qlab-math/src/interpolation.rs::find_index_at_left_boundary"]}
{"id": "C24", "title": "linear interpolation reproduces, brackets and is exact on lines", "statement": "For strictly increasing x and two or more points, Linear returns y at every grid point, values between the neighbouring y's in between, the exact value on data sampled from a line, is continuous, and errors exactly outside the grid.", "quantifier": "every strictly increasing point list of length >= 2 and every x", "why_tests_cant": "any number of points, any real x", "anchors": ["crates/qlab-math/src/interpolation/linear.rs::Linear"]}
{"id": "C25", "title": "linear interpolation never panics", "statement": "Linear::try_value returns a value or an error for every fitted grid. (It panics exactly for a one-point grid evaluated at that point: refuted.)", "quantifier": "every point list and x", "why_tests_cant": "needs the degenerate grid", "anchors": ["crates/qlab-math/src/interpolation/linear.rs::Linear::try_value"]}
{"id": "C26", "title": "linear interpolation is flat beyond the last point", "statement": "The doc comment promises the last y for t at or beyond the last x. (Refuted: beyond the last x the result is OutOfUpperBound.)", "quantifier": "every grid and every t beyond its end", "why_tests_cant": "all grids", "anchors": ["crates/qlab-math/src/interpolation/linear.rs::Linear::try_value"]}
{"id": "C27", "title": "linear interpolation in f64 hits the grid values", "statement": "In binary64 the value at a grid x is exactly the grid y. (True at the first grid point when the slope is finite; refuted at the others because of rounding.)", "quantifier": "every f64 grid", "why_tests_cant": "rounding depends on all bits of the inputs", "anchors": ["crates/qlab-math/src/interpolation/linear.rs::Linear::try_value"]}
{"id": "C28", "title": "Hermite spline matches values and slopes", "statement": "For strictly increasing x the Hermite spline returns y at every knot, has derivative dy/dx at every interior knot (one-sided at the ends), so it is continuously differentiable, and it reproduces every cubic from exact data.", "quantifier": "every strictly increasing knot list of length >= 2", "why_tests_cant": "any number of knots, limits", "anchors": ["crates/qlab-math/src/interpolation/spline/hermite.rs::Hermite"]}
{"id": "C29", "title": "Hermite construction rejects bad input without panicking", "statement": "try_new returns PointOrderError exactly when some x is smaller than its predecessor and otherwise Ok; it should report too few points. (An empty slice panics and one or two points are accepted: the documented InsufficientPointsError is never returned.)", "quantifier": "every raw point list", "why_tests_cant": "all lists", "anchors": ["crates/qlab-math/src/interpolation/spline/hermite.rs::Hermite::try_new"]}
{"id": "C30", "title": "Catmull-Rom interpolates its knots", "statement": "Fitting points with strictly increasing x, the value at every knot is that knot's y. (Proved for all knots but the last; at the last knot the code returns (2-2a)*y with a<1/2, so it is wrong for every grid whose last y is not 0: refuted.)", "quantifier": "every strictly increasing point list of length >= 3", "why_tests_cant": "every grid", "anchors": ["crates/qlab-math/src/interpolation/spline/catmull_rom.rs::CatmullRom"]}
{"id": "C31", "title": "Catmull-Rom reproduces straight lines", "statement": "On data sampled from a line the spline returns the line. (Refuted: in every interior and last interval the code's tangent uses the wrong spacing; the first interval is exact.)", "quantifier": "every grid and every line", "why_tests_cant": "every grid", "anchors": ["crates/qlab-math/src/interpolation/spline/catmull_rom.rs::CatmullRom::try_value"]}
{"id": "C32", "title": "Catmull-Rom is continuously differentiable at interior knots", "statement": "Left and right derivatives agree at interior knots. (Refuted; exact condition for agreement proved.)", "quantifier": "every grid", "why_tests_cant": "limits at all knots", "anchors": ["crates/qlab-math/src/interpolation/spline/catmull_rom.rs::CatmullRom::try_value"]}
{"id": "C33", "title": "Catmull-Rom fitting validates its input", "statement": "try_fit fails with InsufficientPointsError(n) exactly for n < 3 points, with PointOrderError exactly when some x is smaller than its predecessor, and otherwise succeeds; evaluation after a successful fit never panics.", "quantifier": "every raw point list and x", "why_tests_cant": "all lists", "anchors": ["crates/qlab-math/src/interpolation/spline/catmull_rom.rs::CatmullRom::try_fit"]}
{"id": "C34", "title": "natural cubic spline interpolates its knots", "statement": "For strictly increasing x the fitted spline returns y at every knot, is continuous, errors exactly outside the grid; its second derivative at the end knots is 0 and is continuous at interior knots.", "quantifier": "every strictly increasing point list of length >= 3", "why_tests_cant": "every grid", "anchors": ["crates/qlab-math/src/interpolation/spline/natural_cubic.rs::NaturalCubic"]}
{"id": "C35", "title": "natural cubic spline is twice continuously differentiable", "statement": "The first derivative is continuous at all interior knots. (Refuted: with 3 points it fails unless the last y is 0; with 4 or more it holds at all interior knots except the last two, where it fails unless the last interior second derivative is 0.)", "quantifier": "every strictly increasing point list of length >= 3", "why_tests_cant": "every grid", "anchors": ["crates/qlab-math/src/interpolation/spline/natural_cubic.rs::NaturalCubic::try_fit", "crates/qlab-math/src/linear_algebra/tridiagonal_matrix.rs"]}
{"id": "C36", "title": "natural cubic spline reproduces straight lines", "statement": "On data sampled from a line the spline returns the line. (True for 4 or more points; refuted for 3 points.)", "quantifier": "every grid and every line", "why_tests_cant": "every grid", "anchors": ["crates/qlab-math/src/interpolation/spline/natural_cubic.rs::NaturalCubic"]}
{"id": "C37", "title": "natural cubic fitting validates its input", "statement": "try_fit fails with InsufficientPointsError(n) exactly for n < 3, with PointOrderError exactly when some x decreases, and never panics; evaluation after a successful fit never panics.", "quantifier": "every raw point list and x", "why_tests_cant": "all lists", "anchors": ["crates/qlab-math/src/interpolation/spline/natural_cubic.rs::NaturalCubic::try_fit"]}
{"id": "C38", "title": "tridiagonal solve returns the solution of A x = b", "statement": "With non-vanishing pivots the returned x satisfies A x = b. (True for size 1; for larger sizes it holds exactly when upper[n-2]*x[n-1] = 0, because the back substitution skips row n-2: refuted. All rows but the last two always hold.)", "quantifier": "every tridiagonal matrix and right-hand side of any size", "why_tests_cant": "any size, any entries", "anchors": ["crates/qlab-math/src/linear_algebra/tridiagonal_matrix.rs::TridiagonalMatrix::solve", "crates/qlab-math/src/linear_algebra/tridiagonal_matrix.rs::solve_with_thomas_algorithm_unchecked"]}
{"id": "C39", "title": "tridiagonal construction and product", "statement": "try_new succeeds exactly for diagonals of lengths n-1, n, n-1; the product with a vector is None exactly on a length mismatch and otherwise the matrix-vector product.", "quantifier": "every triple of diagonals and every vector", "why_tests_cant": "any size", "anchors": ["crates/qlab-math/src/linear_algebra/tridiagonal_matrix.rs::TridiagonalMatrix::try_new", "crates/qlab-math/src/linear_algebra/tridiagonal_matrix.rs::impl Mul for TridiagonalMatrix"]}
{"id": "C40", "title": "discount factors compose", "statement": "For settlement <= d1 <= d2 <= d3, when the three factors exist, DF(d1,d2)*DF(d2,d3) = DF(d1,d3); every factor is positive and DF(d,d) = 1.", "quantifier": "every curve, interpolator, day count and date triple", "why_tests_cant": "all curves and triples", "anchors": ["crates/qlab-termstructure/src/yield_curve.rs::YieldCurve::discount_factor"]}
{"id": "C41", "title": "discount factor rejects ill-ordered dates", "statement": "discount_factor(d1,d2) is InvalidInput exactly when d2 < d1 or d1 precedes the settlement date; otherwise it depends only on the curve at the two times and fails only if the curve lookup fails.", "quantifier": "every curve and date pair", "why_tests_cant": "all pairs", "anchors": ["crates/qlab-termstructure/src/yield_curve.rs::YieldCurve::discount_factor"]}
{"id": "C42", "title": "discount factor reprices the input yields", "statement": "A curve built from maturities and spot yields gives DF(settlement, maturity_i) = exp(-t_i*y_i) for every input maturity not before settlement, for linear (two or more points) and natural cubic (three or more) interpolation, whenever the times increase; with the actual/360 and actual/365 conventions distinct maturities in date order suffice.", "quantifier": "every settlement date, maturity list and yield list", "why_tests_cant": "all market data", "anchors": ["crates/qlab-termstructure/src/yield_curve.rs::YieldCurve::new", "crates/qlab-termstructure/src/yield_curve.rs::YieldCurve::discount_factor"]}
{"id": "C43", "title": "curve construction validates its input", "statement": "YieldCurve::new is InvalidInput when the list lengths differ; otherwise the first day-count error is returned, or else the fit of exactly the points (time of maturity i, yield i) in order decides the outcome and is what the curve reads. (A 30/360 maturity before settlement is a day-count error and also InvalidInput.)", "quantifier": "every input", "why_tests_cant": "all lists", "anchors": ["crates/qlab-termstructure/src/yield_curve.rs::YieldCurve::new"]}
{"id": "C44", "title": "discount factor at settlement needs no curve point before the first maturity", "statement": "DF(settlement, settlement) = 1 on every curve. (Refuted: the curve is looked up at 0 first, so it fails whenever the first maturity is after settlement.)", "quantifier": "every curve", "why_tests_cant": "all curves", "anchors": ["crates/qlab-termstructure/src/yield_curve.rs::YieldCurve::discount_factor"]}
{"id": "C45", "title": "bond schedule", "statement": "Bond::new yields one coupon for each date first_coupon, +6m, +12m, ... (stepping from the previous due date) not after the penultimate date, in increasing order, plus one final flow at maturity; construction terminates for all inputs.", "quantifier": "every set of dates", "why_tests_cant": "unbounded schedules", "anchors": ["crates/qlab-instrument/src/bond.rs::Bond::new"]}
{"id": "C46", "title": "bond regular coupons and redemption", "statement": "Every coupon except a broken first one equals rate*face/2; the final flow is face plus the final coupon pro-rated by the actual final period (short or long).", "quantifier": "every bond", "why_tests_cant": "all bonds", "anchors": ["crates/qlab-instrument/src/bond.rs::Bond::new", "crates/qlab-instrument/src/bond.rs::Bond::final_cash_flow"]}
{"id": "C47", "title": "bond first coupon is pro-rated by the actual first period", "statement": "With a short first period the first coupon is rate*face/2 scaled by days(issue,first)/days(prior,first); with a long one it is rate*face/2 plus days(issue,prior)/days(prior2,prior) further coupons; with issue = prior it is unchanged. The scaling never divides by zero, and is non-negative exactly when issue <= first coupon date.", "quantifier": "every bond", "why_tests_cant": "all bonds", "anchors": ["crates/qlab-instrument/src/bond.rs::Bond::first_cash_flow"]}
{"id": "C48", "title": "bond construction never panics", "statement": "Bond::new returns Some or None for all dates. (Refuted: if the first coupon date is after the penultimate date and the first period is irregular, it indexes an empty list and panics.)", "quantifier": "every set of dates", "why_tests_cant": "needs degenerate date orders", "anchors": ["crates/qlab-instrument/src/bond.rs::Bond::first_cash_flow"]}
{"id": "C49", "title": "bond payments fall on weekdays", "statement": "Every coupon is paid on the first weekday on or after its due date. (Refuted for the final flow, which is paid on the unadjusted maturity date.)", "quantifier": "every bond", "why_tests_cant": "all bonds", "anchors": ["crates/qlab-instrument/src/bond.rs::Bond::new", "crates/qlab-instrument/src/bond.rs::Bond::final_cash_flow"]}
{"id": "C50", "title": "discounted value sums exactly the flows due after settlement", "statement": "discounted_value equals the sum over flows with due date strictly after the settlement date of DF(settle, payment date)*amount; 0 if there are none; the first failing factor is the error returned; it does not depend on flows already due.", "quantifier": "every bond, settlement date and curve", "why_tests_cant": "all schedules", "anchors": ["crates/qlab-instrument/src/bond.rs::Bond::discounted_value"]}
{"id": "C51", "title": "discounted value is linear in face value", "statement": "Scaling the face value by k scales every cash flow and the discounted value by k.", "quantifier": "every bond, curve and factor", "why_tests_cant": "all inputs", "anchors": ["crates/qlab-instrument/src/bond.rs::Bond::new", "crates/qlab-instrument/src/bond.rs::Bond::discounted_value"]}
{"id": "C52", "title": "Easter tables agree with the computus", "statement": "easter_monday(y) is the day-of-year of the Monday after Gregorian Easter, orthodox_easter_monday(y) that of the Monday after Julian Easter, for every year from 1901 to 2199; outside these years the lookup panics.", "quantifier": "every i32 year", "why_tests_cant": "two 299-entry tables typed by hand and an unchecked index", "anchors": ["third-parties/calendar/src/lib.rs::EASTER_MONDAY", "third-parties/calendar/src/lib.rs::ORTHODOX_EASTER_MONDAY", "third-parties/calendar/src/lib.rs::Calendar::easter_monday"]}
{"id": "C53", "title": "calendar queries never panic", "statement": "is_business_day answers for every date. (Refuted for the calendars that look up Easter: they panic exactly outside 1901-2199; all others answer for every date.)", "quantifier": "every calendar, market and date", "why_tests_cant": "every year outside the tables", "anchors": ["third-parties/calendar/src/*.rs::is_business_day"]}
{"id": "C54", "title": "weekends are never business days", "statement": "No calendar opens on a weekend day: Saturday/Sunday, or Friday/Saturday for Israel; Russia's exchange opens exactly on its listed working weekends.", "quantifier": "every calendar, market and date", "why_tests_cant": "all dates", "anchors": ["third-parties/calendar/src/*.rs::is_business_day", "third-parties/calendar/src/lib.rs::Calendar::is_weekend"]}
{"id": "C55", "title": "holiday and business day are complementary", "statement": "is_holiday is the negation of is_business_day in both the calendar crate and the Date wrapper, and the wrapper agrees with the wrapped calendar.", "quantifier": "every calendar and date", "why_tests_cant": "all dates", "anchors": ["third-parties/calendar/src/lib.rs::Calendar::is_holiday", "crates/qlab-time/src/calendar.rs"]}
{"id": "C56", "title": "a joint calendar is open exactly when both are", "statement": "JointCalendar(c1,c2) is open on a date exactly when both are; it is commutative, associative and idempotent in this respect, nested to any depth.", "quantifier": "every pair of calendars and date", "why_tests_cant": "arbitrary nesting", "anchors": ["third-parties/calendar/src/jointcalendar.rs::JointCalendar"]}
{"id": "C57", "title": "business days never run out", "statement": "Every calendar has a business day within a stated small number of days of every date from 1901 to 2199, so Following/Preceding move by at most that many days.", "quantifier": "every calendar, market and date in 1901-2199", "why_tests_cant": "all dates of all calendars", "anchors": ["third-parties/calendar/src/*.rs::is_business_day"]}
{"id": "C58", "title": "Easter-based holidays fall on the right feast", "statement": "Good Friday, Easter Monday, Ascension, Whit Monday and Corpus Christi closures fall 2 days before and 1, 39, 50 and 60 days after Easter Sunday for the calendars that keep them, every year. (Refuted for France settlement, which fixes Ascension and Whit Monday at 10 and 21 May, and for Ukraine, which uses western Easter.)", "quantifier": "every calendar and year 1901-2199", "why_tests_cant": "all years", "anchors": ["third-parties/calendar/src/*.rs"]}
{"id": "C59", "title": "TARGET closing days", "statement": "From 2000 on TARGET is closed exactly on weekends, 1 January, Good Friday, Easter Monday, 1 May, 25 and 26 December, and 31 December 2001.", "quantifier": "every date 2000-2199", "why_tests_cant": "all dates", "anchors": ["third-parties/calendar/src/target.rs::Target"]}
{"id": "C60", "title": "n-th weekday holidays", "statement": "Rules stated as day ranges select exactly the n-th (or last) weekday of the month: one per year, for all years.", "quantifier": "every year", "why_tests_cant": "all years", "anchors": ["third-parties/calendar/src/unitedstates.rs::UnitedStates", "third-parties/calendar/src/unitedkingdom.rs::UnitedKingdom"]}
{"id": "C61", "title": "end_of_month is the last business day of the month", "statement": "end_of_month(d) is the latest business day not after the last day of d's month; last_day_of_month is the last day of the month; it panics only for the last representable year.", "quantifier": "every date and calendar", "why_tests_cant": "all dates", "anchors": ["third-parties/calendar/src/lib.rs::Calendar::end_of_month", "third-parties/calendar/src/lib.rs::Calendar::last_day_of_month"]}
{"id": "C62", "title": "business_days_between counts business days", "statement": "With explicit flags the result counts the business days from `from` (or the day after) to `to` (or the day before); swapping the dates negates it; counts over adjoining intervals add up.", "quantifier": "every pair of dates, flags and calendar", "why_tests_cant": "all pairs", "anchors": ["third-parties/calendar/src/lib.rs::Calendar::business_days_between"]}
{"id": "C63", "title": "business_days_between default arguments", "statement": "include_first = true includes the first day, and equal dates give 0 or 1. (Refuted: include_first = true skips the first day, and equal dates with the defaults panic.)", "quantifier": "every date and calendar", "why_tests_cant": "all dates", "anchors": ["third-parties/calendar/src/lib.rs::Calendar::business_days_between"]}
{"id": "C64", "title": "Catmull-Rom curves reprice the input yields", "statement": "A Catmull-Rom curve built from maturities and spot yields gives DF(settlement, maturity_i) = exp(-t_i*y_i) for every input maturity. (Refuted for the last maturity; proved for all others.)", "quantifier": "every settlement date, maturity list and yield list", "why_tests_cant": "all market data", "anchors": ["crates/qlab-termstructure/src/yield_curve.rs::YieldCurve::new", "crates/qlab-math/src/interpolation/spline/catmull_rom.rs::CatmullRom"]}
{"id": "C65", "title": "bond due dates keep the first coupon's day of month", "statement": "The k-th due date is the first coupon date moved by 6k months. (Refuted: the code steps from the previous due date, so a 31 August coupon drifts to 29 or 28 August; proved when the first coupon is on the 28th or earlier. The actual day is always the smallest of the first coupon's day and the lengths of the months passed: proved.)", "quantifier": "every set of dates", "why_tests_cant": "unbounded schedules", "anchors": ["crates/qlab-instrument/src/bond.rs::Bond::new"]}
{"id": "C66", "title": "closing days of every calendar, exactly", "statement": "Every country calendar is closed exactly on its weekly days of rest and on the holidays of its list (fixed days, days moved off weekends, n-th and last weekdays, days counted from Easter, each with its years, and single announced dates); the only exceptions are the working weekend days of Russia's exchange.", "quantifier": "every calendar and market and every date (1901-2199 if the calendar looks up Easter)", "why_tests_cant": "all dates of all calendars", "anchors": ["third-parties/calendar/src/*.rs::is_business_day"]}
{"id": "C67", "title": "years of announced holidays", "statement": "The calendars with holidays announced year by year (China, Hong Kong, India, Indonesia, Israel, Russia, Singapore, South Korea, Taiwan, Thailand, Turkey) have announced days exactly from a first to a last year (Indonesia 2005-2014, Thailand 2000-2018, China 2004-2023, ...): outside these years they close on days of rest and regular holidays only, and in the first and last year they close on some other day.", "quantifier": "every such calendar and market and every date (1901-2199 if the calendar looks up Easter)", "why_tests_cant": "all dates of all calendars", "anchors": ["third-parties/calendar/src/china.rs::is_business_day", "third-parties/calendar/src/hongkong.rs::is_business_day", "third-parties/calendar/src/india.rs::is_business_day", "third-parties/calendar/src/indonesia.rs::is_business_day", "third-parties/calendar/src/israel.rs::is_business_day", "third-parties/calendar/src/russia.rs::is_business_day", "third-parties/calendar/src/singapore.rs::is_business_day", "third-parties/calendar/src/southkorea.rs::is_business_day", "third-parties/calendar/src/taiwan.rs::is_business_day", "third-parties/calendar/src/thailand.rs::is_business_day", "third-parties/calendar/src/turkey.rs::is_business_day"]}
{"id": "C68", "title": "interpolation is linear in the data", "statement": "On fixed abscissas, interpolating a*y + b*z gives a times the interpolation of y plus b times that of z, for linear, Hermite, Catmull-Rom and natural cubic interpolation.", "quantifier": "every grid, coefficients a and b, ordinates y and z, and query in range", "why_tests_cant": "continuous data of any length", "anchors": ["crates/qlab-math/src/interpolation/linear.rs", "crates/qlab-math/src/interpolation/spline/hermite.rs", "crates/qlab-math/src/interpolation/spline/catmull_rom.rs", "crates/qlab-math/src/interpolation/spline/natural_cubic.rs"]}
{"id": "C69", "title": "raising all ordinates raises the interpolation", "statement": "Adding s to every ordinate adds s to every interpolated value. (Proved for linear, for natural cubic from four points on, for Catmull-Rom up to the last knot but one; refuted on Catmull-Rom's last cell and for natural cubic with three points.)", "quantifier": "every grid, s and query in range", "why_tests_cant": "continuous data of any length", "anchors": ["crates/qlab-math/src/interpolation/linear.rs", "crates/qlab-math/src/interpolation/spline/catmull_rom.rs", "crates/qlab-math/src/interpolation/spline/natural_cubic.rs"]}
{"id": "C70", "title": "interpolation does not depend on the unit of the abscissa", "statement": "Replacing every abscissa and the query x by k*x + o with k > 0 leaves the interpolated value unchanged.", "quantifier": "every grid, k > 0, o and query in range", "why_tests_cant": "continuous data of any length", "anchors": ["crates/qlab-math/src/interpolation/linear.rs", "crates/qlab-math/src/interpolation/spline/catmull_rom.rs", "crates/qlab-math/src/interpolation/spline/natural_cubic.rs"]}
{"id": "C71", "title": "interpolation is local", "statement": "The value between two knots depends only on these two points (linear, Hermite) or on them and one neighbour on each side (Catmull-Rom). (Not so for natural cubic, whose value depends on distant points too: counterexample proved.)", "quantifier": "every two grids that agree there, whatever their other points", "why_tests_cant": "unbounded grids", "anchors": ["crates/qlab-math/src/interpolation/linear.rs", "crates/qlab-math/src/interpolation/spline/hermite.rs", "crates/qlab-math/src/interpolation/spline/catmull_rom.rs"]}
{"id": "C72", "title": "a parallel shift of the yields scales the discount factors", "statement": "If every yield is raised by sh then every discount factor DF(d1,d2) that exists is multiplied by exp(-sh*(t2-t1)). (Proved for linear, for natural cubic from four maturities on, and for Catmull-Rom up to the last maturity but one; refuted for Catmull-Rom beyond.)", "quantifier": "every curve, shift and pair of dates", "why_tests_cant": "continuous market data", "anchors": ["crates/qlab-termstructure/src/yield_curve.rs::YieldCurve::discount_factor"]}
{"id": "C73", "title": "bond values fall when yields rise", "statement": "Raising all yields by sh >= 0 does not raise the discounted value of a bond with non-negative payments; it lowers it if sh > 0 and some positive payment is still to come. (Linear, Catmull-Rom, and natural cubic from four maturities on; refuted for natural cubic with three maturities.)", "quantifier": "every bond, valuation date, curve and shift; Act/360 and Act/365", "why_tests_cant": "unbounded schedules, continuous market data", "anchors": ["crates/qlab-instrument/src/bond.rs::Bond::discounted_value", "crates/qlab-termstructure/src/yield_curve.rs::YieldCurve::discount_factor"]}
{"id": "C74", "title": "discount factors stay between those of the extreme yields", "statement": "With linear interpolation and yields between lo and hi, DF(settlement,d) lies between exp(-hi*t) and exp(-lo*t); so it is at most 1 if yields are non-negative. (Not so for forward factors DF(d1,d2), which can exceed 1 although all yields are positive, nor for natural cubic, which undershoots: counterexamples proved.)", "quantifier": "every curve and date", "why_tests_cant": "continuous market data", "anchors": ["crates/qlab-termstructure/src/yield_curve.rs::YieldCurve::discount_factor"]}
{"id": "C75", "title": "bond values stay between those at the extreme yields", "statement": "With linear interpolation and yields between lo and hi, the discounted value at the settlement date lies between the sums of the open payments discounted at hi and at lo.", "quantifier": "every bond, curve and bounds; Act/360 and Act/365", "why_tests_cant": "unbounded schedules, continuous market data", "anchors": ["crates/qlab-instrument/src/bond.rs::Bond::discounted_value"]}
{"id": "C76", "title": "Unadjusted adds the period and nothing else", "statement": "checked_roll(Days n / Months n / Years k, calendar, Unadjusted) is the date exactly n days later, n months later with the day clamped, k years later with 29 February clamped; None exactly when out of range; the calendar is not asked, even if asking it would panic.", "quantifier": "every date, period and calendar", "why_tests_cant": "all dates and periods, arbitrary calendars", "anchors": ["crates/qlab-time/src/date.rs::Date::checked_roll", "crates/qlab-time/src/period/days.rs", "crates/qlab-time/src/period/months.rs", "crates/qlab-time/src/period/years.rs"]}
{"id": "C77", "title": "order of the rolling conventions", "statement": "Preceding and Following enclose the unadjusted date with no open day strictly between; both are monotone in the unadjusted date; the modified conventions choose one of the two; rolling a result again leaves it. (The modified conventions are not monotone, a later date can roll to an earlier day: counterexample proved.)", "quantifier": "every date, period and calendar", "why_tests_cant": "all dates, arbitrary calendars", "anchors": ["crates/qlab-time/src/date.rs::Date::checked_roll"]}
{"id": "C78", "title": "every floating-point query is answered", "statement": "With sorted abscissas free of NaN (infinities allowed), each interpolation in floating point answers every query: NaN and queries below the first abscissa give OutOfLowerBound, queries above the last OutOfUpperBound, all others a value; there is no panic.", "quantifier": "every binary floating-point format, grid and query", "why_tests_cant": "all floats including NaN, infinities and signed zeros", "anchors": ["crates/qlab-math/src/interpolation/linear.rs", "crates/qlab-math/src/interpolation/spline/hermite.rs", "crates/qlab-math/src/interpolation/spline/catmull_rom.rs", "crates/qlab-math/src/interpolation/spline/natural_cubic.rs"]}
{"id": "C79", "title": "order check in floating point", "statement": "With NaN-free abscissas, Hermite, Catmull-Rom and natural cubic accept points exactly when no abscissa is smaller than an earlier one. (Counterexamples proved outside this scope: NaN abscissas hide unsorted points, as in 1, NaN, 0; repeated abscissas are accepted and give NaN.)", "quantifier": "every binary floating-point format and list of points", "why_tests_cant": "all floats, unbounded lists", "anchors": ["crates/qlab-math/src/interpolation/spline/hermite.rs", "crates/qlab-math/src/interpolation/spline/catmull_rom.rs", "crates/qlab-math/src/interpolation/spline/natural_cubic.rs"]}
{"id": "C80", "title": "Hermite interpolation meets its points exactly in floating point", "statement": "At each abscissa of strictly increasing finite points the value is exactly the ordinate, despite rounding, if the widths and slope*width do not overflow. (Not so for linear, Catmull-Rom and natural cubic, where the ordinate can be lost altogether: counterexamples proved.)", "quantifier": "every binary floating-point format with two or more bits, points and slopes", "why_tests_cant": "rounding of all floats", "anchors": ["crates/qlab-math/src/interpolation/linear.rs", "crates/qlab-math/src/interpolation/spline/hermite.rs", "crates/qlab-math/src/interpolation/spline/catmull_rom.rs", "crates/qlab-math/src/interpolation/spline/natural_cubic.rs"]}
{"id": "C81", "title": "error of linear interpolation in floating point", "statement": "Between two finite points whose differences do not overflow, the computed value differs from the exact value L of the line by at most u*|L| + 6u*|y1-y0| plus a multiple (x - x_i + 1) of the least positive number, u being the unit roundoff.", "quantifier": "every binary floating-point format with eight or more bits, increasing finite points, and query in range", "why_tests_cant": "rounding of all floats", "anchors": ["crates/qlab-math/src/interpolation/linear.rs"]}
{"id": "C82", "title": "linear interpolation in floating point is monotone", "statement": "Between two neighbouring points with y0 <= y1 the computed value does not fall as x grows. (Not so over several cells: for (0,0),(7,29),(8,29) the value at 7 in binary64 exceeds 29.)", "quantifier": "every binary floating-point format, grid and pair of queries in one cell", "why_tests_cant": "rounding of all floats", "anchors": ["crates/qlab-math/src/interpolation/linear.rs"]}
{"id": "C83", "title": "the text of a date", "statement": "Date::to_string is year-month-day with two digits for month and day, four for the years 0 to 9999, and a sign and four digits, or more only where needed, for other years; different dates have different texts; in the years 0 to 9999 sorting texts sorts dates. (Refuted from year 10000 on.)", "quantifier": "every date", "why_tests_cant": "all dates", "anchors": ["crates/qlab-time/src/date.rs::Date::fmt"]}
{"id": "C84", "title": "the text of an error", "statement": "The text of an error tells which error it is; the text of a rejected 30/360 count or discount factor query tells the dates and the rule that was broken, and puts each date after its own label; the text of a failed conversion of a day count names the number of days; the text of an interpolation error tells the error and its number. Too few points, unsorted points, a query out of range and lists of different lengths are reported with the texts of the source, naming the number of points or the query. (Refuted for QLabError in general: a cast error and an input error can read the same if messages are arbitrary; the library's own cast messages have no space and are covered.)", "quantifier": "all errors, dates, curves and number types", "why_tests_cant": "unbounded texts", "anchors": ["crates/qlab-error/src/lib.rs", "crates/qlab-time/src/day_count/thirty_360.rs", "crates/qlab-termstructure/src/yield_curve.rs::YieldCurve::discount_factor"]}
{"id": "C85", "title": "float curves from ordered maturities", "statement": "In f64 and in exact arithmetic, with Act/360 or Act/365 and maturities in order (repetitions allowed; at least two for linear, three for the splines), building a curve succeeds whatever the yields. DF(d1,d2) then has a value exactly when d2 lies between the first and last maturity and d1 does too or is the settlement date; otherwise it is InterpolationFailed. Out of order, the splines fail with InterpolationFailed. There is no panic.", "quantifier": "every settlement date, list of maturities, yields (NaN and infinities included) and pair of dates from settlement on", "why_tests_cant": "all dates and floats, unbounded lists", "anchors": ["crates/qlab-termstructure/src/yield_curve.rs::YieldCurve::new", "crates/qlab-termstructure/src/yield_curve.rs::YieldCurve::discount_factor"]}
{"id": "C86", "title": "a float discount factor from a date to itself is exactly 1", "statement": "DF(d,d) is exactly 1 in floating point if exp is 1 at both zeros and time times yield is finite. (Not so on overflow: finite yields of 2^1023 at two years give NaN, proved.)", "quantifier": "every binary floating-point format, curve and date where the curve has a value", "why_tests_cant": "rounding of all floats", "anchors": ["crates/qlab-termstructure/src/yield_curve.rs::YieldCurve::discount_factor"]}
{"id": "C87", "title": "valuation dates fit together", "statement": "The value of a bond at s1 is the value of its flows due in (s1,s2] plus DF(s1,s2) times its value at s2; if nothing is due in between it is DF(s1,s2) times the value at s2.", "quantifier": "every bond, curve with exact arithmetic, and pair of dates where the factors exist", "why_tests_cant": "unbounded schedules, all reals", "anchors": ["crates/qlab-instrument/src/bond.rs::Bond::discounted_value", "crates/qlab-termstructure/src/yield_curve.rs::YieldCurve::discount_factor"]}
{"id": "C88", "title": "the coupon rate enters linearly", "statement": "Whether a bond can be built and its due dates do not depend on the coupon rate. Each amount is affine in the rate with a non-negative slope; the value of the bond is A + K*rate with K >= 0 and A the discounted face (0 if it has matured). With face > 0, maturity after the penultimate date and settlement before maturity, every price belongs to exactly one rate, and a higher rate is a higher price.", "quantifier": "every bond specification, rate and curve of exact arithmetic with positive factors", "why_tests_cant": "unbounded schedules, all reals", "anchors": ["crates/qlab-instrument/src/bond.rs::Bond::new", "crates/qlab-instrument/src/bond.rs::Bond::discounted_value"]}
{"id": "C89", "title": "30/360 in binary64", "statement": "Where the count is defined, the f64 fraction is finite and the exact fraction rounded once. From one start date a later date never gives a smaller fraction; fractions are equal only for the 30th and 31st of one month.", "quantifier": "every triple of dates and both overflow settings", "why_tests_cant": "all dates, rounding", "anchors": ["crates/qlab-time/src/day_count/thirty_360.rs"]}
{"id": "C90", "title": "actual day counts in binary32", "statement": "Up to 2^23 days the f32 fraction of Act/360 and Act/365 is finite and the exact quotient rounded once, and different dates have different fractions, in order. Between any two dates it is finite, the number of days and the quotient each rounded once, and a later date never has a smaller fraction. (Strict order refuted further apart: from 0001-01-01, 40000-01-01 and 40000-01-02 give the same fraction.)", "quantifier": "every triple of dates", "why_tests_cant": "all dates, rounding", "anchors": ["crates/qlab-time/src/day_count/act_360.rs", "crates/qlab-time/src/day_count/act_365.rs"]}
{"id": "C91", "title": "interpolation is stable under changes of the ordinates", "statement": "If every ordinate moves by at most eps, linear interpolation moves by at most eps and Catmull-Rom by at most 2 eps, and by at most 7/5 eps up to the last knot but one; Hermite moves by at most eps plus a quarter of the widest cell times the change of the slopes; natural cubic by at most (1+3r^2) eps, r being the ratio of the widest to the narrowest cell. (7/5 is refuted on the last cell of Catmull-Rom, and no constant below 2 does for the whole range.)", "quantifier": "all increasing points, perturbations and queries in range, exact arithmetic", "why_tests_cant": "all reals, unbounded lists", "anchors": ["crates/qlab-math/src/interpolation/linear.rs", "crates/qlab-math/src/interpolation/spline/catmull_rom.rs", "crates/qlab-math/src/interpolation/spline/hermite.rs", "crates/qlab-math/src/interpolation/spline/natural_cubic.rs"]}
{"id": "C92", "title": "interpolation stays near the range of its data", "statement": "Catmull-Rom leaves the range of the up to four ordinates around a cell by at most a fifth of that range, up to the last knot but one, and is at most twice the largest ordinate everywhere; Hermite leaves the range of the two ordinates by at most a quarter of the cell width times the largest slope; natural cubic is at most (1+3r^2) times the largest ordinate and, with four points or more, leaves the range of the ordinates by at most 3/2 r^2 times that range, r being the ratio of the widest to the narrowest cell. (No bound by the range on the last cell of Catmull-Rom or for natural cubic through three points: both leave the range of constant ordinates.)", "quantifier": "all increasing points and queries, exact arithmetic", "why_tests_cant": "all reals, unbounded lists", "anchors": ["crates/qlab-math/src/interpolation/spline/catmull_rom.rs", "crates/qlab-math/src/interpolation/spline/hermite.rs", "crates/qlab-math/src/interpolation/spline/natural_cubic.rs"]}
{"id": "C93", "title": "discount factors and bond values are stable under changes of the yields", "statement": "If every yield moves by at most eps, DF(d1,d2) of a linear curve changes by a factor between exp(-eps(t1+t2)) and exp(eps(t1+t2)), of a Catmull-Rom curve with 2 eps, and with 7/5 eps up to the last maturity but one, of a natural cubic curve whose maturities are between g and k days apart with (1+3(k/g)^2) eps, and the value of a bond with non-negative flows by the factor of its longest flow.", "quantifier": "every curve of exact arithmetic with Act/360 or Act/365, dates, bond", "why_tests_cant": "all reals, unbounded schedules", "anchors": ["crates/qlab-termstructure/src/yield_curve.rs::YieldCurve::new", "crates/qlab-termstructure/src/yield_curve.rs::YieldCurve::discount_factor", "crates/qlab-instrument/src/bond.rs::Bond::discounted_value"]}
{"id": "C94", "title": "rising non-negative yields give falling discount factors", "statement": "With non-negative yields that do not fall along the maturities, a linear curve has DF(d1,d2) <= 1, and DF(d1,d) does not rise with d. (Not so for Catmull-Rom interpolation, which can fall between rising points: counterexample proved.)", "quantifier": "every curve of exact arithmetic with Act/360 or Act/365 and dates in range", "why_tests_cant": "all reals, unbounded lists", "anchors": ["crates/qlab-termstructure/src/yield_curve.rs::YieldCurve::discount_factor"]}
{"id": "C95", "title": "payment dates of a bond", "statement": "Each coupon before maturity is paid on its due date or at most two days later, and before the next one is due; with maturity at least two days after the penultimate date, no flow is paid before an earlier one. (Refuted otherwise: with the penultimate date on a Saturday and maturity on the Sunday the redemption is paid before the last coupon.)", "quantifier": "every bond specification that is accepted", "why_tests_cant": "all dates, unbounded schedules", "anchors": ["crates/qlab-instrument/src/bond.rs::Bond::new"]}
{"id": "C96", "title": "the schedule does not depend on the amounts", "statement": "Whether a bond is accepted, its id and all its dates are independent of the number type, coupon rate and face value.", "quantifier": "every bond specification and every two number types that represent all integers", "why_tests_cant": "all dates, number types", "anchors": ["crates/qlab-instrument/src/bond.rs::Bond::new"]}
{"id": "C97", "title": "error of a bond value in floating point", "statement": "A finite computed value of a bond differs from the exact sum of amount times computed factor by at most ((1+u)^(n+1)-1) times the sum of absolute values, plus an underflow term n*2^(2-emax-prec)*(1+u)^n; n is the number of flows. If the factors and amounts are not negative the value is not negative.", "quantifier": "every binary floating-point format, bond, curve and settlement date", "why_tests_cant": "rounding of all floats, unbounded schedules", "anchors": ["crates/qlab-instrument/src/bond.rs::Bond::discounted_value"]}
{"id": "C98", "title": "discount factors and bond values in binary64 against exact arithmetic", "statement": "With Act/360 or Act/365 and linear interpolation, maturities at least g days apart and at most M days away, yields of size at most Y and an exponential of relative error eps, every factor DF(d1,d2) computed in binary64 is within relative error (1+eps)exp(B)-1 of the factor of exact arithmetic, with B = 2^-53 Y ((19+16M/g)(t1+t2)+3); a finite computed bond value differs from the exact one by at most (1+2^-53)^(n+1) (1+eps) exp(B) - 1 times the value of the bond with absolute amounts, plus an underflow term.", "quantifier": "every curve with maturities in order, dates, bond, settlement date and exponential that is accurate on the range used", "why_tests_cant": "rounding of all floats, unbounded lists", "anchors": ["crates/qlab-time/src/day_count", "crates/qlab-math/src/interpolation/linear.rs", "crates/qlab-termstructure/src/yield_curve.rs::YieldCurve::discount_factor", "crates/qlab-instrument/src/bond.rs::Bond::discounted_value"]}
{"id": "C99", "title": "error of Hermite and Catmull-Rom interpolation in floating point", "statement": "With increasing abscissas and a query in range, all up to 2^(emax-7) in size, and S at least the sizes of the numbers the cell uses (two ordinates and slope times width for Hermite, up to four ordinates for Catmull-Rom; S <= 2^(emax-7)), the computed value is finite and differs from the value of exact arithmetic by at most 280 (Hermite) or 310 (Catmull-Rom) times (2^-prec * S + 2^(2-emax-prec)).", "quantifier": "every binary format of eight or more bits, grid, ordinates, slopes and query", "why_tests_cant": "rounding of all floats, unbounded lists", "anchors": ["crates/qlab-math/src/interpolation/spline/hermite.rs", "crates/qlab-math/src/interpolation/spline/catmull_rom.rs"]}
{"id": "C100", "title": "Catmull-Rom curves in binary64 against exact arithmetic", "statement": "With Act/360 or Act/365 and Catmull-Rom interpolation, maturities at least g days apart and at most M days away, yields of size at most Y and an exponential of relative error eps, every factor DF(d1,d2) computed in binary64 is within relative error (1+eps)exp(B)-1 of the factor of exact arithmetic, with B = 2^-53 2Y ((161+128M/g)(t1+t2)+3); a finite computed bond value differs from the exact one by at most (1+2^-53)^(n+1) (1+eps) exp(B) - 1 times the value of the bond with absolute amounts, plus an underflow term.", "quantifier": "every curve with maturities in order, dates, bond, settlement date and exponential that is accurate on the range used", "why_tests_cant": "rounding of all floats, unbounded lists", "anchors": ["crates/qlab-time/src/day_count", "crates/qlab-math/src/interpolation/spline/catmull_rom.rs", "crates/qlab-termstructure/src/yield_curve.rs::YieldCurve::discount_factor", "crates/qlab-instrument/src/bond.rs::Bond::discounted_value"]}
{"id": "C101", "title": "error of natural cubic interpolation in floating point", "statement": "With at least three points whose abscissas increase by at least h, gaps, h and the ordinate bound Y all between 2^-L and 2^L, 9L+20 <= emax, and a query in range, fitting and evaluating a natural cubic gives a finite number that differs from the value of exact arithmetic by at most 4500 * 2^-prec * (w/h)^2 * Y; w is the width of the queried cell. The bound does not grow with the number of points.", "quantifier": "every binary format of twenty or more bits, grid, ordinates and query", "why_tests_cant": "rounding of all floats, unbounded lists", "anchors": ["crates/qlab-math/src/interpolation/spline/natural_cubic.rs", "crates/qlab-math/src/linear_algebra/tridiagonal_matrix.rs"]}
{"id": "C102", "title": "natural cubic curves in binary64 against exact arithmetic", "statement": "With Act/360 or Act/365 and natural cubic interpolation, maturities g to r*g days apart and at most M days away, yields of size at most Y and an exponential of relative error eps, every factor DF(d1,d2) computed in binary64 is within relative error (1+eps)exp(B)-1 of the factor of exact arithmetic, with B = 2^-53 4r^2 Y ((1130+3375M/g)(t1+t2)+3); a finite computed bond value differs from the exact one by at most (1+2^-53)^(n+1) (1+eps) exp(B) - 1 times the value of the bond with absolute amounts, plus an underflow term.", "quantifier": "every curve with maturities in order, dates, bond, settlement date and exponential that is accurate on the range used", "why_tests_cant": "rounding of all floats, unbounded lists", "anchors": ["crates/qlab-time/src/day_count", "crates/qlab-math/src/interpolation/spline/natural_cubic.rs", "crates/qlab-termstructure/src/yield_curve.rs::YieldCurve::discount_factor", "crates/qlab-instrument/src/bond.rs::Bond::discounted_value"]}
{"id": "C103", "title": "accuracy of interpolation", "statement": "When the points are taken from a function f, the interpolated value is within L*w/2 (f changes by at most L per unit) or M*w^2/8 (second derivative at most M) of f for linear, M*w^4/384 (fourth derivative at most M) for Hermite, 7/8*M*w^2 or (1/2+3/2*w/h)*L*w for natural cubic and 14/5*L*w for Catmull-Rom, w the width of the cell, h the smallest width. Splines: natural cubic from four points on and Catmull-Rom up to the last knot but one; outside that they do not converge.", "quantifier": "every grid, function with the stated bound, and query in range", "why_tests_cant": "all functions, unbounded grids", "anchors": ["crates/qlab-math/src/interpolation/linear.rs", "crates/qlab-math/src/interpolation/spline/hermite.rs", "crates/qlab-math/src/interpolation/spline/catmull_rom.rs", "crates/qlab-math/src/interpolation/spline/natural_cubic.rs"]}
{"id": "C104", "title": "accuracy of curves and bonds", "statement": "With Act/360 or Act/365 (K days a year), settlement s and quotes of a yield function f at maturities at most G days apart, every factor DF(d1,d2) is within a factor exp(k*(t1+t2)) of exp(t1*f(t1)-t2*f(t2)), with k = L*(G/K)/2 or M*(G/K)^2/8 for linear, 7/8*M*(G/K)^2 for natural cubic and 14/5*L*G/K for Catmull-Rom; bond values on linear curves likewise. Splines: natural cubic from four quotes on and Catmull-Rom up to the last maturity but one; at the last maturity a flat yield is taken for 4/3 of it.", "quantifier": "every yield function with the stated bound, list of quotes, dates and bond", "why_tests_cant": "all functions, unbounded lists", "anchors": ["crates/qlab-time/src/day_count", "crates/qlab-termstructure/src/yield_curve.rs::YieldCurve::discount_factor", "crates/qlab-instrument/src/bond.rs::Bond::discounted_value"]}
{"id": "C105", "title": "one spread for each price", "statement": "On a curve (linear, Catmull-Rom, or natural cubic from four maturities on) that values a bond with something still to come, no negative flow and none paid before it is due, every price above zero is the value of the bond for exactly one parallel shift of the yields; a higher shift is a lower price. Bonds as built, with first coupon not before issue, maturity not before the penultimate date, rate >= 0 and face > 0, are of this kind before maturity.", "quantifier": "every curve of exact arithmetic with Act/360 or Act/365, bond, settlement date and price", "why_tests_cant": "all reals, unbounded schedules", "anchors": ["crates/qlab-termstructure/src/yield_curve.rs::YieldCurve::new", "crates/qlab-termstructure/src/yield_curve.rs::YieldCurve::discount_factor", "crates/qlab-instrument/src/bond.rs::Bond::discounted_value", "crates/qlab-instrument/src/bond.rs::Bond::new"]}
{"id": "C106", "title": "duration and convexity", "statement": "The value of such a bond is convex in a parallel shift h of the yields. On linear curves and natural cubic ones of four maturities or more it has slope -D at h=0 and lies between v-hD and v-hD+h^2/2*exp(|h|T)*C, where v is the value, D and C the sums of discounted flows times time and time squared to payment, and T the longest time.", "quantifier": "every curve of exact arithmetic with Act/360 or Act/365, bond, settlement date and shift", "why_tests_cant": "all reals, unbounded schedules", "anchors": ["crates/qlab-termstructure/src/yield_curve.rs::YieldCurve::discount_factor", "crates/qlab-instrument/src/bond.rs::Bond::discounted_value"]}
{"id": "C107", "title": "sums of curves and changes of single yields", "statement": "If the yields of a curve are a times those of a second plus b times those of a third on the same maturities, its discount factors are DF2^a * DF3^b. Changing one yield leaves alone all factors between dates, and all bonds paying on dates, that are not between the neighbouring maturities (linear) or within two maturities (Catmull-Rom) of the changed one. Raising yields on a linear curve makes no factor from settlement greater and no bond dearer on the settlement date; on a Catmull-Rom curve it can.", "quantifier": "every curve of exact arithmetic with Act/360 or Act/365, list of yields, pair of dates and bond", "why_tests_cant": "all reals, unbounded lists", "anchors": ["crates/qlab-termstructure/src/yield_curve.rs::YieldCurve::new", "crates/qlab-termstructure/src/yield_curve.rs::YieldCurve::discount_factor", "crates/qlab-instrument/src/bond.rs::Bond::discounted_value"]}
{"id": "C108", "title": "curves against exact arithmetic in every binary format", "statement": "In every binary format with at least 24 significant bits and exponents up to at least 128, binary32 among them, with Act/360 or Act/365, maturities at least g days apart and at most M days from settlement, yields of size at most Y and an exponential of relative error eps, the computed factors are within relative error (1+eps)exp(B)-1 of those of exact arithmetic, with B = 2^-prec Y ((19+16M/g)(t1+t2)+3) for linear, 2^-prec 2Y ((161+128M/g)(t1+t2)+3) for Catmull-Rom and 2^-prec 4r^2 Y ((1130+3375M/g)(t1+t2)+3) for natural cubic with gaps up to r*g days; finite computed bond values likewise. Dates lie within 2^(prec-1) days of settlement, M/g is at most 2^(prec-11), 2^(prec-15) or 2^(prec-18), and Y is away from overflow and underflow.", "quantifier": "every such format, curve with maturities in order, dates, bond, settlement date and exponential that is accurate on the range used", "why_tests_cant": "rounding of all floats of all formats, unbounded lists", "anchors": ["crates/qlab-time/src/day_count", "crates/qlab-math/src/interpolation/linear.rs", "crates/qlab-math/src/interpolation/spline/catmull_rom.rs", "crates/qlab-math/src/interpolation/spline/natural_cubic.rs", "crates/qlab-termstructure/src/yield_curve.rs::YieldCurve::discount_factor", "crates/qlab-instrument/src/bond.rs::Bond::discounted_value"]}
{"id": "C109", "title": "distance between the day counts", "statement": "Between dates n days apart, in order, every answer of 30/360 is within 3863/292194 of a year (4.83 days) of n mean Gregorian years of 146097/400 days, however far apart the dates; it exceeds Act/360 by at most 2/360 and Act/365 by at most 17/2190 of a year; Act/360 times 360 is Act/365 times 365. Over n added months it is n/12, less at most 2/360 when the day was cut to fit February. Each bound is met by some pair of dates.", "quantifier": "every pair of dates and build mode in which 30/360 answers, every number of months", "why_tests_cant": "all dates of half a million years, unbounded numbers of months", "anchors": ["crates/qlab-time/src/day_count"]}
{"id": "C110", "title": "day counts in every binary format", "statement": "In every binary format with at least 9 significant bits and exponents up to at least 32, binary32 and binary64 among them, Act/360 and Act/365 between any two dates, and 30/360 between dates in order, are finite, within relative error (2+u)u of the exact fraction with u = 2^-prec, and the exact fraction rounded once up to 2^prec days. A later date never has the smaller fraction; closer than 2^(prec-1) days only the same date (under 30/360 also the 30th and 31st of a month) has the same. Act/360 and Act/365 change sign when the dates change places.", "quantifier": "every such format and pair of dates", "why_tests_cant": "rounding in all formats, all pairs of dates", "anchors": ["crates/qlab-time/src/day_count"]}
{"id": "C111", "title": "interpolation and the shape of the data", "statement": "Linear interpolation of data whose segments do not lose slope is convex, and never steeper than the steepest segment. A Hermite spline does not fall if every slope lies between 0 and three times that of each neighbouring segment (three is the largest such factor), and is convex if over every segment of slope D the end slopes m0, m1 satisfy 2*m0+m1 <= 3*D <= m0+2*m1. Natural cubic keeps neither rising nor convex shape, Catmull-Rom not the convex one: counterexamples of five points.", "quantifier": "every list of points with increasing abscissas and every query in range", "why_tests_cant": "all reals, unbounded lists", "anchors": ["crates/qlab-math/src/interpolation/linear.rs", "crates/qlab-math/src/interpolation/spline/hermite.rs", "crates/qlab-math/src/interpolation/spline/catmull_rom.rs", "crates/qlab-math/src/interpolation/spline/natural_cubic.rs"]}
{"id": "C112", "title": "flattest and least bent curves", "statement": "Among the curves through the points that are continuous and differentiable between neighbouring points, linear interpolation has the least integral of the squared slope, and is the only one that reaches it. Among the curves with the given values and slopes and a second derivative between neighbouring points, a Hermite spline has the least integral of the squared second derivative, and is the only one that reaches it. A natural cubic spline is the least bent curve through its points whenever its answers are differentiable at the interior points, and not in general: a counterexample of four points.", "quantifier": "every list of points with increasing abscissas and every competing curve", "why_tests_cant": "all reals, unbounded lists, all functions", "anchors": ["crates/qlab-math/src/interpolation/linear.rs", "crates/qlab-math/src/interpolation/spline/hermite.rs", "crates/qlab-math/src/interpolation/spline/natural_cubic.rs"]}
{"id": "C113", "title": "reach of a single point in a natural cubic", "statement": "Raising one ordinate by e changes the value of a natural cubic spline through at least four points in a cell of width w, with d cells between it and the two that meet at the point, by at most (w/h)^2*|e|/2^d, h the smallest width; on a yield curve with Act/360 or Act/365 the logarithm of the discount factor from settlement changes by at most the year fraction times that. Up to the third point from the end the answers do not depend on the last point at all.", "quantifier": "every list of at least four points with increasing abscissas, every point changed and query; every such curve and date", "why_tests_cant": "all reals, unbounded lists and distances", "anchors": ["crates/qlab-math/src/interpolation/spline/natural_cubic.rs", "crates/qlab-math/src/linear_algebra/tridiagonal_matrix.rs", "crates/qlab-termstructure/src/yield_curve.rs::YieldCurve::discount_factor"]}
{"id": "C114", "title": "mirrored points", "statement": "Linear interpolation through points reflected in a vertical line gives the reflected answers, and so does a Hermite interpolator whose slopes change sign. A natural cubic does when its answers have a derivative at every interior point for both sets of points. In general neither spline has this symmetry: there are four points where a natural cubic, and four where a Catmull-Rom spline, answers differently for the reflected points.", "quantifier": "every list of points with increasing abscissas, every line of reflection and query in range", "why_tests_cant": "all reals, unbounded lists; the asymmetry shows only for some data", "anchors": ["crates/qlab-math/src/interpolation/linear.rs", "crates/qlab-math/src/interpolation/spline/hermite.rs", "crates/qlab-math/src/interpolation/spline/natural_cubic.rs", "crates/qlab-math/src/interpolation/spline/catmull_rom.rs"]}
{"id": "C115", "title": "adding a point already on the curve", "statement": "Adding a point that a linear interpolator already passes through changes none of its answers or errors, and so for a Hermite interpolator when the added slope is the derivative there, and for a natural cubic through at least four points when its answers have a derivative at every interior point. A maturity added to a linear curve with Act/360 or Act/365 at the yield it already gives changes no discount factor, between any two dates, and no bond value. Neither spline has this property in general: there are points already on a natural cubic, and on a Catmull-Rom spline, whose addition changes another answer.", "quantifier": "every list of points with increasing abscissas, every added point on the curve and every query; every such curve, pair of dates and bond", "why_tests_cant": "all reals, unbounded lists and cash flows; the failures show only for some data", "anchors": ["crates/qlab-math/src/interpolation/linear.rs", "crates/qlab-math/src/interpolation/spline/hermite.rs", "crates/qlab-math/src/interpolation/spline/natural_cubic.rs", "crates/qlab-math/src/interpolation/spline/catmull_rom.rs", "crates/qlab-termstructure/src/yield_curve.rs::YieldCurve::discount_factor", "crates/qlab-instrument/src/bond.rs::Bond::discounted_value"]}
{"id": "C116", "title": "what more holidays do to dates and counts", "statement": "If every business day of one calendar is a business day of another, then rolling a date forward by the first never ends earlier than by the second, rolling back never ends later, the last business day of a month is never later, and a count of business days between two ordered dates, with the same choice of ends, is never larger. Rolling forward by the two gives the same date exactly when the date reached by the calendar with fewer holidays is a business day of the other. A joint calendar therefore rolls at least as far as each of its members, and its count is at most the count of each of two members and at least their sum less the days between the dates.", "quantifier": "every pair of calendars so related, every date and period; every nest of joint calendars", "why_tests_cant": "arbitrary calendars, all dates", "anchors": ["crates/qlab-time/src/date.rs::Date::checked_roll", "third-parties/calendar/src/lib.rs::Calendar::end_of_month", "third-parties/calendar/src/lib.rs::Calendar::business_days_between", "third-parties/calendar/src/jointcalendar.rs"]}
{"id": "C117", "title": "which calendars contain which", "statement": "Among all shipped calendars, one has every holiday of another in exactly the listed cases. Two have the same business days exactly when they are the same market, a default and its named market, two markets of the United Kingdom, Frankfurt and Xetra, or Paris and Eurex. Otherwise the containments are: TARGET in Paris and both in the exchanges of Austria and Italy and in Sweden; Frankfurt in Paris, the Austrian and Italian exchanges, Sweden, Slovakia, Finland, German settlement and Euwax; Euwax in the Austrian exchange and German settlement; ASX in Australian settlement, TSX in Canadian settlement, Brazilian settlement in its exchange; Libor in United States settlement; NERC in the Federal Reserve, NYSE, government bond, SOFR and settlement calendars; the Federal Reserve in the government bond, SOFR and settlement calendars; government bond in SOFR; and weekends in all but Israel and the Russian exchange. Where a calendar contains another, it rolls at least as far and counts no more business days.", "quantifier": "every pair of shipped calendars and every date", "why_tests_cant": "all dates of all pairs of 70 calendars", "anchors": ["third-parties/calendar/src/*.rs", "crates/qlab-time/src/date.rs::Date::checked_roll", "third-parties/calendar/src/lib.rs::Calendar::business_days_between"]}
{"id": "C118", "title": "flat curves and the yield to maturity", "statement": "A curve with Act/360 or Act/365 (K days a year) and the same yield y at every maturity answers DF(d1,d2) = exp(-y*days(d1,d2)/K), whatever its settlement date and maturities, for every d1 that is the settlement date or not before the first maturity and every d2 between the first and the last maturity: linear curves, natural cubic ones of four maturities or more, and Catmull-Rom up to the last maturity but one. A bond is then worth the sum of its open amounts times these factors, and grows by exp(y*days/K) while nothing falls due. For a bond with something still to come, no negative flow and none paid before it is due, every price above zero belongs to exactly one flat yield, and a higher yield is a lower price. The first claim fails at the last maturity of a Catmull-Rom curve and for a natural cubic of three maturities.", "quantifier": "every yield, settlement date, list of maturities, pair of dates and bond", "why_tests_cant": "all reals, unbounded lists and dates", "anchors": ["crates/qlab-termstructure/src/yield_curve.rs::YieldCurve::new", "crates/qlab-termstructure/src/yield_curve.rs::YieldCurve::discount_factor", "crates/qlab-instrument/src/bond.rs::Bond::discounted_value"]}
{"id": "C119", "title": "yields from discount factors and bond prices", "statement": "For maturities after the settlement date, act/360 or act/365 and linear, natural cubic or Catmull-Rom interpolation: numbers are the discount factors from the settlement date to the maturities of some curve exactly when they are all positive; the yields of that curve are then unique, and each is smaller exactly when its own factor is greater, whatever the other factors are. The yield is minus the logarithm of the factor over the time, except for the last yield of a Catmull-Rom curve (refuted). Likewise two curves on which each bond of a ladder (one bond per maturity, paying only at maturities up to its own, where its payment is not zero) has the same value have the same yields. A maturity on the settlement date leaves its yield undetermined (refuted).", "quantifier": "all settlement dates, all ordered lists of maturities after them, all lists of factors, all ladders of bonds, all pairs of lists of yields, over the real numbers", "why_tests_cant": "Uniqueness speaks of all pairs of curves at once, and existence of factors chosen freely; a test can only recover the yields it started from.", "anchors": ["crates/qlab-termstructure/src/yield_curve.rs::YieldCurve::new", "crates/qlab-termstructure/src/yield_curve.rs::YieldCurve::discount_factor", "crates/qlab-instrument/src/bond.rs::Bond::discounted_value"]}
