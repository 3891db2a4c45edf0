#!/usr/bin/env python3
"""Source of /verif/properties.jsonl: run `python3 tools/props.py` in /verif."""
import json
P=[]
def p(title, statement, quantifier, why, anchors):
    P.append(dict(id="C%02d"%(len(P)+1), title=title, statement=statement,
                  quantifier=quantifier, why_tests_cant=why, anchors=anchors))
DATE="crates/qlab-time/src/date.rs"
# ---------------------------------------------------------------- dates
p("from_ymd accepts exactly the Gregorian dates",
  "Date::from_ymd(y,m,d) returns Some exactly when (y,m,d) is a date of the proleptic Gregorian calendar inside the representable year range, and then year(), month(), day() give back y, m, d. Otherwise it returns None and never panics.",
  "every i32 year, u32 month, u32 day", "about 2^96 argument triples; a test samples a handful",
  [DATE+"::Date::from_ymd", DATE+"::Date::year/month/day"])
p("serial_date is a faithful day count",
  "serial_date maps 0001-01-01 to 1, grows by exactly one per calendar day, is injective and orders dates exactly as < does.",
  "every representable date and every pair of dates", "190 million dates, all pairs",
  [DATE+"::Date::serial_date", DATE+"::derive(PartialOrd, Ord)"])
p("date subtraction is the signed number of days",
  "d2 - d1 equals serial_date(d2) - serial_date(d1); it is antisymmetric, additive along any chain of dates and zero only for equal dates.",
  "every pair and triple of dates", "pairs and triples of dates cannot be enumerated",
  [DATE+"::impl Sub for Date"])
p("adding and subtracting days is exact and invertible",
  "checked_add_days(n) returns the date exactly n days later, checked_sub_days(n) the date exactly n days earlier; each is None exactly when that date is outside the representable range (n over i32::MAX included). Subtracting what was added gives the start date back. Adding n days equals n calls of succ_opt.",
  "every date and every u64 n", "unbounded n, every start date, including range ends",
  [DATE+"::Date::checked_add_days", DATE+"::Date::checked_sub_days", DATE+"::Date::succ_opt", DATE+"::Date::pred_opt"])
p("succ_opt and pred_opt are mutually inverse neighbours",
  "succ_opt gives the next calendar day (None only at the last representable date), pred_opt the previous one (None only at the first), and each undoes the other.",
  "every representable date", "month and year ends of 524,286 years",
  [DATE+"::Date::succ_opt", DATE+"::Date::pred_opt"])
p("adding months lands in the right month with the day clamped",
  "checked_add_months(n) returns the date whose month is exactly n months later and whose day is min(day, length of that month). It is None exactly when that month is outside the representable years, and it never panics.",
  "every date and every u32 n", "every day/month/leap-year/n combination",
  [DATE+"::Date::checked_add_months", DATE+"::Date::days_in_month"])
p("subtracting months lands in the right month with the day clamped",
  "checked_sub_months(n) is the mirror image of checked_add_months(n): month exactly n earlier, day clamped, None exactly when out of range.",
  "every date and every u32 n", "every combination",
  [DATE+"::Date::checked_sub_months"])
p("month arithmetic composes only up to month-end drift",
  "For start days up to 28, adding m and then n months equals adding m+n and subtracting n undoes adding n. For days 29 to 31 both laws can fail by the clamping of the day (witnesses), but the resulting year and month still agree.",
  "every date, every m and n", "quantifies over all pairs of periods",
  [DATE+"::Date::checked_add_months", DATE+"::Date::checked_sub_months"])
p("adding years keeps month and day",
  "checked_add_years(k) keeps month and day; February 29 becomes February 28 when the target year is not leap; None exactly when the target year is not representable. The doc comment's claim that February 29 to a non-leap year gives None does not hold.",
  "every date and every i32 k with year + k inside i32", "every k",
  [DATE+"::Date::checked_add_years"])
p("adding years never panics",
  "checked_add_years returns an Option for every i32 argument. (Fails in builds with overflow checks when year + k leaves i32; in wrapping builds the result is still None.)",
  "every date, every i32 k, both overflow-check settings", "extreme arguments at the i32 boundary, two build profiles",
  [DATE+"::Date::checked_add_years"])
p("leap_year is the Gregorian rule",
  "leap_year() holds exactly for years divisible by 4 but not by 100, or by 400; exactly then the year has a 29 February and 366 days.",
  "every date", "every year", [DATE+"::Date::leap_year"])
p("weekend_roll moves to the next weekday and nowhere else",
  "weekend_roll returns the same date on Monday to Friday and the following Monday on Saturday and Sunday: the earliest non-weekend date not before the start. None only when that Monday is not representable. Rolling twice equals rolling once.",
  "every representable date", "every weekday/month-end combination",
  [DATE+"::Date::weekend_roll"])
p("weekend_roll rolls back when the month changes",
  "As the doc comment says, a roll that would leave the month is taken backwards instead. (The code never does this: refuted.)",
  "every representable date", "needs the month-end weekends of all years",
  [DATE+"::Date::weekend_roll"])
p("Following rolls to the first business day on or after",
  "checked_roll with Following returns the earliest business day at or after date + period, and None exactly when the period cannot be added or no business day follows in the representable range. The search terminates for every calendar.",
  "every date, period and calendar predicate", "all calendars, including ones with arbitrarily long closures",
  [DATE+"::Date::checked_roll", "crates/qlab-time/src/period.rs::Period", "crates/qlab-time/src/calendar.rs::Calendar"])
p("Preceding rolls to the last business day on or before",
  "checked_roll with Preceding returns the latest business day at or before date + period, and None exactly when there is none in range or the period cannot be added. The search terminates.",
  "every date, period and calendar predicate", "all calendars",
  [DATE+"::Date::checked_roll"])
p("rolled dates are business days and fixed points",
  "Whenever an adjusting convention returns a date, that date is a business day; and when date + period is already a business day, Unadjusted, Following and Preceding return exactly date + period.",
  "every date, period, calendar and convention", "all calendars and conventions",
  [DATE+"::Date::checked_roll", "crates/qlab-time/src/date_rolling.rs::DateRolling"])
p("ModifiedFollowing stays in the month of the unadjusted date",
  "Market convention: follow, unless that leaves the month of date + period, then precede. (The code compares with the month of the start date instead: refuted. What the code does is proved, and it is the market convention whenever date + period is in the start month.)",
  "every date, period and calendar", "needs arbitrary periods and calendars",
  [DATE+"::Date::checked_roll"])
p("ModifiedPreceding stays in the month of the unadjusted date",
  "Market convention: precede, unless that leaves the month of date + period, then follow. (Refuted for the same reason; conditional form proved.)",
  "every date, period and calendar", "needs arbitrary periods and calendars",
  [DATE+"::Date::checked_roll"])
# ---------------------------------------------------------------- day counts
DC="crates/qlab-time/src/day_count"
p("Act/360 and Act/365 are days over 360 and 365",
  "The fraction equals (d2 - d1)/360 (resp. /365): antisymmetric, additive over adjoining periods, strictly increasing in d2, zero exactly for equal dates, never an error and never a panic.",
  "every pair/triple of dates", "all pairs of dates",
  [DC+"/act_360.rs::Act360", DC+"/act_365.rs::Act365"])
p("Act/360 and Act/365 in f64 are correctly rounded and monotone",
  "In binary64 the returned fraction is the correctly rounded value of the exact quotient; it is finite, weakly monotone in d2 and zero exactly for equal dates.",
  "every pair of dates, f64", "about 10^16 pairs",
  [DC+"/act_360.rs", DC+"/act_365.rs", "crates/qlab-math/src/value.rs"])
p("30/360 is the capped 30/360 formula",
  "For d1 <= d2, in builds without overflow checks, Thirty360 returns (360*dy + 30*dm + min(d2,30) - min(d1,30))/360; for d1 > d2 it returns InvalidInput. The result is never negative, is monotone in d2 and additive over adjoining periods.",
  "every pair of dates", "all pairs of dates and wrap-around of u32",
  [DC+"/thirty_360.rs::Thirty360"])
p("30/360 never panics",
  "Thirty360 returns a value or an error for every pair of dates. (With overflow checks on it panics exactly when d1 <= d2 and month(d2) < month(d1): refuted.)",
  "every pair of dates, both overflow-check settings", "depends on build profile and on month order",
  [DC+"/thirty_360.rs::Thirty360::date_diff"])
# ---------------------------------------------------------------- interpolation
IN="crates/qlab-math/src/interpolation"
p("grid lookup finds the bracketing interval or the right error",
  "On points with non-decreasing x, evaluating at x uses the interval whose ends bracket x; below the first x the answer is OutOfLowerBound(x), above the last OutOfUpperBound(x), and with no points InsufficientPointsError.",
  "every point list sorted by x and every x", "lists of any length",
  [IN+".rs::find_index_at_left_boundary"])
p("linear interpolation reproduces, brackets and is exact on lines",
  "For strictly increasing x and two or more points, Linear returns y at every grid point, values between the neighbouring y's in between, the exact value on data sampled from a line, is continuous, and errors exactly outside the grid.",
  "every strictly increasing point list of length >= 2 and every x", "any number of points, any real x",
  [IN+"/linear.rs::Linear"])
p("linear interpolation never panics",
  "Linear::try_value returns a value or an error for every fitted grid. (It panics exactly for a one-point grid evaluated at that point: refuted.)",
  "every point list and x", "needs the degenerate grid", [IN+"/linear.rs::Linear::try_value"])
p("linear interpolation is flat beyond the last point",
  "The doc comment promises the last y for t at or beyond the last x. (Refuted: beyond the last x the result is OutOfUpperBound.)",
  "every grid and every t beyond its end", "all grids", [IN+"/linear.rs::Linear::try_value"])
p("linear interpolation in f64 hits the grid values",
  "In binary64 the value at a grid x is exactly the grid y. (True at the first grid point when the slope is finite; refuted at the others because of rounding.)",
  "every f64 grid", "rounding depends on all bits of the inputs", [IN+"/linear.rs::Linear::try_value"])
p("Hermite spline matches values and slopes",
  "For strictly increasing x the Hermite spline returns y at every knot, has derivative dy/dx at every interior knot (one-sided at the ends), so it is continuously differentiable, and it reproduces every cubic from exact data.",
  "every strictly increasing knot list of length >= 2", "any number of knots, limits",
  [IN+"/spline/hermite.rs::Hermite"])
p("Hermite construction rejects bad input without panicking",
  "try_new returns PointOrderError exactly when some x is smaller than its predecessor and otherwise Ok; it should report too few points. (An empty slice panics and one or two points are accepted: the documented InsufficientPointsError is never returned.)",
  "every raw point list", "all lists", [IN+"/spline/hermite.rs::Hermite::try_new"])
p("Catmull-Rom interpolates its knots",
  "Fitting points with strictly increasing x, the value at every knot is that knot's y. (Proved for all knots but the last; at the last knot the code returns (2-2a)*y with a<1/2, so it is wrong for every grid whose last y is not 0: refuted.)",
  "every strictly increasing point list of length >= 3", "every grid",
  [IN+"/spline/catmull_rom.rs::CatmullRom"])
p("Catmull-Rom reproduces straight lines",
  "On data sampled from a line the spline returns the line. (Refuted: in every interior and last interval the code's tangent uses the wrong spacing; the first interval is exact.)",
  "every grid and every line", "every grid", [IN+"/spline/catmull_rom.rs::CatmullRom::try_value"])
p("Catmull-Rom is continuously differentiable at interior knots",
  "Left and right derivatives agree at interior knots. (Refuted; exact condition for agreement proved.)",
  "every grid", "limits at all knots", [IN+"/spline/catmull_rom.rs::CatmullRom::try_value"])
p("Catmull-Rom fitting validates its input",
  "try_fit fails with InsufficientPointsError(n) exactly for n < 3 points, with PointOrderError exactly when some x is smaller than its predecessor, and otherwise succeeds; evaluation after a successful fit never panics.",
  "every raw point list and x", "all lists", [IN+"/spline/catmull_rom.rs::CatmullRom::try_fit"])
p("natural cubic spline interpolates its knots",
  "For strictly increasing x the fitted spline returns y at every knot, is continuous, errors exactly outside the grid; its second derivative at the end knots is 0 and is continuous at interior knots.",
  "every strictly increasing point list of length >= 3", "every grid",
  [IN+"/spline/natural_cubic.rs::NaturalCubic"])
p("natural cubic spline is twice continuously differentiable",
  "The first derivative is continuous at all interior knots. (Refuted: with 3 points it fails unless the last y is 0; with 4 or more it holds at all interior knots except the last two, where it fails unless the last interior second derivative is 0.)",
  "every strictly increasing point list of length >= 3", "every grid",
  [IN+"/spline/natural_cubic.rs::NaturalCubic::try_fit", "crates/qlab-math/src/linear_algebra/tridiagonal_matrix.rs"])
p("natural cubic spline reproduces straight lines",
  "On data sampled from a line the spline returns the line. (True for 4 or more points; refuted for 3 points.)",
  "every grid and every line", "every grid", [IN+"/spline/natural_cubic.rs::NaturalCubic"])
p("natural cubic fitting validates its input",
  "try_fit fails with InsufficientPointsError(n) exactly for n < 3, with PointOrderError exactly when some x decreases, and never panics; evaluation after a successful fit never panics.",
  "every raw point list and x", "all lists", [IN+"/spline/natural_cubic.rs::NaturalCubic::try_fit"])
TD="crates/qlab-math/src/linear_algebra/tridiagonal_matrix.rs"
p("tridiagonal solve returns the solution of A x = b",
  "With non-vanishing pivots the returned x satisfies A x = b. (True for size 1; for larger sizes it holds exactly when upper[n-2]*x[n-1] = 0, because the back substitution skips row n-2: refuted. All rows but the last two always hold.)",
  "every tridiagonal matrix and right-hand side of any size", "any size, any entries",
  [TD+"::TridiagonalMatrix::solve", TD+"::solve_with_thomas_algorithm_unchecked"])
p("tridiagonal construction and product",
  "try_new succeeds exactly for diagonals of lengths n-1, n, n-1; the product with a vector is None exactly on a length mismatch and otherwise the matrix-vector product.",
  "every triple of diagonals and every vector", "any size",
  [TD+"::TridiagonalMatrix::try_new", TD+"::impl Mul for TridiagonalMatrix"])
# ---------------------------------------------------------------- yield curve
YC="crates/qlab-termstructure/src/yield_curve.rs"
p("discount factors compose",
  "For settlement <= d1 <= d2 <= d3, when the three factors exist, DF(d1,d2)*DF(d2,d3) = DF(d1,d3); every factor is positive and DF(d,d) = 1.",
  "every curve, interpolator, day count and date triple", "all curves and triples",
  [YC+"::YieldCurve::discount_factor"])
p("discount factor rejects ill-ordered dates",
  "discount_factor(d1,d2) is InvalidInput exactly when d2 < d1 or d1 precedes the settlement date; otherwise it depends only on the curve at the two times and fails only if the curve lookup fails.",
  "every curve and date pair", "all pairs", [YC+"::YieldCurve::discount_factor"])
p("discount factor reprices the input yields",
  "A curve built from maturities and spot yields gives DF(settlement, maturity_i) = exp(-t_i*y_i) for every input maturity not before settlement, for linear (two or more points) and natural cubic (three or more) interpolation, whenever the times increase; with the actual/360 and actual/365 conventions distinct maturities in date order suffice.",
  "every settlement date, maturity list and yield list", "all market data",
  [YC+"::YieldCurve::new", YC+"::YieldCurve::discount_factor"])
p("curve construction validates its input",
  "YieldCurve::new is InvalidInput when the list lengths differ; otherwise the first day-count error is returned, or else the fit of exactly the points (time of maturity i, yield i) in order decides the outcome and is what the curve reads. (A 30/360 maturity before settlement is a day-count error and also InvalidInput.)",
  "every input", "all lists", [YC+"::YieldCurve::new"])
p("discount factor at settlement needs no curve point before the first maturity",
  "DF(settlement, settlement) = 1 on every curve. (Refuted: the curve is looked up at 0 first, so it fails whenever the first maturity is after settlement.)",
  "every curve", "all curves", [YC+"::YieldCurve::discount_factor"])
# ---------------------------------------------------------------- bond
BO="crates/qlab-instrument/src/bond.rs"
p("bond schedule",
  "Bond::new yields one coupon for each date first_coupon, +6m, +12m, ... (stepping from the previous due date) not after the penultimate date, in increasing order, plus one final flow at maturity; construction terminates for all inputs.",
  "every set of dates", "unbounded schedules", [BO+"::Bond::new"])
p("bond regular coupons and redemption",
  "Every coupon except a broken first one equals rate*face/2; the final flow is face plus the final coupon pro-rated by the actual final period (short or long).",
  "every bond", "all bonds", [BO+"::Bond::new", BO+"::Bond::final_cash_flow"])
p("bond first coupon is pro-rated by the actual first period",
  "With a short first period the first coupon is rate*face/2 scaled by days(issue,first)/days(prior,first); with a long one it is rate*face/2 plus days(issue,prior)/days(prior2,prior) further coupons; with issue = prior it is unchanged. The scaling never divides by zero, and is non-negative exactly when issue <= first coupon date.",
  "every bond", "all bonds", [BO+"::Bond::first_cash_flow"])
p("bond construction never panics",
  "Bond::new returns Some or None for all dates. (Refuted: if the first coupon date is after the penultimate date and the first period is irregular, it indexes an empty list and panics.)",
  "every set of dates", "needs degenerate date orders", [BO+"::Bond::first_cash_flow"])
p("bond payments fall on weekdays",
  "Every coupon is paid on the first weekday on or after its due date. (Refuted for the final flow, which is paid on the unadjusted maturity date.)",
  "every bond", "all bonds", [BO+"::Bond::new", BO+"::Bond::final_cash_flow"])
p("discounted value sums exactly the flows due after settlement",
  "discounted_value equals the sum over flows with due date strictly after the settlement date of DF(settle, payment date)*amount; 0 if there are none; the first failing factor is the error returned; it does not depend on flows already due.",
  "every bond, settlement date and curve", "all schedules", [BO+"::Bond::discounted_value"])
p("discounted value is linear in face value",
  "Scaling the face value by k scales every cash flow and the discounted value by k.",
  "every bond, curve and factor", "all inputs", [BO+"::Bond::new", BO+"::Bond::discounted_value"])
# ---------------------------------------------------------------- calendars
CA="third-parties/calendar/src"
p("Easter tables agree with the computus",
  "easter_monday(y) is the day-of-year of the Monday after Gregorian Easter, orthodox_easter_monday(y) that of the Monday after Julian Easter, for every year from 1901 to 2199; outside these years the lookup panics.",
  "every i32 year", "two 299-entry tables typed by hand and an unchecked index",
  [CA+"/lib.rs::EASTER_MONDAY", CA+"/lib.rs::ORTHODOX_EASTER_MONDAY", CA+"/lib.rs::Calendar::easter_monday"])
p("calendar queries never panic",
  "is_business_day answers for every date. (Refuted for the calendars that look up Easter: they panic exactly outside 1901-2199; all others answer for every date.)",
  "every calendar, market and date", "every year outside the tables", [CA+"/*.rs::is_business_day"])
p("weekends are never business days",
  "No calendar opens on a weekend day: Saturday/Sunday, or Friday/Saturday for Israel; Russia's exchange opens exactly on its listed working weekends.",
  "every calendar, market and date", "all dates", [CA+"/*.rs::is_business_day", CA+"/lib.rs::Calendar::is_weekend"])
p("holiday and business day are complementary",
  "is_holiday is the negation of is_business_day in both the calendar crate and the Date wrapper, and the wrapper agrees with the wrapped calendar.",
  "every calendar and date", "all dates", [CA+"/lib.rs::Calendar::is_holiday", "crates/qlab-time/src/calendar.rs"])
p("a joint calendar is open exactly when both are",
  "JointCalendar(c1,c2) is open on a date exactly when both are; it is commutative, associative and idempotent in this respect, nested to any depth.",
  "every pair of calendars and date", "arbitrary nesting", [CA+"/jointcalendar.rs::JointCalendar"])
p("business days never run out",
  "Every calendar has a business day within a stated small number of days of every date from 1901 to 2199, so Following/Preceding move by at most that many days.",
  "every calendar, market and date in 1901-2199", "all dates of all calendars", [CA+"/*.rs::is_business_day"])
p("Easter-based holidays fall on the right feast",
  "Good Friday, Easter Monday, Ascension, Whit Monday and Corpus Christi closures fall 2 days before and 1, 39, 50 and 60 days after Easter Sunday for the calendars that keep them, every year. (Refuted for France settlement, which fixes Ascension and Whit Monday at 10 and 21 May, and for Ukraine, which uses western Easter.)",
  "every calendar and year 1901-2199", "all years", [CA+"/*.rs"])
p("TARGET closing days",
  "From 2000 on TARGET is closed exactly on weekends, 1 January, Good Friday, Easter Monday, 1 May, 25 and 26 December, and 31 December 2001.",
  "every date 2000-2199", "all dates", [CA+"/target.rs::Target"])
p("n-th weekday holidays",
  "Rules stated as day ranges select exactly the n-th (or last) weekday of the month: one per year, for all years.",
  "every year", "all years", [CA+"/unitedstates.rs::UnitedStates", CA+"/unitedkingdom.rs::UnitedKingdom"])
p("end_of_month is the last business day of the month",
  "end_of_month(d) is the latest business day not after the last day of d's month; last_day_of_month is the last day of the month; it panics only for the last representable year.",
  "every date and calendar", "all dates", [CA+"/lib.rs::Calendar::end_of_month", CA+"/lib.rs::Calendar::last_day_of_month"])
p("business_days_between counts business days",
  "With explicit flags the result counts the business days from `from` (or the day after) to `to` (or the day before); swapping the dates negates it; counts over adjoining intervals add up.",
  "every pair of dates, flags and calendar", "all pairs", [CA+"/lib.rs::Calendar::business_days_between"])
p("business_days_between default arguments",
  "include_first = true includes the first day, and equal dates give 0 or 1. (Refuted: include_first = true skips the first day, and equal dates with the defaults panic.)",
  "every date and calendar", "all dates", [CA+"/lib.rs::Calendar::business_days_between"])
p("Catmull-Rom curves reprice the input yields",
  "A Catmull-Rom curve built from maturities and spot yields gives DF(settlement, maturity_i) = exp(-t_i*y_i) for every input maturity. (Refuted for the last maturity; proved for all others.)",
  "every settlement date, maturity list and yield list", "all market data",
  [YC+"::YieldCurve::new", "crates/qlab-math/src/interpolation/spline/catmull_rom.rs::CatmullRom"])
p("bond due dates keep the first coupon's day of month",
  "The k-th due date is the first coupon date moved by 6k months. (Refuted: the code steps from the previous due date, so a 31 August coupon drifts to 29 or 28 August; proved when the first coupon is on the 28th or earlier. The actual day is always the smallest of the first coupon's day and the lengths of the months passed: proved.)",
  "every set of dates", "unbounded schedules",
  ["crates/qlab-instrument/src/bond.rs::Bond::new"])
p("closing days of every calendar, exactly",
  "Every country calendar is closed exactly on its weekly days of rest and on the holidays of its list (fixed days, days moved off weekends, n-th and last weekdays, days counted from Easter, each with its years, and single announced dates); the only exceptions are the working weekend days of Russia's exchange.",
  "every calendar and market and every date (1901-2199 if the calendar looks up Easter)", "all dates of all calendars",
  [CA+"/*.rs::is_business_day"])
p("years of announced holidays",
  "The calendars with holidays announced year by year (China, Hong Kong, India, Indonesia, Israel, Russia, Singapore, South Korea, Taiwan, Thailand, Turkey) have announced days exactly from a first to a last year (Indonesia 2005-2014, Thailand 2000-2018, China 2004-2023, ...): outside these years they close on days of rest and regular holidays only, and in the first and last year they close on some other day.",
  "every such calendar and market and every date (1901-2199 if the calendar looks up Easter)", "all dates of all calendars",
  [CA+"/"+c+".rs::is_business_day" for c in "china hongkong india indonesia israel russia singapore southkorea taiwan thailand turkey".split()])
IN="crates/qlab-math/src/interpolation/"
p("interpolation is linear in the data",
  "On fixed abscissas, interpolating a*y + b*z gives a times the interpolation of y plus b times that of z, for linear, Hermite, Catmull-Rom and natural cubic interpolation.",
  "every grid, coefficients a and b, ordinates y and z, and query in range", "continuous data of any length",
  [IN+"linear.rs", IN+"spline/hermite.rs", IN+"spline/catmull_rom.rs", IN+"spline/natural_cubic.rs"])
p("raising all ordinates raises the interpolation",
  "Adding s to every ordinate adds s to every interpolated value. (Proved for linear, for natural cubic from four points on, for Catmull-Rom up to the last knot but one; refuted on Catmull-Rom's last cell and for natural cubic with three points.)",
  "every grid, s and query in range", "continuous data of any length",
  [IN+"linear.rs", IN+"spline/catmull_rom.rs", IN+"spline/natural_cubic.rs"])
p("interpolation does not depend on the unit of the abscissa",
  "Replacing every abscissa and the query x by k*x + o with k > 0 leaves the interpolated value unchanged.",
  "every grid, k > 0, o and query in range", "continuous data of any length",
  [IN+"linear.rs", IN+"spline/catmull_rom.rs", IN+"spline/natural_cubic.rs"])
p("interpolation is local",
  "The value between two knots depends only on these two points (linear, Hermite) or on them and one neighbour on each side (Catmull-Rom). (Not so for natural cubic, whose value depends on distant points too: counterexample proved.)",
  "every two grids that agree there, whatever their other points", "unbounded grids",
  [IN+"linear.rs", IN+"spline/hermite.rs", IN+"spline/catmull_rom.rs"])
p("a parallel shift of the yields scales the discount factors",
  "If every yield is raised by sh then every discount factor DF(d1,d2) that exists is multiplied by exp(-sh*(t2-t1)). (Proved for linear, for natural cubic from four maturities on, and for Catmull-Rom up to the last maturity but one; refuted for Catmull-Rom beyond.)",
  "every curve, shift and pair of dates", "continuous market data", [YC+"::YieldCurve::discount_factor"])
p("bond values fall when yields rise",
  "Raising all yields by sh >= 0 does not raise the discounted value of a bond with non-negative payments; it lowers it if sh > 0 and some positive payment is still to come. (Linear, Catmull-Rom, and natural cubic from four maturities on; refuted for natural cubic with three maturities.)",
  "every bond, valuation date, curve and shift; Act/360 and Act/365", "unbounded schedules, continuous market data",
  ["crates/qlab-instrument/src/bond.rs::Bond::discounted_value", YC+"::YieldCurve::discount_factor"])
p("discount factors stay between those of the extreme yields",
  "With linear interpolation and yields between lo and hi, DF(settlement,d) lies between exp(-hi*t) and exp(-lo*t); so it is at most 1 if yields are non-negative. (Not so for forward factors DF(d1,d2), which can exceed 1 although all yields are positive, nor for natural cubic, which undershoots: counterexamples proved.)",
  "every curve and date", "continuous market data", [YC+"::YieldCurve::discount_factor"])
p("bond values stay between those at the extreme yields",
  "With linear interpolation and yields between lo and hi, the discounted value at the settlement date lies between the sums of the open payments discounted at hi and at lo.",
  "every bond, curve and bounds; Act/360 and Act/365", "unbounded schedules, continuous market data",
  ["crates/qlab-instrument/src/bond.rs::Bond::discounted_value"])
p("Unadjusted adds the period and nothing else",
  "checked_roll(Days n / Months n / Years k, calendar, Unadjusted) is the date exactly n days later, n months later with the day clamped, k years later with 29 February clamped; None exactly when out of range; the calendar is not asked, even if asking it would panic.",
  "every date, period and calendar", "all dates and periods, arbitrary calendars",
  [DATE+"::Date::checked_roll", "crates/qlab-time/src/period/days.rs", "crates/qlab-time/src/period/months.rs", "crates/qlab-time/src/period/years.rs"])
p("order of the rolling conventions",
  "Preceding and Following enclose the unadjusted date with no open day strictly between; both are monotone in the unadjusted date; the modified conventions choose one of the two; rolling a result again leaves it. (The modified conventions are not monotone, a later date can roll to an earlier day: counterexample proved.)",
  "every date, period and calendar", "all dates, arbitrary calendars", [DATE+"::Date::checked_roll"])
ALL=[IN+"linear.rs", IN+"spline/hermite.rs", IN+"spline/catmull_rom.rs", IN+"spline/natural_cubic.rs"]
p("every floating-point query is answered",
  "With sorted abscissas free of NaN (infinities allowed), each interpolation in floating point answers every query: NaN and queries below the first abscissa give OutOfLowerBound, queries above the last OutOfUpperBound, all others a value; there is no panic.",
  "every binary floating-point format, grid and query", "all floats including NaN, infinities and signed zeros", ALL)
p("order check in floating point",
  "With NaN-free abscissas, Hermite, Catmull-Rom and natural cubic accept points exactly when no abscissa is smaller than an earlier one. (Counterexamples proved outside this scope: NaN abscissas hide unsorted points, as in 1, NaN, 0; repeated abscissas are accepted and give NaN.)",
  "every binary floating-point format and list of points", "all floats, unbounded lists", ALL[1:])
p("Hermite interpolation meets its points exactly in floating point",
  "At each abscissa of strictly increasing finite points the value is exactly the ordinate, despite rounding, if the widths and slope*width do not overflow. (Not so for linear, Catmull-Rom and natural cubic, where the ordinate can be lost altogether: counterexamples proved.)",
  "every binary floating-point format with two or more bits, points and slopes", "rounding of all floats", ALL)
p("error of linear interpolation in floating point",
  "Between two finite points whose differences do not overflow, the computed value differs from the exact value L of the line by at most u*|L| + 6u*|y1-y0| plus a multiple (x - x_i + 1) of the least positive number, u being the unit roundoff.",
  "every binary floating-point format with eight or more bits, increasing finite points, and query in range", "rounding of all floats",
  [IN+"linear.rs"])
p("linear interpolation in floating point is monotone",
  "Between two neighbouring points with y0 <= y1 the computed value does not fall as x grows. (Not so over several cells: for (0,0),(7,29),(8,29) the value at 7 in binary64 exceeds 29.)",
  "every binary floating-point format, grid and pair of queries in one cell", "rounding of all floats",
  [IN+"linear.rs"])
p("the text of a date",
  "Date::to_string is year-month-day with two digits for month and day, four for the years 0 to 9999, and a sign and four digits, or more only where needed, for other years; different dates have different texts; in the years 0 to 9999 sorting texts sorts dates. (Refuted from year 10000 on.)",
  "every date", "all dates", [DATE+"::Date::fmt"])
p("the text of an error",
  "The text of an error tells which error it is; the text of a rejected 30/360 count or discount factor query tells the dates and the rule that was broken, and puts each date after its own label; the text of a failed conversion of a day count names the number of days; the text of an interpolation error tells the error and its number. Too few points, unsorted points, a query out of range and lists of different lengths are reported with the texts of the source, naming the number of points or the query. (Refuted for QLabError in general: a cast error and an input error can read the same if messages are arbitrary; the library's own cast messages have no space and are covered.)",
  "all errors, dates, curves and number types", "unbounded texts",
  ["crates/qlab-error/src/lib.rs", "crates/qlab-time/src/day_count/thirty_360.rs", YC+"::YieldCurve::discount_factor"])
p("float curves from ordered maturities",
  "In f64 and in exact arithmetic, with Act/360 or Act/365 and maturities in order (repetitions allowed; at least two for linear, three for the splines), building a curve succeeds whatever the yields. DF(d1,d2) then has a value exactly when d2 lies between the first and last maturity and d1 does too or is the settlement date; otherwise it is InterpolationFailed. Out of order, the splines fail with InterpolationFailed. There is no panic.",
  "every settlement date, list of maturities, yields (NaN and infinities included) and pair of dates from settlement on", "all dates and floats, unbounded lists",
  [YC+"::YieldCurve::new", YC+"::YieldCurve::discount_factor"])
p("a float discount factor from a date to itself is exactly 1",
  "DF(d,d) is exactly 1 in floating point if exp is 1 at both zeros and time times yield is finite. (Not so on overflow: finite yields of 2^1023 at two years give NaN, proved.)",
  "every binary floating-point format, curve and date where the curve has a value", "rounding of all floats",
  [YC+"::YieldCurve::discount_factor"])
p("valuation dates fit together",
  "The value of a bond at s1 is the value of its flows due in (s1,s2] plus DF(s1,s2) times its value at s2; if nothing is due in between it is DF(s1,s2) times the value at s2.",
  "every bond, curve with exact arithmetic, and pair of dates where the factors exist", "unbounded schedules, all reals",
  [BO+"::Bond::discounted_value", YC+"::YieldCurve::discount_factor"])
p("the coupon rate enters linearly",
  "Whether a bond can be built and its due dates do not depend on the coupon rate. Each amount is affine in the rate with a non-negative slope; the value of the bond is A + K*rate with K >= 0 and A the discounted face (0 if it has matured). With face > 0, maturity after the penultimate date and settlement before maturity, every price belongs to exactly one rate, and a higher rate is a higher price.",
  "every bond specification, rate and curve of exact arithmetic with positive factors", "unbounded schedules, all reals",
  [BO+"::Bond::new", BO+"::Bond::discounted_value"])
p("30/360 in binary64",
  "Where the count is defined, the f64 fraction is finite and the exact fraction rounded once. From one start date a later date never gives a smaller fraction; fractions are equal only for the 30th and 31st of one month.",
  "every triple of dates and both overflow settings", "all dates, rounding",
  [DC+"/thirty_360.rs"])
p("actual day counts in binary32",
  "Up to 2^23 days the f32 fraction of Act/360 and Act/365 is finite and the exact quotient rounded once, and different dates have different fractions, in order. Between any two dates it is finite, the number of days and the quotient each rounded once, and a later date never has a smaller fraction. (Strict order refuted further apart: from 0001-01-01, 40000-01-01 and 40000-01-02 give the same fraction.)",
  "every triple of dates", "all dates, rounding",
  [DC+"/act_360.rs", DC+"/act_365.rs"])
p("interpolation is stable under changes of the ordinates",
  "If every ordinate moves by at most eps, linear interpolation moves by at most eps and Catmull-Rom by at most 2 eps, and by at most 7/5 eps up to the last knot but one; Hermite moves by at most eps plus a quarter of the widest cell times the change of the slopes; natural cubic by at most (1+3r^2) eps, r being the ratio of the widest to the narrowest cell. (7/5 is refuted on the last cell of Catmull-Rom, and no constant below 2 does for the whole range.)",
  "all increasing points, perturbations and queries in range, exact arithmetic", "all reals, unbounded lists",
  [IN+"linear.rs", IN+"spline/catmull_rom.rs", IN+"spline/hermite.rs", IN+"spline/natural_cubic.rs"])
p("interpolation stays near the range of its data",
  "Catmull-Rom leaves the range of the up to four ordinates around a cell by at most a fifth of that range, up to the last knot but one, and is at most twice the largest ordinate everywhere; Hermite leaves the range of the two ordinates by at most a quarter of the cell width times the largest slope; natural cubic is at most (1+3r^2) times the largest ordinate and, with four points or more, leaves the range of the ordinates by at most 3/2 r^2 times that range, r being the ratio of the widest to the narrowest cell. (No bound by the range on the last cell of Catmull-Rom or for natural cubic through three points: both leave the range of constant ordinates.)",
  "all increasing points and queries, exact arithmetic", "all reals, unbounded lists",
  [IN+"spline/catmull_rom.rs", IN+"spline/hermite.rs", IN+"spline/natural_cubic.rs"])
p("discount factors and bond values are stable under changes of the yields",
  "If every yield moves by at most eps, DF(d1,d2) of a linear curve changes by a factor between exp(-eps(t1+t2)) and exp(eps(t1+t2)), of a Catmull-Rom curve with 2 eps, and with 7/5 eps up to the last maturity but one, of a natural cubic curve whose maturities are between g and k days apart with (1+3(k/g)^2) eps, and the value of a bond with non-negative flows by the factor of its longest flow.",
  "every curve of exact arithmetic with Act/360 or Act/365, dates, bond", "all reals, unbounded schedules",
  [YC+"::YieldCurve::new", YC+"::YieldCurve::discount_factor", BO+"::Bond::discounted_value"])
p("rising non-negative yields give falling discount factors",
  "With non-negative yields that do not fall along the maturities, a linear curve has DF(d1,d2) <= 1, and DF(d1,d) does not rise with d. (Not so for Catmull-Rom interpolation, which can fall between rising points: counterexample proved.)",
  "every curve of exact arithmetic with Act/360 or Act/365 and dates in range", "all reals, unbounded lists",
  [YC+"::YieldCurve::discount_factor"])
p("payment dates of a bond",
  "Each coupon before maturity is paid on its due date or at most two days later, and before the next one is due; with maturity at least two days after the penultimate date, no flow is paid before an earlier one. (Refuted otherwise: with the penultimate date on a Saturday and maturity on the Sunday the redemption is paid before the last coupon.)",
  "every bond specification that is accepted", "all dates, unbounded schedules",
  [BO+"::Bond::new"])
p("the schedule does not depend on the amounts",
  "Whether a bond is accepted, its id and all its dates are independent of the number type, coupon rate and face value.",
  "every bond specification and every two number types that represent all integers", "all dates, number types",
  [BO+"::Bond::new"])
p("error of a bond value in floating point",
  "A finite computed value of a bond differs from the exact sum of amount times computed factor by at most ((1+u)^(n+1)-1) times the sum of absolute values, plus an underflow term n*2^(2-emax-prec)*(1+u)^n; n is the number of flows. If the factors and amounts are not negative the value is not negative.",
  "every binary floating-point format, bond, curve and settlement date", "rounding of all floats, unbounded schedules",
  [BO+"::Bond::discounted_value"])
p("discount factors and bond values in binary64 against exact arithmetic",
  "With Act/360 or Act/365 and linear interpolation, maturities at least g days apart and at most M days away, yields of size at most Y and an exponential of relative error eps, every factor DF(d1,d2) computed in binary64 is within relative error (1+eps)exp(B)-1 of the factor of exact arithmetic, with B = 2^-53 Y ((19+16M/g)(t1+t2)+3); a finite computed bond value differs from the exact one by at most (1+2^-53)^(n+1) (1+eps) exp(B) - 1 times the value of the bond with absolute amounts, plus an underflow term.",
  "every curve with maturities in order, dates, bond, settlement date and exponential that is accurate on the range used", "rounding of all floats, unbounded lists",
  [DC, IN+"linear.rs", YC+"::YieldCurve::discount_factor", BO+"::Bond::discounted_value"])
p("error of Hermite and Catmull-Rom interpolation in floating point",
  "With increasing abscissas and a query in range, all up to 2^(emax-7) in size, and S at least the sizes of the numbers the cell uses (two ordinates and slope times width for Hermite, up to four ordinates for Catmull-Rom; S <= 2^(emax-7)), the computed value is finite and differs from the value of exact arithmetic by at most 280 (Hermite) or 310 (Catmull-Rom) times (2^-prec * S + 2^(2-emax-prec)).",
  "every binary format of eight or more bits, grid, ordinates, slopes and query", "rounding of all floats, unbounded lists",
  [IN+"spline/hermite.rs", IN+"spline/catmull_rom.rs"])
p("Catmull-Rom curves in binary64 against exact arithmetic",
  "With Act/360 or Act/365 and Catmull-Rom interpolation, maturities at least g days apart and at most M days away, yields of size at most Y and an exponential of relative error eps, every factor DF(d1,d2) computed in binary64 is within relative error (1+eps)exp(B)-1 of the factor of exact arithmetic, with B = 2^-53 2Y ((161+128M/g)(t1+t2)+3); a finite computed bond value differs from the exact one by at most (1+2^-53)^(n+1) (1+eps) exp(B) - 1 times the value of the bond with absolute amounts, plus an underflow term.",
  "every curve with maturities in order, dates, bond, settlement date and exponential that is accurate on the range used", "rounding of all floats, unbounded lists",
  [DC, IN+"spline/catmull_rom.rs", YC+"::YieldCurve::discount_factor", BO+"::Bond::discounted_value"])
p("error of natural cubic interpolation in floating point",
  "With at least three points whose abscissas increase by at least h, gaps, h and the ordinate bound Y all between 2^-L and 2^L, 9L+20 <= emax, and a query in range, fitting and evaluating a natural cubic gives a finite number that differs from the value of exact arithmetic by at most 4500 * 2^-prec * (w/h)^2 * Y; w is the width of the queried cell. The bound does not grow with the number of points.",
  "every binary format of twenty or more bits, grid, ordinates and query", "rounding of all floats, unbounded lists",
  [IN+"spline/natural_cubic.rs", TD])
p("natural cubic curves in binary64 against exact arithmetic",
  "With Act/360 or Act/365 and natural cubic interpolation, maturities g to r*g days apart and at most M days away, yields of size at most Y and an exponential of relative error eps, every factor DF(d1,d2) computed in binary64 is within relative error (1+eps)exp(B)-1 of the factor of exact arithmetic, with B = 2^-53 4r^2 Y ((1130+3375M/g)(t1+t2)+3); a finite computed bond value differs from the exact one by at most (1+2^-53)^(n+1) (1+eps) exp(B) - 1 times the value of the bond with absolute amounts, plus an underflow term.",
  "every curve with maturities in order, dates, bond, settlement date and exponential that is accurate on the range used", "rounding of all floats, unbounded lists",
  [DC, IN+"spline/natural_cubic.rs", YC+"::YieldCurve::discount_factor", BO+"::Bond::discounted_value"])
p("accuracy of interpolation",
  "When the points are taken from a function f, the interpolated value is within L*w/2 (f changes by at most L per unit) or M*w^2/8 (second derivative at most M) of f for linear, M*w^4/384 (fourth derivative at most M) for Hermite, 7/8*M*w^2 or (1/2+3/2*w/h)*L*w for natural cubic and 14/5*L*w for Catmull-Rom, w the width of the cell, h the smallest width. Splines: natural cubic from four points on and Catmull-Rom up to the last knot but one; outside that they do not converge.",
  "every grid, function with the stated bound, and query in range", "all functions, unbounded grids",
  [IN+"linear.rs", IN+"spline/hermite.rs", IN+"spline/catmull_rom.rs", IN+"spline/natural_cubic.rs"])
p("accuracy of curves and bonds",
  "With Act/360 or Act/365 (K days a year), settlement s and quotes of a yield function f at maturities at most G days apart, every factor DF(d1,d2) is within a factor exp(k*(t1+t2)) of exp(t1*f(t1)-t2*f(t2)), with k = L*(G/K)/2 or M*(G/K)^2/8 for linear, 7/8*M*(G/K)^2 for natural cubic and 14/5*L*G/K for Catmull-Rom; bond values on linear curves likewise. Splines: natural cubic from four quotes on and Catmull-Rom up to the last maturity but one; at the last maturity a flat yield is taken for 4/3 of it.",
  "every yield function with the stated bound, list of quotes, dates and bond", "all functions, unbounded lists",
  [DC, YC+"::YieldCurve::discount_factor", BO+"::Bond::discounted_value"])
p("one spread for each price",
  "On a curve (linear, Catmull-Rom, or natural cubic from four maturities on) that values a bond with something still to come, no negative flow and none paid before it is due, every price above zero is the value of the bond for exactly one parallel shift of the yields; a higher shift is a lower price. Bonds as built, with first coupon not before issue, maturity not before the penultimate date, rate >= 0 and face > 0, are of this kind before maturity.",
  "every curve of exact arithmetic with Act/360 or Act/365, bond, settlement date and price", "all reals, unbounded schedules",
  [YC+"::YieldCurve::new", YC+"::YieldCurve::discount_factor", BO+"::Bond::discounted_value", BO+"::Bond::new"])
p("duration and convexity",
  "The value of such a bond is convex in a parallel shift h of the yields. On linear curves and natural cubic ones of four maturities or more it has slope -D at h=0 and lies between v-hD and v-hD+h^2/2*exp(|h|T)*C, where v is the value, D and C the sums of discounted flows times time and time squared to payment, and T the longest time.",
  "every curve of exact arithmetic with Act/360 or Act/365, bond, settlement date and shift", "all reals, unbounded schedules",
  [YC+"::YieldCurve::discount_factor", BO+"::Bond::discounted_value"])
p("sums of curves and changes of single yields",
  "If the yields of a curve are a times those of a second plus b times those of a third on the same maturities, its discount factors are DF2^a * DF3^b. Changing one yield leaves alone all factors between dates, and all bonds paying on dates, that are not between the neighbouring maturities (linear) or within two maturities (Catmull-Rom) of the changed one. Raising yields on a linear curve makes no factor from settlement greater and no bond dearer on the settlement date; on a Catmull-Rom curve it can.",
  "every curve of exact arithmetic with Act/360 or Act/365, list of yields, pair of dates and bond", "all reals, unbounded lists",
  [YC+"::YieldCurve::new", YC+"::YieldCurve::discount_factor", BO+"::Bond::discounted_value"])
p("curves against exact arithmetic in every binary format",
  "In every binary format with at least 24 significant bits and exponents up to at least 128, binary32 among them, with Act/360 or Act/365, maturities at least g days apart and at most M days from settlement, yields of size at most Y and an exponential of relative error eps, the computed factors are within relative error (1+eps)exp(B)-1 of those of exact arithmetic, with B = 2^-prec Y ((19+16M/g)(t1+t2)+3) for linear, 2^-prec 2Y ((161+128M/g)(t1+t2)+3) for Catmull-Rom and 2^-prec 4r^2 Y ((1130+3375M/g)(t1+t2)+3) for natural cubic with gaps up to r*g days; finite computed bond values likewise. Dates lie within 2^(prec-1) days of settlement, M/g is at most 2^(prec-11), 2^(prec-15) or 2^(prec-18), and Y is away from overflow and underflow.",
  "every such format, curve with maturities in order, dates, bond, settlement date and exponential that is accurate on the range used", "rounding of all floats of all formats, unbounded lists",
  [DC, IN+"linear.rs", IN+"spline/catmull_rom.rs", IN+"spline/natural_cubic.rs", YC+"::YieldCurve::discount_factor", BO+"::Bond::discounted_value"])
p("distance between the day counts",
  "Between dates n days apart, in order, every answer of 30/360 is within 3863/292194 of a year (4.83 days) of n mean Gregorian years of 146097/400 days, however far apart the dates; it exceeds Act/360 by at most 2/360 and Act/365 by at most 17/2190 of a year; Act/360 times 360 is Act/365 times 365. Over n added months it is n/12, less at most 2/360 when the day was cut to fit February. Each bound is met by some pair of dates.",
  "every pair of dates and build mode in which 30/360 answers, every number of months", "all dates of half a million years, unbounded numbers of months",
  [DC])
p("day counts in every binary format",
  "In every binary format with at least 9 significant bits and exponents up to at least 32, binary32 and binary64 among them, Act/360 and Act/365 between any two dates, and 30/360 between dates in order, are finite, within relative error (2+u)u of the exact fraction with u = 2^-prec, and the exact fraction rounded once up to 2^prec days. A later date never has the smaller fraction; closer than 2^(prec-1) days only the same date (under 30/360 also the 30th and 31st of a month) has the same. Act/360 and Act/365 change sign when the dates change places.",
  "every such format and pair of dates", "rounding in all formats, all pairs of dates",
  [DC])
p("interpolation and the shape of the data",
  "Linear interpolation of data whose segments do not lose slope is convex, and never steeper than the steepest segment. A Hermite spline does not fall if every slope lies between 0 and three times that of each neighbouring segment (three is the largest such factor), and is convex if over every segment of slope D the end slopes m0, m1 satisfy 2*m0+m1 <= 3*D <= m0+2*m1. Natural cubic keeps neither rising nor convex shape, Catmull-Rom not the convex one: counterexamples of five points.",
  "every list of points with increasing abscissas and every query in range", "all reals, unbounded lists",
  [IN+"linear.rs", IN+"spline/hermite.rs", IN+"spline/catmull_rom.rs", IN+"spline/natural_cubic.rs"])
p("flattest and least bent curves",
  "Among the curves through the points that are continuous and differentiable between neighbouring points, linear interpolation has the least integral of the squared slope, and is the only one that reaches it. Among the curves with the given values and slopes and a second derivative between neighbouring points, a Hermite spline has the least integral of the squared second derivative, and is the only one that reaches it. A natural cubic spline is the least bent curve through its points whenever its answers are differentiable at the interior points, and not in general: a counterexample of four points.",
  "every list of points with increasing abscissas and every competing curve", "all reals, unbounded lists, all functions",
  [IN+"linear.rs", IN+"spline/hermite.rs", IN+"spline/natural_cubic.rs"])
p("reach of a single point in a natural cubic",
  "Raising one ordinate by e changes the value of a natural cubic spline through at least four points in a cell of width w, with d cells between it and the two that meet at the point, by at most (w/h)^2*|e|/2^d, h the smallest width; on a yield curve with Act/360 or Act/365 the logarithm of the discount factor from settlement changes by at most the year fraction times that. Up to the third point from the end the answers do not depend on the last point at all.",
  "every list of at least four points with increasing abscissas, every point changed and query; every such curve and date", "all reals, unbounded lists and distances",
  [IN+"spline/natural_cubic.rs", "crates/qlab-math/src/linear_algebra/tridiagonal_matrix.rs", YC+"::YieldCurve::discount_factor"])
p("mirrored points",
  "Linear interpolation through points reflected in a vertical line gives the reflected answers, and so does a Hermite interpolator whose slopes change sign. A natural cubic does when its answers have a derivative at every interior point for both sets of points. In general neither spline has this symmetry: there are four points where a natural cubic, and four where a Catmull-Rom spline, answers differently for the reflected points.",
  "every list of points with increasing abscissas, every line of reflection and query in range", "all reals, unbounded lists; the asymmetry shows only for some data",
  [IN+"linear.rs", IN+"spline/hermite.rs", IN+"spline/natural_cubic.rs", IN+"spline/catmull_rom.rs"])
p("adding a point already on the curve",
  "Adding a point that a linear interpolator already passes through changes none of its answers or errors, and so for a Hermite interpolator when the added slope is the derivative there, and for a natural cubic through at least four points when its answers have a derivative at every interior point. A maturity added to a linear curve with Act/360 or Act/365 at the yield it already gives changes no discount factor, between any two dates, and no bond value. Neither spline has this property in general: there are points already on a natural cubic, and on a Catmull-Rom spline, whose addition changes another answer.",
  "every list of points with increasing abscissas, every added point on the curve and every query; every such curve, pair of dates and bond", "all reals, unbounded lists and cash flows; the failures show only for some data",
  [IN+"linear.rs", IN+"spline/hermite.rs", IN+"spline/natural_cubic.rs", IN+"spline/catmull_rom.rs", YC+"::YieldCurve::discount_factor", BO+"::Bond::discounted_value"])
p("what more holidays do to dates and counts",
  "If every business day of one calendar is a business day of another, then rolling a date forward by the first never ends earlier than by the second, rolling back never ends later, the last business day of a month is never later, and a count of business days between two ordered dates, with the same choice of ends, is never larger. Rolling forward by the two gives the same date exactly when the date reached by the calendar with fewer holidays is a business day of the other. A joint calendar therefore rolls at least as far as each of its members, and its count is at most the count of each of two members and at least their sum less the days between the dates.",
  "every pair of calendars so related, every date and period; every nest of joint calendars", "arbitrary calendars, all dates",
  [DATE+"::Date::checked_roll", CA+"/lib.rs::Calendar::end_of_month", CA+"/lib.rs::Calendar::business_days_between", CA+"/jointcalendar.rs"])
p("which calendars contain which",
  "Among all shipped calendars, one has every holiday of another in exactly the listed cases. Two have the same business days exactly when they are the same market, a default and its named market, two markets of the United Kingdom, Frankfurt and Xetra, or Paris and Eurex. Otherwise the containments are: TARGET in Paris and both in the exchanges of Austria and Italy and in Sweden; Frankfurt in Paris, the Austrian and Italian exchanges, Sweden, Slovakia, Finland, German settlement and Euwax; Euwax in the Austrian exchange and German settlement; ASX in Australian settlement, TSX in Canadian settlement, Brazilian settlement in its exchange; Libor in United States settlement; NERC in the Federal Reserve, NYSE, government bond, SOFR and settlement calendars; the Federal Reserve in the government bond, SOFR and settlement calendars; government bond in SOFR; and weekends in all but Israel and the Russian exchange. Where a calendar contains another, it rolls at least as far and counts no more business days.",
  "every pair of shipped calendars and every date", "all dates of all pairs of 70 calendars",
  [CA+"/*.rs", DATE+"::Date::checked_roll", CA+"/lib.rs::Calendar::business_days_between"])
p("flat curves and the yield to maturity",
  "A curve with Act/360 or Act/365 (K days a year) and the same yield y at every maturity answers DF(d1,d2) = exp(-y*days(d1,d2)/K), whatever its settlement date and maturities, for every d1 that is the settlement date or not before the first maturity and every d2 between the first and the last maturity: linear curves, natural cubic ones of four maturities or more, and Catmull-Rom up to the last maturity but one. A bond is then worth the sum of its open amounts times these factors, and grows by exp(y*days/K) while nothing falls due. For a bond with something still to come, no negative flow and none paid before it is due, every price above zero belongs to exactly one flat yield, and a higher yield is a lower price. The first claim fails at the last maturity of a Catmull-Rom curve and for a natural cubic of three maturities.",
  "every yield, settlement date, list of maturities, pair of dates and bond", "all reals, unbounded lists and dates",
  [YC+"::YieldCurve::new", YC+"::YieldCurve::discount_factor", BO+"::Bond::discounted_value"])
p("yields from discount factors and bond prices",
  "For maturities after the settlement date, act/360 or act/365 and linear, natural cubic or Catmull-Rom interpolation: numbers are the discount factors from the settlement date to the maturities of some curve exactly when they are all positive; the yields of that curve are then unique, and each is smaller exactly when its own factor is greater, whatever the other factors are. The yield is minus the logarithm of the factor over the time, except for the last yield of a Catmull-Rom curve (refuted). Likewise two curves on which each bond of a ladder (one bond per maturity, paying only at maturities up to its own, where its payment is not zero) has the same value have the same yields. A maturity on the settlement date leaves its yield undetermined (refuted).",
  "all settlement dates, all ordered lists of maturities after them, all lists of factors, all ladders of bonds, all pairs of lists of yields, over the real numbers", "Uniqueness speaks of all pairs of curves at once, and existence of factors chosen freely; a test can only recover the yields it started from.",
  [YC+"::YieldCurve::new", YC+"::YieldCurve::discount_factor", BO+"::Bond::discounted_value"])
with open("/verif/properties.jsonl","w") as f:
    for o in P: f.write(json.dumps(o)+"\n")
print(len(P))
