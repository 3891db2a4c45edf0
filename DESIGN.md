# Formal model of qlab in Rocq (Coq 8.16.1)

The source in `/repo` is modelled as text; nothing was built or run.
All Coq files are in `rocq/theories` (logical prefix `Verif`).

## How the code is modelled

* **Outcomes.** `M A = Ret a | Panic | OutOfFuel` (`Base.v`). `Option` and `Result` are data inside `M`.
  `Panic` stands for every Rust panic (failed `unwrap`, index out of bounds, checked overflow).
  `OutOfFuel` is only for `while` loops; theorems exclude it, which is the termination claim.
* **Build profile.** Integer overflow depends on the build: `build = Checked` (overflow checks on, debug
  profile) or `Wrapping` (release). Functions whose arithmetic can overflow take a `build` argument.
* **chrono 0.4.38** is not in `/repo`. `Chrono.v` models the functions that qlab calls by their documented
  contract on a (year, month, day) record. This is part of the trusted base.
* **Numbers.** The `Value` trait is a record of operations (`Value.v`); the numeric code is written once over
  that record. It is instantiated with the real numbers (`RealValue.v`, exact statements) and with Flocq's IEEE
  binary formats (`FloatValue.v`, statements about `f64`, `f32` or every binary format). `exp` for floats is an arbitrary function. Real-number
  theorems say what the formulas compute before rounding; they are not claims about rounded results.
* **nalgebra** products are left-to-right sums of products (what its `gemv`/`gemm` loops compute for these sizes).
* **Traits** (`Calendar`, `Period`, `DayCount`, `Interpolator`) are records/functions over which theorems quantify.
* **Text.** `Display` of dates and errors is modelled as strings (`TextModel.v`, `ErrorText.v`); chrono's format of a date
  is part of its contract. `Display` of floats is a parameter.
* **Calendars** were translated mechanically by `tools/gen_calendars.py` from the Rust text; the generated
  `Calendars.v` is committed and each definition cites its source lines. `CalCore.v` holds the same functions
  with day, weekday, month, year, day of year and the two Easter entries as arguments; they are proved equal to
  the model (`country_core_eq`, `country_core_free`), so nothing about them is trusted.

## What is modelled, and where

| code | model | specification | proofs |
|---|---|---|---|
| chrono calls | `Chrono.v` | `Gregorian.v` (month lengths, next day, order) | `DateFacts.v` |
| `qlab-time` date.rs, period, rolling | `DateModel.v` | `Gregorian.v` | `PropsDate.v`, `PropsBounds.v`, `PropsRoll.v`, `PropsPeriod.v`, `PropsMoreHolidays.v` |
| `qlab-time` day counts | `DayCountModel.v` | in the statements | `PropsDayCount.v`, `PropsDayCountFloat.v`, `PropsDayCountF32.v`, `PropsDayCountAny.v`, `PropsDayCountCompare.v` |
| `qlab-math` interpolation, tridiagonal matrix | `InterpModel.v` | in the statements (knots, derivatives, rows of A x = b) | `Piecewise.v`, `Grid.v`, `InterpFacts.v`, `PropsLinear.v`, `PropsLinearFloat.v`, `PropsFloat.v`, `PropsFloatKnots.v`, `PropsFloatLinear.v`, `PropsHermite.v`, `PropsCatmullRom.v`, `TriFacts.v`, `PropsTri.v`, `NcFacts.v`, `PropsNaturalCubic.v`, `PropsShift.v`, `PropsStability.v`, `PropsNcStability.v`, `PropsSplineFloat.v`, `NcError.v`, `PropsNcFloat.v`, `PropsApprox.v`, `PropsShape.v`, `PropsEnergy.v`, `PropsFade.v`, `PropsMirror.v`, `PropsInsert.v` |
| `qlab-termstructure` yield curve | `CurveModel.v` | exponential identities | `PropsCurve.v`, `PropsCurveFloat.v`, `PropsRisk.v`, `PropsForward.v`, `PropsStability.v`, `PropsNcStability.v`, `PropsCurveError.v`, `PropsCurveErrorSpline.v`, `PropsCurveErrorNatural.v`, `PropsCurveErrorAny.v`, `PropsCurveApprox.v`, `PropsSpread.v`, `PropsBuckets.v`, `PropsFade.v`, `PropsInsert.v`, `PropsFlat.v`, `PropsStrip.v` |
| `qlab-instrument` bond | `BondModel.v` | months moved, lists of due dates | `PropsBond.v`, `PropsRisk.v`, `PropsValuation.v`, `PropsPayments.v`, `PropsBondFloat.v`, `PropsStability.v`, `PropsCurveError.v`, `PropsCurveErrorSpline.v`, `PropsCurveErrorNatural.v`, `PropsCurveErrorAny.v`, `PropsCurveApprox.v`, `PropsSpread.v`, `PropsBuckets.v`, `PropsInsert.v`, `PropsFlat.v`, `PropsStrip.v` |
| `qlab-error`, `Display` of dates and errors | `TextModel.v`, `ErrorText.v` | decimal numerals, format of a date | `PropsText.v` |
| third-parties/calendar lib.rs, jointcalendar.rs | `CalLib.v`, `EasterTables.v` | `CalSpec.v` (Easter from the church rules, feasts, n-th weekdays) | `CalFacts.v`, `PropsCalLib.v`, `PropsEaster.v`, `PropsMoreHolidays.v` |
| third-parties/calendar, the countries | `Calendars.v`, `CalCore.v` | `HolidayRules.v`, `HolidayTables.v`, `HolidayDates.v` (holiday rules, the rules and announced dates of each calendar) | `PropsCountries.v`, `HolidayCheck.v`, `PropsHolidays.v`, `YearSweep.v`, `Gaps.v`, `PropsGaps.v`, `PropsCompare.v` |

Not modelled: `Debug` (except inside error texts) and `Hash` output, the text of floats, allocation, benches, tests,
timing, `serde`-style derives; `chrono` and `nalgebra` internals.

## How the calendar theorems are proved

* Easter: the two tables are compared with the ecclesiastical rules (`CalSpec.v`) for each of the 299 years.
* Exact closing days (C66): the body of a calendar and its list of holiday rules are both read as formulas over
  day, weekday, month, year, day of year and the Easter entries. `HolidayCheck.same` decides their equality by
  fixing month, weekday and day and then splitting on what is left. It is proved correct (`same_spec`); for
  calendars without Easter the result is extended to all years (`same_ageless`). The announced dates in
  `HolidayDates.v` are read off the Rust text by a second reader (`tools/gen_holiday_dates.py`), independent of the
  translator that writes `Calendars.v`; C66 thereby also checks the two readings against each other.
* Distance of business days (C57): a verified walk over all days from 1901 to 2199 per calendar.
* Containment between calendars (C117): the same formulas; one calendar has the holidays of another when the
  conjunction of the two is equal to the stricter one (`HolidayCheck.same`). Every other pair differs on one of 33
  dates, evaluated with the model itself.

The quantifier of C52, C57, C58, C59 and the Easter part of C66 is the range of the Easter tables, 1901 to 2199:
outside it the code panics (C53), so these statements cover every date for which the code answers.

## Disagreements between the code and its documentation or purpose

Every one of these is a theorem (the name follows). They were found while proving.

Dates
* `checked_add_years` on 29 February gives 28 February, the doc says None (`C09_doc_refuted`).
* `checked_add_years` overflows `i32` in builds with overflow checks (`C10_never_panics_refuted`).
* `weekend_roll` never rolls back at a month end (`C13_stays_in_month_refuted`).
* ModifiedFollowing/ModifiedPreceding compare with the month of the start date, not of the unadjusted date
  (`C17_modified_following_refuted`, `C18_modified_preceding_refuted`).
* A later start date can roll to an earlier day under ModifiedFollowing (`C77_modified_order_refuted`), a consequence.
* Thirty360 panics with overflow checks when month(d2) < month(d1) (`C22_never_panics_refuted`).

Interpolation
* Linear: one-point grid panics (`C25_never_panics_refuted`), no flat extrapolation on the right
  (`C26_flat_right_refuted`), knots are not hit exactly in f64 (`C27_other_points_refuted`).
* Hermite: empty input panics, too few points accepted (`C29_*_refuted`).
* Catmull-Rom: wrong at the last knot (`C30_last_knot_refuted`), lines not reproduced (`C31_lines_refuted`),
  not differentiable at knots (`C32_differentiable_refuted`).
* Adding a constant to all ordinates does not add it to the value: Catmull-Rom on the last cell (`C69_catmull_rom_refuted`,
  exact error in `C69_catmull_rom_last_cell`), natural cubic with three points (`C69_three_points_refuted`).
* In floating point: NaN abscissas hide unsorted points (`C79_nan_refuted`), repeated abscissas are accepted and give NaN
  (`C79_repeated_refuted`), and the splines other than Hermite miss their own points (`C80_natural_cubic_refuted`,
  `C80_catmull_rom_refuted`, where the value is 0 at a point with ordinate 1).
* Catmull-Rom leaves the range of constant ordinates on the last cell, and changes of the ordinates are amplified there
  (`C92_last_cell_refuted`, `C91_last_cell_refuted`), and so are changes of the yields of a curve
  (`C93_last_cell_refuted`). The natural cubic through three points leaves the range of equal ordinates
  (`C92_three_points_refuted`). Between rising points it can fall (`C94_catmull_rom_refuted`), a
  feature of the method.
* Catmull-Rom does not converge to the function in the last cell (`C103_last_cell_refuted`), is of first order only
  elsewhere (`C103_catmull_rom_order`), and takes a flat yield for 4/3 of it at the last maturity of evenly spaced quotes
  (`C104_last_maturity_refuted`, `C118_last_maturity_refuted`). A natural cubic through three points of a constant is off by 3/32 of it at any width
  (`C103_three_points_refuted`).
* Linear interpolation in f64 is monotone within a cell but can overshoot the next point (`C82_grid_refuted`).
* Thomas solver: row n-2 of the back substitution is skipped (`C38_solution_refuted`). Consequences for the natural
  cubic spline: `C35_smooth_refuted`, `C36_lines_refuted` for three points, and up to the third point from the end
  the answers ignore the last point (`C113_last_point`).

Curve and bond
* DF(settlement, settlement) is an error when the first maturity is later (`C44_settlement_refuted`).
* The last maturity of a Catmull-Rom curve is not repriced (`C64_catmull_rom_refuted`).
* A parallel shift of the yields moves Catmull-Rom factors by the wrong amount (`C72_catmull_rom_refuted`).
* With a natural cubic curve of three maturities a bond can gain value when all yields rise (`C73_three_points_refuted`).
* Raising a single yield of a Catmull-Rom curve can raise a discount factor from settlement (`C107_catmull_rom_refuted`).
* In f64 a discount factor from a date to itself is NaN if time times yield overflows (`C86_overflow_refuted`).
* Forward factors above 1 are produced from positive yields (`C74_forward_refuted`); natural cubic curves leave the range
  of the input yields (`C74_natural_cubic_refuted`). Both are features of the method rather than slips.
* Bond::new panics on an empty schedule (`C48_never_panics_refuted`), the maturity payment is not rolled off weekends
  (`C49_final_refuted`), due dates drift from month ends (`C65_month_ends_refuted`), and the first coupon is negative
  if issue is after the first coupon date (`C47_sign`).
* The redemption can be paid before the last coupon (`C95_maturity_refuted`).

* Dates before the settlement date are rejected with the text "exceeds settlement date"; the doc of `discount_factor` says
  d1 = d2 is rejected too, but only d2 < d1 is (`C84_case`, `C41_rejects`).
* Texts of dates sort like dates only up to year 9999 (`C83_sorted_refuted`).

Calendars
* Easter calendars panic outside 1901-2199 (`C53_never_panics_refuted`), Thailand among them, which never uses the value.
* Israel opens on Sundays, Russia's exchange on nine weekend days (`C54_weekends_closed_refuted`).
* The order of a joint calendar matters when one of the two panics (`C56_order_refuted`).
* France fixes Ascension and Whit Monday at 10 and 21 May (`C58_france_refuted`); Ukraine uses western Easter
  (`C58_ukraine_refuted`).
* `last_day_of_month` panics in year 262142 (`C61_last_day_panics`).
* `include_first` is inverted and equal dates panic (`C63_include_first_refuted`).
* Holidays announced year by year stop: Indonesia after 2014, Thailand after 2018, Russia after 2020, China after 2023
  (`C67_announced_years`); later years are treated as if there were none.
* Visible in the tables of C66: China closes on 9 June and 15 September in every year up to 2008; Argentina closes on 24 but not on 25 December; the New York exchange's election day is the
  first Tuesday of November, not the Tuesday after the first Monday; `federal_reserve_is_holiday` is the opposite of its name.

## Tests of the model

`RepoTests.v` and `RepoCalendarTests.v` (written by `tools/gen_tests.py`) run every test in `/repo` on the model, with the
answers expected by the authors of the code: dates, day counts, splines, discount factor, and for 40 calendars each day of a
year. The integration test `crates/qlab/tests/calculate_bond.rs` prints 1314.5577192000126; the model in binary64, with
an exponential accurate to the last bit, computes exactly this double (`test_calculate_bond`). These are examples, not proofs;
they support the reading of the source that the theorems rest on.

## Trusted base

* Coq's kernel, including its virtual machine (`vm_compute`, `vm_cast_no_check` casts are re-checked at `Qed`).
* The axioms listed by `Print Assumptions`, per theorem in `ASSUMPTIONS.md` (written by `tools/assumptions.py`).
  They are all from the standard library: `ClassicalDedekindReals.sig_forall_dec`,
  `ClassicalDedekindReals.sig_not_dec` and `functional_extensionality_dep` (real numbers), and `Classical_Prop.classic`
  (Flocq, for the floating-point theorems; also some theorems of C64, C72-C75, C93, C94, C103-C107,
  C111-C113, C115, C118 and C119). All theorems on dates, calendars and schedules are closed under the global context.
* The contract of chrono in `Chrono.v`, nalgebra's products, and the reading of the Rust source recorded in the comments.

## Mutation tests

`seeded/LOG.jsonl` records wrong programs tried in a scratch copy: the definition edited, the edit, the claim it was
aimed at, and what was seen.

* `theorems_failed` lists the statements, claims and lemmas alike, whose proofs were seen to fail.
* `depending_on_failed` lists the claims whose proofs use one of these, found by name in the sources. They were not
  compiled against the edit.
* `claim_instances_false` lists claims that become false at a concrete instance under the edit (see below).
* `outcome` sums it up. Of 1782 edits, a claim was seen to fail for 421. For 1155 only a lemma or an example was, and the
  run stopped there. 170 did not type-check, so that no theorem was tried. Nothing failed for 36; each of these has a
  note, most of them saying why the edit changes nothing.

833 of the 1155 are edits of `Base`, `Chrono`, `DateModel`, `TextModel`, `Value`, `DayCountModel`, `InterpModel`,
`CurveModel` and `BondModel`. For these, fixed instances of the claims were evaluated on the edited model, with the
expected values computed apart from it. Numbers were rationals and the exponential was replaced by the identity, so
discount factors were compared by their exponents and `C50_sum` was tried with exponents in place of factors. The
generators of the instances are scratch files and not in this repository.

* For 780 of them an instance of some claim is false, so the edit contradicts that claim (for `C50_sum`, its form with exponents). The check of 10 of these was
  cut off by a time limit after the false instance.
* For 53 no instance tried was false. Each has a note. 34 seem to change nothing, which was read off the code and not
  proved: there the failed lemma shows only that its script depends on the text. 2 differ only by rounding and 17 concern
  the calendars, which the instances do not cover.
* One edit, A1294, moved the lower end of the 32-bit range, and C09 and C10 still compiled because they name the bounds
  through the model's `in_i32`. `C09_add_years_bounds` and `C10_add_years_panic_bounds` (`PropsBounds.v`) were added for
  it; they write the bounds as numbers, and both are false of the edited model. It is counted in the 780.

The other 322, mostly edits of calendars, were not evaluated in this way. The instances were made after the edits had been
run, and the second batch of them with the edits left over by the first in view, so 780 of 833 is not a rate to expect of
new edits.

What this shows is limited. A proof that fails is not a statement that became false: the script may depend on the text of
the definition. This matters least where the lemma is an exact check by computation (`core_rules`, 279 edits of calendars,
compares every calendar with its table of rules), and most for closed forms such as `cr_at` or `nc_step`. The automatic
runs stopped at the first failure on which a claim depends, so they do not say which claims would catch an edit.
In an earlier form of this log `theorems_failed` also held the depending claims, and counted edits that do not type-check.
