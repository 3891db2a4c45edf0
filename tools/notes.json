{
 "C08": "Proved as stated, including the failure for days 29-31 (C08_drift_refuted is the witness the statement mentions).",
 "C08:status": "proved",
 "C09": "Proved as stated; C09_doc_refuted shows that the doc comment's claim fails.",
 "C09:status": "proved",
 "C10": "True of wrapping builds; false with overflow checks (exact condition in C10_add_years_checked_panics).",
 "C13": "False: the code never rolls back (C13_never_rolls_back, all dates).",
 "C17": "False in general; what the code does is characterised by C17_actual, and agrees with the convention when date + period is in the start month.",
 "C18": "As C17.",
 "C22": "False with overflow checks (exact condition in C22_checked_panics); true in wrapping builds.",
 "C25": "False only for one-point grids at the point itself (C25_panics_iff).",
 "C26": "False beyond the last x; true at the last x.",
 "C27": "True at the first grid point; false elsewhere by rounding.",
 "C29": "The order check is proved; the two other parts are false.",
 "C30": "Proved for all knots but the last, where it is false (value given by C30_last_knot).",
 "C31": "Proved in the first interval; the deviations elsewhere are given exactly.",
 "C32": "False; the one-sided slopes are given exactly by C32_knot_slopes.",
 "C35": "Proved at all interior knots but the last two, where the exact jump is given.",
 "C36": "Proved for four or more points, false for three.",
 "C38": "All rows but the last two are proved; row n-2 holds exactly when upper[n-2]*x[n-1] = 0.",
 "C44": "Proved when the first maturity is at settlement; false otherwise.",
 "C48": "False; the exact condition for a panic is C48_panics_iff.",
 "C49": "Proved for all coupons but the final flow, where it is false.",
 "C53": "The exact condition for a panic is C53_panics_iff.",
 "C54": "Proved as stated; C54_weekends_closed_refuted shows that the exceptions are needed.",
 "C54:status": "proved",
 "C56": "Openness is proved symmetric, associative and idempotent. Which of two calendars panics first does depend on the order (C56_order_refuted), which the property does not speak about.",
 "C58": "Proved for the calendars that keep the feasts; false for the two named.",
 "C63": "False; the actual behaviour is proved for all dates.",
 "C64": "Proved for all maturities but the last.",
 "C65": "Proved for first coupons on the 28th or earlier; false otherwise, with the actual day of every due date in C65_days.",
 "C69": "Proved for linear, natural cubic from four points on and Catmull-Rom up to the last knot but one; false elsewhere, with the exact error of Catmull-Rom's last cell.",
 "C71": "Proved for the three interpolations named; C71_natural_cubic_refuted shows natural cubic cannot be added.",
 "C72": "Proved for linear, natural cubic from four maturities on, and Catmull-Rom up to the last maturity but one; false for Catmull-Rom beyond.",
 "C73": "Proved for linear, Catmull-Rom and natural cubic from four maturities on; false for natural cubic with three.",
 "C74": "Proved as stated; C74_forward_refuted and C74_natural_cubic_refuted show it cannot be widened.",
 "C77": "Proved as stated; C77_modified_order_refuted shows the modified conventions are not monotone.",
 "C79": "Proved as stated for abscissas free of NaN; the refuted theorems show what happens with NaN and repeated abscissas.",
 "C80": "Proved as stated for Hermite; the refuted theorems show the other interpolations fail.",
 "C82": "Proved within a cell as stated; C82_grid_refuted shows it fails across cells.",
 "C83": "Format and injectivity are proved for all dates, the order for the years 0 to 9999; false beyond.",
 "C84": "Proved for messages without spaces, which the library's own cast messages are; false for arbitrary messages.",
 "C86": "Proved as stated where time times yield is finite; C86_overflow_refuted shows the condition is needed.",
 "C90": "C90_strict_order_refuted marks the scope of the strict order; the weak order holds for all dates.",
 "C91": "Catmull-Rom within 2 eps on the whole range, within 7/5 eps up to the last knot but one; C91_last_cell_refuted marks that scope and C91_sharp shows that 2 is the best constant.",
 "C92": "C92_last_cell_refuted and C92_three_points_refuted mark the scope of the bounds by the range; the size bounds hold on the whole range for three points or more.",
 "C93": "Catmull-Rom with 2 eps for all dates, with 7/5 eps up to the last maturity but one; C93_last_cell_refuted marks that scope.",
 "C94": "Proved as stated for linear curves; C94_catmull_rom_refuted shows Catmull-Rom cannot be added.",
 "C95": "Order of all payments proved when maturity is at least two days after the penultimate date; false otherwise, since the redemption is not rolled off weekends.",
 "C56:status": "proved",
 "C71:status": "proved",
 "C74:status": "proved",
 "C77:status": "proved",
 "C79:status": "proved",
 "C80:status": "proved",
 "C82:status": "proved",
 "C86:status": "proved",
 "C90:status": "proved",
 "C91:status": "proved",
 "C92:status": "proved",
 "C93:status": "proved",
 "C94:status": "proved",
 "C103": "As stated: linear and Hermite on the whole range with sharp constants; the counterexamples mark the scope of the splines: three points of a constant are off by 3/32 at any width for natural cubic, and in the last cell of Catmull-Rom the value at the last knot does not converge. Catmull-Rom is only of first order (C103_catmull_rom_order).",
 "C104": "As stated: linear curves, bonds included; C104_last_maturity_refuted marks the scope of the Catmull-Rom part.",
 "C103:status": "proved",
 "C104:status": "proved",
 "C108:status": "proved",
 "C107:status": "proved",
 "C107": "The counterexample shows that the claim on raised yields is only for linear curves, as stated.",
 "C109:status": "proved",
 "C110:status": "proved",
 "C111:status": "proved",
 "C111": "As stated; the counterexamples bound the claim: the factor three, and the two other splines.",
 "C112:status": "proved",
 "C112": "As stated; integrals are increases of an antiderivative, and the value is shown to be unique (integral_unique). The counterexample bounds the natural cubic part.",
 "C113:status": "proved",
 "C113": "As stated. C113_last_point is a consequence of the missing back-substitution step (see C35, C38): a natural cubic spline would depend on the last point everywhere.",
 "C114:status": "proved",
 "C114": "As stated; the two _refuted theorems are the counterexamples the statement mentions. For the natural cubic the asymmetry is another consequence of the skipped back-substitution step (C35, C38); for Catmull-Rom it lies in the end cells' slopes.",
 "C115:status": "proved",
 "C115": "As stated; the two _refuted theorems are the counterexamples the statement mentions. The natural spline of textbooks has this property without the condition on derivatives: the code's lacks it because of the skipped back-substitution step (C35, C38).",
 "C116:status": "proved",
 "C116": "As stated; dates and counts are compared where both calendars return one.",
 "C117:status": "proved",
 "C117": "As stated. Each containment is decided on the formulas of PropsHolidays, which hold for all dates; each other pair is told apart by one of 33 dates.",
 "C118:status": "proved",
 "C118": "As stated; the two _refuted theorems are the exceptions the statement names.",
 "C119:status": "proved",
 "C119": "As stated; the two _refuted theorems are the exceptions the statement names. Over the reals, Act/360 and Act/365."
}
