{
 "claims": [
  {
   "property": "C01",
   "status": "proved",
   "theorems": [
    "C01_from_ymd_some",
    "C01_from_ymd_none"
   ],
   "note": ""
  },
  {
   "property": "C02",
   "status": "proved",
   "theorems": [
    "C02_serial_origin",
    "C02_serial_next",
    "C02_serial_order",
    "C02_comparison",
    "C02_serial_fits"
   ],
   "note": ""
  },
  {
   "property": "C03",
   "status": "proved",
   "theorems": [
    "C03_sub_counts_days",
    "C03_sub_complete",
    "C03_sub_laws"
   ],
   "note": ""
  },
  {
   "property": "C04",
   "status": "proved",
   "theorems": [
    "C04_add_days",
    "C04_sub_days",
    "C04_days_none",
    "C04_round_trip",
    "C04_n_fold_succ",
    "C04_n_fold_pred"
   ],
   "note": ""
  },
  {
   "property": "C05",
   "status": "proved",
   "theorems": [
    "C05_succ",
    "C05_pred",
    "C05_ends",
    "C05_inverse"
   ],
   "note": ""
  },
  {
   "property": "C06",
   "status": "proved",
   "theorems": [
    "C06_add_months",
    "C06_add_months_none"
   ],
   "note": ""
  },
  {
   "property": "C07",
   "status": "proved",
   "theorems": [
    "C07_sub_months",
    "C07_sub_months_none"
   ],
   "note": ""
  },
  {
   "property": "C08",
   "status": "proved",
   "theorems": [
    "C08_add_months_compose",
    "C08_add_sub_months",
    "C08_drift_refuted"
   ],
   "note": "Proved as stated, including the failure for days 29-31 (C08_drift_refuted is the witness the statement mentions)."
  },
  {
   "property": "C09",
   "status": "proved",
   "theorems": [
    "C09_add_years_bounds",
    "C09_add_years",
    "C09_add_years_none",
    "C09_doc_refuted"
   ],
   "note": "Proved as stated; C09_doc_refuted shows that the doc comment's claim fails."
  },
  {
   "property": "C10",
   "status": "partial",
   "theorems": [
    "C10_add_years_panic_bounds",
    "C10_add_years_total_wrapping_partial",
    "C10_add_years_checked_panics",
    "C10_never_panics_refuted"
   ],
   "note": "True of wrapping builds; false with overflow checks (exact condition in C10_add_years_checked_panics)."
  },
  {
   "property": "C11",
   "status": "proved",
   "theorems": [
    "C11_leap_year",
    "C11_year_length",
    "C11_month_lengths"
   ],
   "note": ""
  },
  {
   "property": "C12",
   "status": "proved",
   "theorems": [
    "C12_weekday",
    "C12_weekend_roll",
    "C12_weekend_roll_cases",
    "C12_weekend_roll_none"
   ],
   "note": ""
  },
  {
   "property": "C13",
   "status": "partial",
   "theorems": [
    "C13_never_rolls_back",
    "C13_stays_in_month_refuted"
   ],
   "note": "False: the code never rolls back (C13_never_rolls_back, all dates)."
  },
  {
   "property": "C14",
   "status": "proved",
   "theorems": [
    "C14_following",
    "C14_period_fails",
    "C14_terminates"
   ],
   "note": ""
  },
  {
   "property": "C15",
   "status": "proved",
   "theorems": [
    "C15_preceding"
   ],
   "note": ""
  },
  {
   "property": "C16",
   "status": "proved",
   "theorems": [
    "C16_result_is_business_day",
    "C16_business_day_unmoved"
   ],
   "note": ""
  },
  {
   "property": "C17",
   "status": "partial",
   "theorems": [
    "C17_actual",
    "C17_same_month_partial",
    "C17_modified_following_refuted"
   ],
   "note": "False in general; what the code does is characterised by C17_actual, and agrees with the convention when date + period is in the start month."
  },
  {
   "property": "C18",
   "status": "partial",
   "theorems": [
    "C18_actual",
    "C18_same_month_partial",
    "C18_modified_preceding_refuted"
   ],
   "note": "As C17."
  },
  {
   "property": "C19",
   "status": "proved",
   "theorems": [
    "C19_value",
    "C19_laws"
   ],
   "note": ""
  },
  {
   "property": "C20",
   "status": "proved",
   "theorems": [
    "C20_rounded_once",
    "C20_strict_order"
   ],
   "note": ""
  },
  {
   "property": "C21",
   "status": "proved",
   "theorems": [
    "C21_value",
    "C21_order_error",
    "C21_laws"
   ],
   "note": ""
  },
  {
   "property": "C22",
   "status": "partial",
   "theorems": [
    "C22_checked_panics",
    "C22_never_panics_refuted",
    "C22_wrapping_total_partial"
   ],
   "note": "False with overflow checks (exact condition in C22_checked_panics); true in wrapping builds."
  },
  {
   "property": "C23",
   "status": "proved",
   "theorems": [
    "C23_lookup"
   ],
   "note": ""
  },
  {
   "property": "C24",
   "status": "proved",
   "theorems": [
    "C24_knots",
    "C24_bracket",
    "C24_errors",
    "C24_continuous",
    "C24_lines"
   ],
   "note": ""
  },
  {
   "property": "C25",
   "status": "partial",
   "theorems": [
    "C25_panics_iff",
    "C25_one_point",
    "C25_never_panics_refuted"
   ],
   "note": "False only for one-point grids at the point itself (C25_panics_iff)."
  },
  {
   "property": "C26",
   "status": "partial",
   "theorems": [
    "C26_flat_right_refuted",
    "C26_flat_right_partial"
   ],
   "note": "False beyond the last x; true at the last x."
  },
  {
   "property": "C27",
   "status": "partial",
   "theorems": [
    "C27_first_point_partial",
    "C27_other_points_refuted"
   ],
   "note": "True at the first grid point; false elsewhere by rounding."
  },
  {
   "property": "C28",
   "status": "proved",
   "theorems": [
    "C28_knots",
    "C28_smooth",
    "C28_cubics",
    "C28_errors"
   ],
   "note": ""
  },
  {
   "property": "C29",
   "status": "partial",
   "theorems": [
    "C29_order",
    "C29_empty_panics_refuted",
    "C29_too_few_refuted"
   ],
   "note": "The order check is proved; the two other parts are false."
  },
  {
   "property": "C30",
   "status": "partial",
   "theorems": [
    "C30_knots_partial",
    "C30_last_knot",
    "C30_last_knot_refuted"
   ],
   "note": "Proved for all knots but the last, where it is false (value given by C30_last_knot)."
  },
  {
   "property": "C31",
   "status": "partial",
   "theorems": [
    "C31_first_cell_partial",
    "C31_inner_cell_deviation",
    "C31_last_cell_deviation",
    "C31_lines_refuted"
   ],
   "note": "Proved in the first interval; the deviations elsewhere are given exactly."
  },
  {
   "property": "C32",
   "status": "partial",
   "theorems": [
    "C32_knot_slopes",
    "C32_differentiable_refuted"
   ],
   "note": "False; the one-sided slopes are given exactly by C32_knot_slopes."
  },
  {
   "property": "C33",
   "status": "proved",
   "theorems": [
    "C33_fit",
    "C33_never_panics"
   ],
   "note": ""
  },
  {
   "property": "C34",
   "status": "proved",
   "theorems": [
    "C34_total",
    "C34_interpolates",
    "C34_second_derivative",
    "C34_errors"
   ],
   "note": ""
  },
  {
   "property": "C35",
   "status": "partial",
   "theorems": [
    "C35_differentiable_partial",
    "C35_last_two_knots",
    "C35_three_points",
    "C35_smooth_refuted"
   ],
   "note": "Proved at all interior knots but the last two, where the exact jump is given."
  },
  {
   "property": "C36",
   "status": "partial",
   "theorems": [
    "C36_lines_partial",
    "C36_three_points",
    "C36_lines_refuted"
   ],
   "note": "Proved for four or more points, false for three."
  },
  {
   "property": "C37",
   "status": "proved",
   "theorems": [
    "C37_fit",
    "C37_never_panics"
   ],
   "note": ""
  },
  {
   "property": "C38",
   "status": "partial",
   "theorems": [
    "C38_solve_rows",
    "C38_zero",
    "C38_size_one",
    "C38_dominant",
    "C38_solution_refuted",
    "C38_total"
   ],
   "note": "All rows but the last two are proved; row n-2 holds exactly when upper[n-2]*x[n-1] = 0."
  },
  {
   "property": "C39",
   "status": "proved",
   "theorems": [
    "C39_try_new",
    "C39_mul_shape",
    "C39_mul"
   ],
   "note": ""
  },
  {
   "property": "C40",
   "status": "proved",
   "theorems": [
    "C40_day_counts",
    "C40_compose",
    "C40_positive",
    "C40_same_day"
   ],
   "note": ""
  },
  {
   "property": "C41",
   "status": "proved",
   "theorems": [
    "C41_rejects",
    "C41_accepts",
    "C41_depends"
   ],
   "note": ""
  },
  {
   "property": "C42",
   "status": "proved",
   "theorems": [
    "C42_linear",
    "C42_natural_cubic",
    "C42_actual_times"
   ],
   "note": ""
  },
  {
   "property": "C43",
   "status": "proved",
   "theorems": [
    "C43_lengths",
    "C43_fit",
    "C43_day_count_error"
   ],
   "note": ""
  },
  {
   "property": "C44",
   "status": "partial",
   "theorems": [
    "C44_settlement_partial",
    "C44_first_maturity",
    "C44_settlement_refuted"
   ],
   "note": "Proved when the first maturity is at settlement; false otherwise."
  },
  {
   "property": "C45",
   "status": "proved",
   "theorems": [
    "C45_due_dates",
    "C45_schedule",
    "C45_terminates",
    "C45_succeeds"
   ],
   "note": ""
  },
  {
   "property": "C46",
   "status": "proved",
   "theorems": [
    "C46_regular",
    "C46_final"
   ],
   "note": ""
  },
  {
   "property": "C47",
   "status": "proved",
   "theorems": [
    "C47_first_coupon",
    "C47_sign"
   ],
   "note": ""
  },
  {
   "property": "C48",
   "status": "partial",
   "theorems": [
    "C48_panics_iff",
    "C48_ordered_partial",
    "C48_never_panics_refuted"
   ],
   "note": "False; the exact condition for a panic is C48_panics_iff."
  },
  {
   "property": "C49",
   "status": "partial",
   "theorems": [
    "C49_coupons_partial",
    "C49_final_flow",
    "C49_final_refuted"
   ],
   "note": "Proved for all coupons but the final flow, where it is false."
  },
  {
   "property": "C50",
   "status": "proved",
   "theorems": [
    "C50_sum",
    "C50_first_error",
    "C50_past_flows"
   ],
   "note": ""
  },
  {
   "property": "C51",
   "status": "proved",
   "theorems": [
    "C51_flows",
    "C51_value"
   ],
   "note": ""
  },
  {
   "property": "C52",
   "status": "proved",
   "theorems": [
    "C52_range",
    "C52_western",
    "C52_orthodox",
    "C52_unique"
   ],
   "note": ""
  },
  {
   "property": "C53",
   "status": "partial",
   "theorems": [
    "C53_panics_iff",
    "C53_answers_partial",
    "C53_never_panics_refuted"
   ],
   "note": "The exact condition for a panic is C53_panics_iff."
  },
  {
   "property": "C54",
   "status": "proved",
   "theorems": [
    "C54_rest_days_closed",
    "C54_rest_days_answer",
    "C54_russia_exchange",
    "C54_listed_days_are_weekends",
    "C54_weekends_closed_refuted"
   ],
   "note": "Proved as stated; C54_weekends_closed_refuted shows that the exceptions are needed."
  },
  {
   "property": "C55",
   "status": "proved",
   "theorems": [
    "C55_complement",
    "C55_wrapper"
   ],
   "note": ""
  },
  {
   "property": "C56",
   "status": "proved",
   "theorems": [
    "C56_open",
    "C56_answers",
    "C56_order",
    "C56_order_refuted"
   ],
   "note": "Openness is proved symmetric, associative and idempotent. Which of two calendars panics first does depend on the order (C56_order_refuted), which the property does not speak about."
  },
  {
   "property": "C57",
   "status": "proved",
   "theorems": [
    "C57_windows",
    "C57_tight",
    "C57_following",
    "C57_preceding"
   ],
   "note": ""
  },
  {
   "property": "C58",
   "status": "partial",
   "theorems": [
    "C58_western_partial",
    "C58_orthodox",
    "C58_france_refuted",
    "C58_ukraine_refuted"
   ],
   "note": "Proved for the calendars that keep the feasts; false for the two named."
  },
  {
   "property": "C59",
   "status": "proved",
   "theorems": [
    "C59_target"
   ],
   "note": ""
  },
  {
   "property": "C60",
   "status": "proved",
   "theorems": [
    "C60_one_each_year",
    "C60_united_states",
    "C60_united_kingdom"
   ],
   "note": ""
  },
  {
   "property": "C61",
   "status": "proved",
   "theorems": [
    "C61_last_day",
    "C61_last_day_panics",
    "C61_end_of_month",
    "C61_end_of_month_panics",
    "C61_country_end_of_month"
   ],
   "note": ""
  },
  {
   "property": "C62",
   "status": "proved",
   "theorems": [
    "C62_counts",
    "C62_swap",
    "C62_additive"
   ],
   "note": ""
  },
  {
   "property": "C63",
   "status": "partial",
   "theorems": [
    "C63_include_first_inverted",
    "C63_equal_dates",
    "C63_include_first_refuted"
   ],
   "note": "False; the actual behaviour is proved for all dates."
  },
  {
   "property": "C64",
   "status": "partial",
   "theorems": [
    "C64_catmull_rom_partial",
    "C64_catmull_rom_refuted"
   ],
   "note": "Proved for all maturities but the last."
  },
  {
   "property": "C65",
   "status": "partial",
   "theorems": [
    "C65_days",
    "C65_month_ends_partial",
    "C65_month_ends_refuted"
   ],
   "note": "Proved for first coupons on the 28th or earlier; false otherwise, with the actual day of every due date in C65_days."
  },
  {
   "property": "C66",
   "status": "proved",
   "theorems": [
    "C66_closing_days"
   ],
   "note": ""
  },
  {
   "property": "C67",
   "status": "proved",
   "theorems": [
    "C67_announced_years",
    "C67_sharp"
   ],
   "note": ""
  },
  {
   "property": "C68",
   "status": "proved",
   "theorems": [
    "C68_linear",
    "C68_catmull_rom",
    "C68_natural_cubic",
    "C68_hermite"
   ],
   "note": ""
  },
  {
   "property": "C69",
   "status": "partial",
   "theorems": [
    "C69_linear",
    "C69_natural_cubic_partial",
    "C69_catmull_rom_partial",
    "C69_catmull_rom_last_cell",
    "C69_catmull_rom_refuted",
    "C69_three_points_refuted"
   ],
   "note": "Proved for linear, natural cubic from four points on and Catmull-Rom up to the last knot but one; false elsewhere, with the exact error of Catmull-Rom's last cell."
  },
  {
   "property": "C70",
   "status": "proved",
   "theorems": [
    "C70_linear",
    "C70_catmull_rom",
    "C70_natural_cubic"
   ],
   "note": ""
  },
  {
   "property": "C71",
   "status": "proved",
   "theorems": [
    "C71_linear",
    "C71_catmull_rom",
    "C71_hermite",
    "C71_natural_cubic_refuted"
   ],
   "note": "Proved for the three interpolations named; C71_natural_cubic_refuted shows natural cubic cannot be added."
  },
  {
   "property": "C72",
   "status": "partial",
   "theorems": [
    "C72_linear",
    "C72_natural_cubic_partial",
    "C72_catmull_rom_refuted",
    "C72_catmull_rom_partial"
   ],
   "note": "Proved for linear, natural cubic from four maturities on, and Catmull-Rom up to the last maturity but one; false for Catmull-Rom beyond."
  },
  {
   "property": "C73",
   "status": "partial",
   "theorems": [
    "C73_linear",
    "C73_natural_cubic_partial",
    "C73_catmull_rom",
    "C73_three_points_refuted"
   ],
   "note": "Proved for linear, Catmull-Rom and natural cubic from four maturities on; false for natural cubic with three."
  },
  {
   "property": "C74",
   "status": "proved",
   "theorems": [
    "C74_linear",
    "C74_forward_refuted",
    "C74_natural_cubic_refuted"
   ],
   "note": "Proved as stated; C74_forward_refuted and C74_natural_cubic_refuted show it cannot be widened."
  },
  {
   "property": "C75",
   "status": "proved",
   "theorems": [
    "C75_linear"
   ],
   "note": ""
  },
  {
   "property": "C76",
   "status": "proved",
   "theorems": [
    "C76_days",
    "C76_months",
    "C76_years"
   ],
   "note": ""
  },
  {
   "property": "C77",
   "status": "proved",
   "theorems": [
    "C77_enclose",
    "C77_monotone",
    "C77_modified",
    "C77_idempotent",
    "C77_modified_order_refuted"
   ],
   "note": "Proved as stated; C77_modified_order_refuted shows the modified conventions are not monotone."
  },
  {
   "property": "C78",
   "status": "proved",
   "theorems": [
    "C78_linear",
    "C78_catmull_rom",
    "C78_natural_cubic",
    "C78_hermite"
   ],
   "note": ""
  },
  {
   "property": "C79",
   "status": "proved",
   "theorems": [
    "C79_catmull_rom",
    "C79_natural_cubic",
    "C79_hermite",
    "C79_nan_refuted",
    "C79_repeated_refuted"
   ],
   "note": "Proved as stated for abscissas free of NaN; the refuted theorems show what happens with NaN and repeated abscissas."
  },
  {
   "property": "C80",
   "status": "proved",
   "theorems": [
    "C80_hermite",
    "C80_natural_cubic_refuted",
    "C80_catmull_rom_refuted"
   ],
   "note": "Proved as stated for Hermite; the refuted theorems show the other interpolations fail."
  },
  {
   "property": "C81",
   "status": "proved",
   "theorems": [
    "C81_linear"
   ],
   "note": ""
  },
  {
   "property": "C82",
   "status": "proved",
   "theorems": [
    "C82_cell",
    "C82_grid_refuted"
   ],
   "note": "Proved within a cell as stated; C82_grid_refuted shows it fails across cells."
  },
  {
   "property": "C83",
   "status": "partial",
   "theorems": [
    "C83_text",
    "C83_injective",
    "C83_sorted_partial",
    "C83_sorted_refuted"
   ],
   "note": "Format and injectivity are proved for all dates, the order for the years 0 to 9999; false beyond."
  },
  {
   "property": "C84",
   "status": "partial",
   "theorems": [
    "C84_errors_partial",
    "C84_errors_refuted",
    "C84_cast_messages",
    "C84_interpolation_errors",
    "C84_thirty_360",
    "C84_discount_factor",
    "C84_labels",
    "C84_cast_counts",
    "C84_interpolation_texts",
    "C84_lengths_text"
   ],
   "note": "Proved for messages without spaces, which the library's own cast messages are; false for arbitrary messages."
  },
  {
   "property": "C85",
   "status": "proved",
   "theorems": [
    "C85_linear",
    "C85_catmull_rom",
    "C85_natural_cubic",
    "C85_out_of_order",
    "C85_reals"
   ],
   "note": ""
  },
  {
   "property": "C86",
   "status": "proved",
   "theorems": [
    "C86_same_day",
    "C86_actual",
    "C86_overflow_refuted"
   ],
   "note": "Proved as stated where time times yield is finite; C86_overflow_refuted shows the condition is needed."
  },
  {
   "property": "C87",
   "status": "proved",
   "theorems": [
    "C87_carry_back",
    "C87_nothing_due"
   ],
   "note": ""
  },
  {
   "property": "C88",
   "status": "proved",
   "theorems": [
    "C88_flows",
    "C88_value",
    "C88_par"
   ],
   "note": ""
  },
  {
   "property": "C89",
   "status": "proved",
   "theorems": [
    "C89_rounded_once",
    "C89_order"
   ],
   "note": ""
  },
  {
   "property": "C90",
   "status": "proved",
   "theorems": [
    "C90_rounded_once",
    "C90_strict_order",
    "C90_strict_order_refuted",
    "C90_rounded_twice",
    "C90_weak_order"
   ],
   "note": "C90_strict_order_refuted marks the scope of the strict order; the weak order holds for all dates."
  },
  {
   "property": "C91",
   "status": "proved",
   "theorems": [
    "C91_natural_cubic",
    "C91_linear",
    "C91_catmull_rom_inner",
    "C91_catmull_rom",
    "C91_sharp",
    "C91_hermite",
    "C91_last_cell_refuted"
   ],
   "note": "Catmull-Rom within 2 eps on the whole range, within 7/5 eps up to the last knot but one; C91_last_cell_refuted marks that scope and C91_sharp shows that 2 is the best constant."
  },
  {
   "property": "C92",
   "status": "proved",
   "theorems": [
    "C92_natural_cubic_size",
    "C92_natural_cubic_range",
    "C92_three_points_refuted",
    "C92_catmull_rom_inner",
    "C92_catmull_rom_size",
    "C92_hermite",
    "C92_last_cell_refuted"
   ],
   "note": "C92_last_cell_refuted and C92_three_points_refuted mark the scope of the bounds by the range; the size bounds hold on the whole range for three points or more."
  },
  {
   "property": "C93",
   "status": "proved",
   "theorems": [
    "C93_natural_cubic",
    "C93_linear",
    "C93_catmull_rom_inner",
    "C93_catmull_rom",
    "C93_last_cell_refuted",
    "C93_value"
   ],
   "note": "Catmull-Rom with 2 eps for all dates, with 7/5 eps up to the last maturity but one; C93_last_cell_refuted marks that scope."
  },
  {
   "property": "C94",
   "status": "proved",
   "theorems": [
    "C94_interpolation",
    "C94_linear",
    "C94_catmull_rom_refuted"
   ],
   "note": "Proved as stated for linear curves; C94_catmull_rom_refuted shows Catmull-Rom cannot be added."
  },
  {
   "property": "C95",
   "status": "partial",
   "theorems": [
    "C95_coupons",
    "C95_maturity_partial",
    "C95_maturity_refuted"
   ],
   "note": "Order of all payments proved when maturity is at least two days after the penultimate date; false otherwise, since the redemption is not rolled off weekends."
  },
  {
   "property": "C96",
   "status": "proved",
   "theorems": [
    "C96_dates"
   ],
   "note": ""
  },
  {
   "property": "C97",
   "status": "proved",
   "theorems": [
    "C97_rounding",
    "C97_not_negative"
   ],
   "note": ""
  },
  {
   "property": "C98",
   "status": "proved",
   "theorems": [
    "C98_factor",
    "C98_value"
   ],
   "note": ""
  },
  {
   "property": "C99",
   "status": "proved",
   "theorems": [
    "C99_hermite",
    "C99_catmull_rom"
   ],
   "note": ""
  },
  {
   "property": "C100",
   "status": "proved",
   "theorems": [
    "C100_factor",
    "C100_value"
   ],
   "note": ""
  },
  {
   "property": "C101",
   "status": "proved",
   "theorems": [
    "C101_natural_cubic"
   ],
   "note": ""
  },
  {
   "property": "C102",
   "status": "proved",
   "theorems": [
    "C102_factor",
    "C102_value"
   ],
   "note": ""
  },
  {
   "property": "C103",
   "status": "proved",
   "theorems": [
    "C103_linear_lipschitz",
    "C103_linear_smooth",
    "C103_hermite",
    "C103_catmull_rom",
    "C103_catmull_rom_order",
    "C103_last_cell_refuted",
    "C103_natural_cubic_smooth",
    "C103_natural_cubic_lipschitz",
    "C103_three_points_refuted",
    "C103_sharp"
   ],
   "note": "As stated: linear and Hermite on the whole range with sharp constants; the counterexamples mark the scope of the splines: three points of a constant are off by 3/32 at any width for natural cubic, and in the last cell of Catmull-Rom the value at the last knot does not converge. Catmull-Rom is only of first order (C103_catmull_rom_order)."
  },
  {
   "property": "C104",
   "status": "proved",
   "theorems": [
    "C104_linear_smooth",
    "C104_linear_lipschitz",
    "C104_natural_cubic",
    "C104_catmull_rom",
    "C104_value",
    "C104_last_maturity_refuted"
   ],
   "note": "As stated: linear curves, bonds included; C104_last_maturity_refuted marks the scope of the Catmull-Rom part."
  },
  {
   "property": "C105",
   "status": "proved",
   "theorems": [
    "C105_spread",
    "C105_catmull_rom",
    "C105_bonds"
   ],
   "note": ""
  },
  {
   "property": "C106",
   "status": "proved",
   "theorems": [
    "C106_convex",
    "C106_duration",
    "C106_slope"
   ],
   "note": ""
  },
  {
   "property": "C107",
   "status": "proved",
   "theorems": [
    "C107_product",
    "C107_bucket",
    "C107_rise",
    "C107_catmull_rom_refuted"
   ],
   "note": "The counterexample shows that the claim on raised yields is only for linear curves, as stated."
  },
  {
   "property": "C108",
   "status": "proved",
   "theorems": [
    "C108_factor",
    "C108_value",
    "C108_catmull_rom_factor",
    "C108_catmull_rom_value",
    "C108_natural_cubic_factor",
    "C108_natural_cubic_value"
   ],
   "note": ""
  },
  {
   "property": "C109",
   "status": "proved",
   "theorems": [
    "C109_mean_year",
    "C109_against_actual",
    "C109_months",
    "C109_bounds_met"
   ],
   "note": ""
  },
  {
   "property": "C110",
   "status": "proved",
   "theorems": [
    "C110_actual",
    "C110_actual_order",
    "C110_thirty",
    "C110_thirty_order"
   ],
   "note": ""
  },
  {
   "property": "C111",
   "status": "proved",
   "theorems": [
    "C111_linear_convex",
    "C111_linear_steepness",
    "C111_hermite_rising",
    "C111_three_refuted",
    "C111_hermite_convex",
    "C111_natural_cubic_refuted",
    "C111_catmull_rom_refuted"
   ],
   "note": "As stated; the counterexamples bound the claim: the factor three, and the two other splines."
  },
  {
   "property": "C112",
   "status": "proved",
   "theorems": [
    "C112_linear",
    "C112_hermite",
    "C112_natural_cubic",
    "C112_natural_cubic_refuted"
   ],
   "note": "As stated; integrals are increases of an antiderivative, and the value is shown to be unique (integral_unique). The counterexample bounds the natural cubic part."
  },
  {
   "property": "C113",
   "status": "proved",
   "theorems": [
    "C113_natural_cubic",
    "C113_last_point",
    "C113_curve"
   ],
   "note": "As stated. C113_last_point is a consequence of the missing back-substitution step (see C35, C38): a natural cubic spline would depend on the last point everywhere."
  },
  {
   "property": "C114",
   "status": "proved",
   "theorems": [
    "C114_linear",
    "C114_hermite",
    "C114_natural_cubic",
    "C114_catmull_rom_refuted",
    "C114_natural_cubic_refuted"
   ],
   "note": "As stated; the two _refuted theorems are the counterexamples the statement mentions. For the natural cubic the asymmetry is another consequence of the skipped back-substitution step (C35, C38); for Catmull-Rom it lies in the end cells' slopes."
  },
  {
   "property": "C115",
   "status": "proved",
   "theorems": [
    "C115_linear",
    "C115_hermite",
    "C115_natural_cubic",
    "C115_natural_cubic_refuted",
    "C115_catmull_rom_refuted",
    "C115_curve"
   ],
   "note": "As stated; the two _refuted theorems are the counterexamples the statement mentions. The natural spline of textbooks has this property without the condition on derivatives: the code's lacks it because of the skipped back-substitution step (C35, C38)."
  },
  {
   "property": "C116",
   "status": "proved",
   "theorems": [
    "C116_following",
    "C116_preceding",
    "C116_agree",
    "C116_end_of_month",
    "C116_counts",
    "C116_joint_rolls",
    "C116_joint_counts"
   ],
   "note": "As stated; dates and counts are compared where both calendars return one."
  },
  {
   "property": "C117",
   "status": "proved",
   "theorems": [
    "C117_holidays_of",
    "C117_same_days",
    "C117_rolls",
    "C117_counts"
   ],
   "note": "As stated. Each containment is decided on the formulas of PropsHolidays, which hold for all dates; each other pair is told apart by one of 33 dates."
  },
  {
   "property": "C118",
   "status": "proved",
   "theorems": [
    "C118_factor",
    "C118_value",
    "C118_ageing",
    "C118_yield",
    "C118_last_maturity_refuted",
    "C118_three_maturities_refuted"
   ],
   "note": "As stated; the two _refuted theorems are the exceptions the statement names."
  },
  {
   "property": "C119",
   "status": "proved",
   "theorems": [
    "C119_factors",
    "C119_order",
    "C119_determined",
    "C119_yields",
    "C119_bonds",
    "C119_settlement_refuted",
    "C119_last_yield_refuted"
   ],
   "note": "As stated; the two _refuted theorems are the exceptions the statement names. Over the reals, Act/360 and Act/365."
  }
 ]
}