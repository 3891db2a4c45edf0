# Print Assumptions, per theorem

Written by `tools/assumptions.py`. Theorems are grouped by the list printed.

## Closed under the global context

C01_from_ymd_some, C01_from_ymd_none, C02_serial_origin, C02_serial_next, C02_serial_order, C02_comparison, C02_serial_fits, C03_sub_counts_days, C03_sub_complete, C03_sub_laws, C04_add_days, C04_sub_days, C04_days_none, C04_round_trip, C04_n_fold_succ, C04_n_fold_pred, C05_succ, C05_pred, C05_ends, C05_inverse, C06_add_months, C06_add_months_none, C07_sub_months, C07_sub_months_none, C08_add_months_compose, C08_add_sub_months, C08_drift_refuted, C09_add_years, C09_add_years_none, C09_add_years_bounds, C09_doc_refuted, C10_add_years_total_wrapping_partial, C10_add_years_checked_panics, C10_add_years_panic_bounds, C10_never_panics_refuted, C11_leap_year, C11_year_length, C11_month_lengths, C12_weekday, C12_weekend_roll, C12_weekend_roll_cases, C12_weekend_roll_none, C13_never_rolls_back, C13_stays_in_month_refuted, C14_following, C14_period_fails, C14_terminates, C15_preceding, C16_result_is_business_day, C16_business_day_unmoved, C17_actual, C17_same_month_partial, C17_modified_following_refuted, C18_actual, C18_same_month_partial, C18_modified_preceding_refuted, C25_panics_iff, C29_order, C29_too_few_refuted, C33_fit, C33_never_panics, C37_fit, C37_never_panics, C38_total, C39_try_new, C39_mul_shape, C41_rejects, C41_depends, C43_lengths, C43_fit, C43_day_count_error, C45_due_dates, C45_schedule, C45_terminates, C48_ordered_partial, C49_coupons_partial, C49_final_flow, C50_first_error, C50_past_flows, C52_range, C52_western, C52_orthodox, C52_unique, C53_panics_iff, C53_answers_partial, C53_never_panics_refuted, C54_rest_days_closed, C54_rest_days_answer, C54_russia_exchange, C54_listed_days_are_weekends, C54_weekends_closed_refuted, C55_complement, C55_wrapper, C56_open, C56_answers, C56_order, C56_order_refuted, C57_windows, C57_tight, C57_following, C57_preceding, C58_western_partial, C58_orthodox, C58_france_refuted, C58_ukraine_refuted, C59_target, C60_one_each_year, C60_united_states, C60_united_kingdom, C61_last_day, C61_last_day_panics, C61_end_of_month, C61_end_of_month_panics, C61_country_end_of_month, C62_counts, C62_swap, C62_additive, C63_include_first_inverted, C63_equal_dates, C63_include_first_refuted, C65_days, C65_month_ends_partial, C66_closing_days, C67_announced_years, C67_sharp, C76_days, C76_months, C76_years, C77_enclose, C77_monotone, C77_modified, C77_idempotent, C77_modified_order_refuted, C83_text, C83_injective, C83_sorted_partial, C83_sorted_refuted, C84_errors_partial, C84_errors_refuted, C84_cast_messages, C84_interpolation_errors, C84_thirty_360, C84_discount_factor, C84_labels, C84_cast_counts, C84_lengths_text, C95_coupons, C95_maturity_partial, C96_dates, C116_following, C116_preceding, C116_agree, C116_end_of_month, C116_counts, C116_joint_rolls, C116_joint_counts, C117_holidays_of, C117_same_days, C117_rolls, C117_counts

## `ClassicalDedekindReals.sig_forall_dec`, `ClassicalDedekindReals.sig_not_dec`, `Classical_Prop.classic`, `FunctionalExtensionality.functional_extensionality_dep`

C20_rounded_once, C20_strict_order, C27_first_point_partial, C27_other_points_refuted, C64_catmull_rom_refuted, C72_catmull_rom_refuted, C73_linear, C73_natural_cubic_partial, C73_catmull_rom, C73_three_points_refuted, C74_linear, C74_forward_refuted, C74_natural_cubic_refuted, C75_linear, C78_linear, C78_catmull_rom, C78_natural_cubic, C78_hermite, C79_catmull_rom, C79_natural_cubic, C79_hermite, C79_nan_refuted, C79_repeated_refuted, C80_hermite, C80_natural_cubic_refuted, C80_catmull_rom_refuted, C81_linear, C82_cell, C82_grid_refuted, C85_linear, C85_catmull_rom, C85_natural_cubic, C85_out_of_order, C86_same_day, C86_actual, C86_overflow_refuted, C89_rounded_once, C89_order, C90_rounded_once, C90_strict_order, C90_strict_order_refuted, C90_rounded_twice, C90_weak_order, C93_natural_cubic, C93_linear, C93_catmull_rom_inner, C93_catmull_rom, C93_last_cell_refuted, C93_value, C94_linear, C97_rounding, C97_not_negative, C98_factor, C98_value, C99_hermite, C99_catmull_rom, C100_factor, C100_value, C101_natural_cubic, C102_factor, C102_value, C103_linear_smooth, C103_hermite, C103_natural_cubic_smooth, C104_linear_smooth, C104_linear_lipschitz, C104_natural_cubic, C104_catmull_rom, C104_value, C104_last_maturity_refuted, C105_spread, C105_catmull_rom, C106_convex, C106_duration, C107_product, C107_rise, C107_catmull_rom_refuted, C108_factor, C108_value, C108_catmull_rom_factor, C108_catmull_rom_value, C108_natural_cubic_factor, C108_natural_cubic_value, C110_actual, C110_actual_order, C110_thirty, C110_thirty_order, C111_hermite_rising, C112_linear, C112_hermite, C112_natural_cubic, C113_curve, C115_curve, C118_yield, C118_last_maturity_refuted, C118_three_maturities_refuted, C119_factors, C119_order, C119_determined, C119_yields, C119_bonds, C119_last_yield_refuted

## `ClassicalDedekindReals.sig_forall_dec`, `ClassicalDedekindReals.sig_not_dec`, `FunctionalExtensionality.functional_extensionality_dep`

C19_value, C19_laws, C21_value, C21_order_error, C21_laws, C22_checked_panics, C22_never_panics_refuted, C22_wrapping_total_partial, C23_lookup, C24_knots, C24_bracket, C24_errors, C24_continuous, C24_lines, C25_one_point, C25_never_panics_refuted, C26_flat_right_refuted, C26_flat_right_partial, C28_knots, C28_smooth, C28_cubics, C28_errors, C29_empty_panics_refuted, C30_knots_partial, C30_last_knot, C30_last_knot_refuted, C31_first_cell_partial, C31_inner_cell_deviation, C31_last_cell_deviation, C31_lines_refuted, C32_knot_slopes, C32_differentiable_refuted, C34_total, C34_interpolates, C34_second_derivative, C34_errors, C35_differentiable_partial, C35_last_two_knots, C35_three_points, C35_smooth_refuted, C36_lines_partial, C36_three_points, C36_lines_refuted, C38_solve_rows, C38_zero, C38_size_one, C38_solution_refuted, C39_mul, C40_day_counts, C40_compose, C40_positive, C40_same_day, C41_accepts, C42_linear, C42_natural_cubic, C42_actual_times, C44_settlement_partial, C44_first_maturity, C44_settlement_refuted, C45_succeeds, C46_regular, C46_final, C47_first_coupon, C47_sign, C48_panics_iff, C48_never_panics_refuted, C49_final_refuted, C50_sum, C51_flows, C51_value, C64_catmull_rom_partial, C65_month_ends_refuted, C68_linear, C68_catmull_rom, C68_natural_cubic, C68_hermite, C69_linear, C69_natural_cubic_partial, C69_catmull_rom_partial, C69_catmull_rom_last_cell, C69_catmull_rom_refuted, C69_three_points_refuted, C70_linear, C70_catmull_rom, C70_natural_cubic, C71_linear, C71_catmull_rom, C71_hermite, C71_natural_cubic_refuted, C72_linear, C72_natural_cubic_partial, C72_catmull_rom_partial, C84_interpolation_texts, C85_reals, C87_carry_back, C87_nothing_due, C88_flows, C88_value, C88_par, C91_natural_cubic, C91_linear, C91_catmull_rom_inner, C91_catmull_rom, C91_sharp, C91_hermite, C91_last_cell_refuted, C92_natural_cubic_size, C92_natural_cubic_range, C92_three_points_refuted, C92_catmull_rom_inner, C92_catmull_rom_size, C92_hermite, C92_last_cell_refuted, C94_interpolation, C94_catmull_rom_refuted, C95_maturity_refuted, C103_linear_lipschitz, C103_catmull_rom, C103_catmull_rom_order, C103_last_cell_refuted, C103_natural_cubic_lipschitz, C103_three_points_refuted, C103_sharp, C105_bonds, C106_slope, C107_bucket, C109_mean_year, C109_against_actual, C109_months, C109_bounds_met, C111_linear_convex, C111_linear_steepness, C111_three_refuted, C111_hermite_convex, C111_natural_cubic_refuted, C111_catmull_rom_refuted, C112_natural_cubic_refuted, C113_natural_cubic, C113_last_point, C114_linear, C114_hermite, C114_natural_cubic, C114_catmull_rom_refuted, C114_natural_cubic_refuted, C115_linear, C115_hermite, C115_natural_cubic, C115_natural_cubic_refuted, C115_catmull_rom_refuted, C118_factor, C118_value, C118_ageing, C119_settlement_refuted

## `ClassicalDedekindReals.sig_forall_dec`, `FunctionalExtensionality.functional_extensionality_dep`

C38_dominant
