{
 "claims": [
  {
   "property": "C01",
   "status": "proved",
   "theorems": [
    "C01_gregorian_date_roundtrip",
    "C01_julian_date_roundtrip",
    "C01_reformed_date_roundtrip"
   ],
   "note": ""
  },
  {
   "property": "C02",
   "status": "proved",
   "theorems": [
    "C02_julian_day_counts_days",
    "C02_julian_day_is_the_day_number",
    "C02_julian_day_with_cutoff_is_the_day_number",
    "C02_julian_day_strictly_increasing",
    "C02_day_count_unique"
   ],
   "note": ""
  },
  {
   "property": "C03",
   "status": "partial",
   "theorems": [
    "C03_day_roundtrip_partial",
    "C03_day_roundtrip_refuted"
   ],
   "note": "Finding. The round trip holds for no cutoff and for every cutoff from Julian day 1794168 (0200-03-01) on, which includes both shipped constants. For every earlier cutoff it fails, and the refuted theorem gives the failing days."
  },
  {
   "property": "C04",
   "status": "proved",
   "theorems": [
    "C04_calendar_date_valid",
    "C04_calendar_date_advances",
    "C04_first_day_of_reform"
   ],
   "note": ""
  },
  {
   "property": "C05",
   "status": "proved",
   "theorems": [
    "C05_month_overflow",
    "C05_day_overflow",
    "C05_any_month_and_day"
   ],
   "note": ""
  },
  {
   "property": "C06",
   "status": "proved",
   "theorems": [
    "C06_utc_roundtrip"
   ],
   "note": ""
  },
  {
   "property": "C07",
   "status": "proved",
   "theorems": [
    "C07_every_instant_has_a_reading",
    "C07_fields_in_range_and_60_only_in_leap_seconds",
    "C07_rebuilding_gives_the_same_instant",
    "C07_later_instants_read_later"
   ],
   "note": ""
  },
  {
   "property": "C08",
   "status": "proved",
   "theorems": [
    "C08_whole_seconds_are_exact",
    "C08_hidden_seconds_are_exact",
    "C08_any_second",
    "C08_instant"
   ],
   "note": "Binary64 semantics on specification floats; numpy.interp without fused multiply-add. Whole seconds are exact; seconds with a fraction come back within 2^-36 s, except those within 2^-36 s of the end of the minute, which may round up to it."
  },
  {
   "property": "C09",
   "status": "proved",
   "theorems": [
    "C09_utc_julian_date_agrees_with_fields"
   ],
   "note": ""
  },
  {
   "property": "C10",
   "status": "proved",
   "theorems": [
    "C10_legacy_table_in_floats",
    "C10_legacy_table_equals_plain_table",
    "C10_documented_lookup_gives_the_offset_in_force"
   ],
   "note": ""
  },
  {
   "property": "C11",
   "status": "proved",
   "theorems": [
    "C11_iso_text_is_nearest",
    "C11_jpl_text_is_nearest",
    "C11_second_60_only_for_leap_seconds"
   ],
   "note": ""
  },
  {
   "property": "C12",
   "status": "proved",
   "theorems": [
    "C12_datetime_is_nearest_microsecond",
    "C12_datetime_roundtrip"
   ],
   "note": ""
  },
  {
   "property": "C13",
   "status": "partial",
   "theorems": [
    "C13_weekday_is_saturday_2000_and_advances",
    "C13_day_of_year",
    "C13_weekday_in_floats_refuted",
    "C13_strftime_weekday_partial",
    "C13_strftime_weekday_refuted",
    "C13_strftime_day_of_year",
    "C13_utc_day_of_year"
   ],
   "note": "Finding. The strftime weekday is right for every Julian date at or after 0 and wrong before it, because int() truncates toward zero; the refuted theorem has the witness. The day of year is right for all dates. Exact arithmetic. In binary64 the weekday disagrees with the printed date just before midnight (refuted)."
  },
  {
   "property": "C14",
   "status": "proved",
   "theorems": [
    "C14_time_arithmetic"
   ],
   "note": ""
  },
  {
   "property": "C15",
   "status": "proved",
   "theorems": [
    "C15_trichotomy",
    "C15_equality_is_symmetric"
   ],
   "note": "Finite times with |fraction| < 2^1000, so that the difference of fractions does not overflow."
  },
  {
   "property": "C16",
   "status": "partial",
   "theorems": [
    "C16_equal_times_hash_alike_partial",
    "C16_equal_times_hash_alike_refuted"
   ],
   "note": "Finding: equal times with different whole parts can have different tt and so different hashes (refuted). Proved when the whole parts agree."
  },
  {
   "property": "C17",
   "status": "partial",
   "theorems": [
    "C17_getitem_in_floats_refuted",
    "C17_getitem_in_floats_partial",
    "C17_getitem_partial"
   ],
   "note": "Proved in exact arithmetic. In binary64, t[i] drops the exact TAI seconds and can read the previous second or minute (refuted); TAI, TT, the hash and differences do commute (partial)."
  },
  {
   "property": "C18",
   "status": "proved",
   "theorems": [
    "C18_tdb_stays_near_tt",
    "C18_tdb_input",
    "C18_tdb_calendar_input",
    "C18_tt_minus_tai",
    "C18_scale_inputs_come_back"
   ],
   "note": "TT-TAI and the scale inputs are exact over Q; the TDB bound is over R. The calendar constructor tdb() does not store its input, and the theorem bounds the difference by 10 ps."
  },
  {
   "property": "C19",
   "status": "proved",
   "theorems": [
    "C19_ut1_input_is_consistent"
   ],
   "note": ""
  },
  {
   "property": "C20",
   "status": "proved",
   "theorems": [
    "C20_end_values_and_slopes",
    "C20_one_row_derivative",
    "C20_curve_derivative"
   ],
   "note": ""
  },
  {
   "property": "C21",
   "status": "proved",
   "theorems": [
    "C21_steps_are_bounded",
    "C21_delta_t_is_continuous",
    "C21_shipped_table",
    "C21_shipped_table_has_a_jump",
    "C21_table_values_and_parabolas"
   ],
   "note": "Proved for every historic table whose rows meet, and in general with steps bounded by those of the table. Finding: the shipped table is rounded to 1 ms, so Delta T as shipped has 1 ms steps; a theorem shows one at the year -100."
  },
  {
   "property": "C22",
   "status": "partial",
   "theorems": [
    "C22_slope_after_the_table",
    "C22_full_year_partial",
    "C22_short_tables_refuted"
   ],
   "note": "Finding. The slope is the average rate times n(n-1)/(365*365.25), where n is the number of rows looked back on: right to 0.21% for a year of data or more, less than a quarter of it for half a year of data."
  },
  {
   "property": "C23",
   "status": "partial",
   "theorems": [
    "C23_leap_seconds_partial",
    "C23_tt_minus_ut1_has_no_steps",
    "C23_other_start_refuted",
    "C23_no_leap_second_refuted"
   ],
   "note": "Finding. Exact for a series that starts while TAI-UTC is 12 s and holds at least one leap second, such as finals2000A.all. The two refuted theorems give the result for other starts and for a series without a leap second."
  },
  {
   "property": "C24",
   "status": "proved",
   "theorems": [
    "C24_events_are_real"
   ],
   "note": ""
  },
  {
   "property": "C25",
   "status": "partial",
   "theorems": [
    "C25_events_form_a_chain_partial",
    "C25_one_sample_per_round_loses_events_refuted"
   ],
   "note": "Finding. Proved for two or more samples per round. With num=1 the search loses events; the refuted theorem has the witness."
  },
  {
   "property": "C26",
   "status": "proved",
   "theorems": [
    "C26_nothing_slower_than_the_step_is_missed",
    "C26_one_event_per_change_between_samples",
    "C26_samples_are_closer_than_the_step"
   ],
   "note": ""
  },
  {
   "property": "C27",
   "status": "partial",
   "theorems": [
    "C27_search_ends_partial",
    "C27_two_samples_per_round_never_end_refuted"
   ],
   "note": "Finding. Proved for three or more samples per round, with the logarithmic bound on rounds. With num=2 the loop never ends as soon as there is something to find."
  },
  {
   "property": "C28",
   "status": "proved",
   "theorems": [
    "C28_maxima_are_separated_and_inside"
   ],
   "note": ""
  },
  {
   "property": "C29",
   "status": "partial",
   "theorems": [
    "C29_one_peak_is_found_partial",
    "C29_one_valley_is_found_partial",
    "C29_peak_near_the_start_is_missed_refuted"
   ],
   "note": "Finding. The initial samples of the maxima search do not start at the start of the range, so a peak just inside the range can be missed; the refuted theorem has the witness. Proved for peaks at least a quarter of the step inside."
  },
  {
   "property": "C30",
   "status": "partial",
   "theorems": [
    "C30_passes_are_well_formed_partial",
    "C30_culmination_before_rise_refuted"
   ],
   "note": "Finding. Proved unless a rise or set is reported at the same instant as a culmination, or a plateau's middle is under the threshold. The refuted theorem has a pass whose culmination is listed before its rise."
  },
  {
   "property": "C31",
   "status": "proved",
   "theorems": [
    "C31_altitude_is_reached",
    "C31_above_before_and_below_after",
    "C31_below_before_and_above_after",
    "C31_never_sets_and_never_rises"
   ],
   "note": ""
  },
  {
   "property": "C32",
   "status": "proved",
   "theorems": [
    "C32_crossing",
    "C32_start_on_the_target"
   ],
   "note": ""
  },
  {
   "property": "C33",
   "status": "partial",
   "theorems": [
    "C33_codes_in_range_partial",
    "C33_codes_are_sectors_partial",
    "C33_named_sectors_partial",
    "C33_codes_wrap_partial",
    "C33_opposition_codes_partial",
    "C33_opposition_code_2_refuted",
    "C33_twilight_levels",
    "C33_twilight_is_monotone"
   ],
   "note": "Finding. Proved in exact arithmetic. In binary64 oppositions_conjunctions can return the undocumented code 2 when the Sun and the target differ by one unit in the last place, because x % 2.0 rounds up to 2.0. Twilight levels are proved in full."
  },
  {
   "property": "C34",
   "status": "proved",
   "theorems": [
    "C34_one_class_each",
    "C34_classes_nest_and_match_magnitudes"
   ],
   "note": ""
  },
  {
   "property": "C35",
   "status": "partial",
   "theorems": [
    "C35_no_partial_file_partial",
    "C35_truncated_file_is_installed_refuted"
   ],
   "note": "Finding. Proved when the connection delivers the whole body or raises. A connection that ends early without an error installs a truncated file, because the content length is never compared; the refuted theorem has the execution."
  },
  {
   "property": "C36",
   "status": "partial",
   "theorems": [
    "C36_each_process_owns_its_temporary_file",
    "C36_destination_is_whole_partial",
    "C36_a_temporary_name_is_found",
    "C36_backup_leaves_a_moment_without_a_file_refuted"
   ],
   "note": "Finding. Proved for any number of processes and any schedule without backups. With a backup there is an instant with no file at the destination; the refuted theorem has it. Connections deliver the whole body or raise."
  },
  {
   "property": "C37",
   "status": "partial",
   "theorems": [
    "C37_backup_keeps_the_previous_file_partial",
    "C37_every_version_survives_partial",
    "C37_two_backups_race_refuted"
   ],
   "note": "Finding. Proved for downloads that do not overlap, each stopped anywhere, on any connection. Two overlapping backups can lose the original; the refuted theorem has the schedule."
  },
  {
   "property": "C38",
   "status": "partial",
   "theorems": [
    "C38_loader_decisions_partial",
    "C38_urls",
    "C38_unknown_url",
    "C38_builtin_needs_no_network",
    "C38_open",
    "C38_open_local_needs_no_network",
    "C38_last_component_of_the_path",
    "C38_extension_as_name_refuted"
   ],
   "note": "Finding. Proved for all names that are not themselves a key of a pattern list. For a name such as '.bsp' a request is attempted with a list as the URL; the refuted theorem has it."
  },
  {
   "property": "C39",
   "status": "proved",
   "theorems": [
    "C39_element_sets"
   ],
   "note": ""
  },
  {
   "property": "C40",
   "status": "partial",
   "theorems": [
    "C40_last_assignment_then_appends_partial",
    "C40_only_appends_partial",
    "C40_others_untouched",
    "C40_append_to_a_single_value_refuted",
    "C40_tokens_read_back",
    "C40_kernel_text_partial",
    "C40_single_letter_name_refuted"
   ],
   "note": "Finding. Proved unless a '+=' reaches a variable that holds a single value: that append is lost. Also a single-letter name written without spaces is read as part of one token. Both have refuted theorems."
  },
  {
   "property": "C41",
   "status": "partial",
   "theorems": [
    "C41_sum",
    "C41_sum_refused",
    "C41_difference",
    "C41_difference_refused",
    "C41_negation",
    "C41_sums_associate",
    "C41_operand_order_partial",
    "C41_operand_order_refuted",
    "C41_expression",
    "C41_expression_is_defined"
   ],
   "note": "Finding. Everything holds except independence of operand order when the operands close a loop (a+b and b+a are then loops based at different bodies); the refuted theorem has the witness. The position and velocity agree even then."
  },
  {
   "property": "C42",
   "status": "partial",
   "theorems": [
    "C42_lookup_is_a_chain",
    "C42_lookup_position",
    "C42_lookup_ends_partial",
    "C42_fuel_does_not_matter",
    "C42_cyclic_lookup_runs_forever_refuted",
    "C42_barycenter_cannot_be_evaluated_refuted"
   ],
   "note": "Finding. A lookup that returns gives a connected chain from the barycenter with the right position. It ends for acyclic kernels; on a cyclic set of segments it never ends, and looking up code 0 gives an object whose position cannot be evaluated (IndexError). Both are refuted theorems."
  },
  {
   "property": "C43",
   "status": "proved",
   "theorems": [
    "C43_stack",
    "C43_array_does_not_raise"
   ],
   "note": ""
  },
  {
   "property": "C44",
   "status": "proved",
   "theorems": [
    "C44_light_time",
    "C44_converges",
    "C44_light_time_error"
   ],
   "note": ""
  },
  {
   "property": "C45",
   "status": "proved",
   "theorems": [
    "C45_rounded_fields",
    "C45_exact_fields"
   ],
   "note": ""
  },
  {
   "property": "C46",
   "status": "partial",
   "theorems": [
    "C46_sign_partial",
    "C46_sign_of_zero_refuted"
   ],
   "note": "Finding. The sign is +1 or -1 for every non-zero angle, and 0 for the zero angle."
  },
  {
   "property": "C47",
   "status": "partial",
   "theorems": [
    "C47_binary64_tuple",
    "C47_binary64_refuted",
    "C47_binary64_reads_back_partial",
    "C47_binary64_zero",
    "C47_binary64_value",
    "C47_binary64_first_sign",
    "C47_tuple_reads_back_partial",
    "C47_wms_reads_back_partial",
    "C47_only_the_first_sign_matters"
   ],
   "note": "Finding. Holds in exact arithmetic for all angles. In binary64 the tuple of 2.2 degrees reads back as a different float (refuted theorem, by computation on specification floats); proved in binary64 for either sign: the tuple is made of whole units, whole minutes and seconds below 60 which together are the rounded number of seconds, and it reads back to within 2^-50 of the angle, with its sign."
  },
  {
   "property": "C48",
   "status": "proved",
   "theorems": [
    "C48_elementary_rotations",
    "C48_rotations_add_angles",
    "C48_precession_is_a_rotation",
    "C48_precession_product",
    "C48_nutation_is_a_rotation",
    "C48_nutation_product",
    "C48_frame_bias_is_nearly_orthogonal"
   ],
   "note": ""
  },
  {
   "property": "C49",
   "status": "proved",
   "theorems": [
    "C49_frame_there_and_back",
    "C49_frame_back_and_there"
   ],
   "note": ""
  },
  {
   "property": "C50",
   "status": "proved",
   "theorems": [
    "C50_spherical_there_and_back",
    "C50_spherical_back_and_there",
    "C50_rotation_keeps_lengths",
    "C50_rotation_keeps_separations"
   ],
   "note": ""
  },
  {
   "property": "C51",
   "status": "proved",
   "theorems": [
    "C51_angle_is_true",
    "C51_angle_is_symmetric",
    "C51_parallel_and_opposite",
    "C51_scale_invariant"
   ],
   "note": ""
  },
  {
   "property": "C52",
   "status": "proved",
   "theorems": [
    "C52_sunlit",
    "C52_behind_earth"
   ],
   "note": ""
  },
  {
   "property": "C53",
   "status": "proved",
   "theorems": [
    "C53_horizon_directions",
    "C53_altaz_of_any_direction",
    "C53_up_is_the_normal"
   ],
   "note": ""
  },
  {
   "property": "C54",
   "status": "proved",
   "theorems": [
    "C54_surface",
    "C54_elevation_along_the_normal",
    "C54_true_latitude_is_a_fixed_point",
    "C54_longitude"
   ],
   "note": ""
  },
  {
   "property": "C55",
   "status": "proved",
   "theorems": [
    "C55_state_has_the_elements"
   ],
   "note": "Real arithmetic; the true anomaly is on the branch (1 + e cos v > 0)."
  },
  {
   "property": "C56",
   "status": "partial",
   "theorems": [
    "C56_elliptical_partial",
    "C56_found_partial",
    "C56_near_parabola_refuted",
    "C56_quarter_pi_refuted",
    "C56_circular_refuted",
    "C56_hyperbolic_refuted",
    "C56_parabolic_refuted"
   ],
   "note": "Finding: circular orbits are refused, hyperbolic orbits are given the elliptical equation, Barker's equation is solved with A + (A^2 + 1) in place of A + sqrt(A^2 + 1), and at the periapsis of an orbit with an eccentricity within 1e-11 of 1 the ten steps do not suffice, so that the orbit is refused (as is an eccentricity of pi/4). Elliptical: what is returned solves the equation to 5e-14 up to turns, and up to an eccentricity of 0.85 a solution is always found; between 0.85 and 1 - 1e-11 that is not decided."
  },
  {
   "property": "C57",
   "status": "partial",
   "theorems": [
    "C57_reads_change_nothing_partial",
    "C57_elementary_attributes_are_stable_partial",
    "C57_stable_after_first_almanac_call_partial",
    "C57_almanac_call_refuted",
    "C57_mixed_nutation_refuted",
    "C57_reading_P_breaks_M_refuted"
   ],
   "note": "Finding: the claim is false, in three ways, each proved of the model. (1) Every almanac function overwrites _nutation_angles_radians of the caller's time with the IAU 2000B value, so later reads of nutation, gast, N, M, C differ from a fresh object (C57_almanac_call_refuted). (2) Between reads this leaves one object mixing both nutations (C57_mixed_nutation_refuted). (3) P = reify(precession_matrix) stores under the wrapped function's __name__, hiding the method: reading t.P (which mean_equator_and_equinox_of_date does) before t.M makes t.M raise TypeError (C57_reading_P_breaks_M_refuted). What holds: reads that avoid the deprecated P, N, PT, NT change nothing; attributes that involve no nutation never change; after a first almanac call everything is stable. The numerical routines are opaque parameters."
  },
  {
   "property": "C58",
   "status": "proved",
   "theorems": [
    "C58_toordinal"
   ],
   "note": ""
  },
  {
   "property": "C59",
   "status": "partial",
   "theorems": [
    "C59_geocentric_position_partial",
    "C59_sums_are_connected",
    "C59_beyond_a_satellite_refuted"
   ],
   "note": "Finding. Proved for chains whose last vector starts at the Earth; for a chain that continues beyond a satellite of the Earth the attached vector is the position of the barycenter relative to the Earth, not the observer's."
  },
  {
   "property": "C60",
   "status": "proved",
   "theorems": [
    "C60_text_reads_back"
   ],
   "note": ""
  },
  {
   "property": "C61",
   "status": "proved",
   "theorems": [
    "C61_earth_fixed_velocity",
    "C61_horizon_velocity",
    "C61_site_velocity"
   ],
   "note": ""
  },
  {
   "property": "C62",
   "status": "proved",
   "theorems": [
    "C62_first_point_of_the_ray"
   ],
   "note": ""
  },
  {
   "property": "C63",
   "status": "proved",
   "theorems": [
    "C63_latitude_and_height_are_recovered",
    "C63_on_the_earth"
   ],
   "note": ""
  },
  {
   "property": "C64",
   "status": "proved",
   "theorems": [
    "C64_altaz_there_and_back",
    "C64_hour_angle"
   ],
   "note": ""
  },
  {
   "property": "C65",
   "status": "proved",
   "theorems": [
    "C65_follows_newton",
    "C65_motion_exists",
    "C65_motion_unique",
    "C65_epoch",
    "C65_series",
    "C65_refusals"
   ],
   "note": "Proved for the code's own Stumpff functions over real arithmetic; the distance from the motion is bounded explicitly (position_slack, velocity_slack), as long as the search stays within the range of floats and the series error is small against the periapsis (drift <= pace/2)."
  },
  {
   "property": "C66",
   "status": "proved",
   "theorems": [
    "C66_elements_come_back",
    "C66_state_comes_back"
   ],
   "note": "Real arithmetic; inclination strictly between 0 and PI and e > 1e-15 for elements to state to elements; e = 0 or e > 1e-15 for state to elements to state."
  },
  {
   "property": "C67",
   "status": "partial",
   "theorems": [
    "C67_elliptical",
    "C67_parabolic",
    "C67_hyperbolic_partial",
    "C67_hyperbolic_refuted"
   ],
   "note": "Finding: for hyperbolic orbits the hyperbolic anomaly is wrapped into [-PI, PI), so beyond that a periapsis in the past is reported in the future."
  },
  {
   "property": "C68",
   "status": "partial",
   "theorems": [
    "C68_refused_partial",
    "C68_refuted"
   ],
   "note": "Finding: the test is on v and not on its absolute value, so v = -PI with e = 2 is accepted."
  },
  {
   "property": "C69",
   "status": "partial",
   "theorems": [
    "C69_periapsis_partial",
    "C69_mean_anomaly_partial",
    "C69_true_anomaly_refuted"
   ],
   "note": "Finding: _from_true_anomaly stores km^3/s^2 in the attribute that is propagated as au^3/d^2."
  },
  {
   "property": "C70",
   "status": "proved",
   "theorems": [
    "C70_comet_perihelion",
    "C70_comet_eccentricity",
    "C70_comets_of_a_table"
   ],
   "note": ""
  },
  {
   "property": "C71",
   "status": "partial",
   "theorems": [
    "C71_second_below_60_partial",
    "C71_fraction_below_60_partial",
    "C71_second_below_60_refuted"
   ],
   "note": "Finding: just below a minute boundary 59 + fraction rounds to 60.0 (refuted). Proved for times built from UTC fields whose second is whole, or at most 60 - 2^-36."
  },
  {
   "property": "C72",
   "status": "partial",
   "theorems": [
    "C72_order_is_transitive_partial",
    "C72_equality_is_transitive_refuted"
   ],
   "note": "Finding: equality is not transitive between times with different whole parts (refuted). Proved for times sharing their whole part."
  },
  {
   "property": "C73",
   "status": "proved",
   "theorems": [
    "C73_lorentz",
    "C73_at_rest",
    "C73_length",
    "C73_inverse",
    "C73_towards",
    "C73_cosine",
    "C73_rotated"
   ],
   "note": "Real arithmetic; light time equal to the distance over the speed of light, as observe() sets it."
  },
  {
   "property": "C74",
   "status": "partial",
   "theorems": [
    "C74_deflection_partial",
    "C74_without_masses_partial",
    "C74_pushed_away_partial",
    "C74_many_masses_partial",
    "C74_earth_partial",
    "C74_at_a_mass_refuted"
   ],
   "note": "Finding: an observer at the centre of a deflecting body (for example sun.at(t).observe(x).apparent()) gets NaN, proved from the model. Proved otherwise: perpendicular, exact size, pushes away, for targets not within 1e-11 of straight in front of or behind the mass."
  },
  {
   "property": "C75",
   "status": "proved",
   "theorems": [
    "C75_limb"
   ],
   "note": "Real arithmetic."
  },
  {
   "property": "C76",
   "status": "proved",
   "theorems": [
    "C76_closest"
   ],
   "note": "Real arithmetic; the closest approach is judged, as in the code, against the body's position at the time of observation."
  },
  {
   "property": "C77",
   "status": "proved",
   "theorems": [
    "C77_place",
    "C77_rates",
    "C77_shrinks_little"
   ],
   "note": "Real arithmetic. The rates carry the Doppler factor and sin(parallax)/parallax, both made explicit."
  },
  {
   "property": "C78",
   "status": "partial",
   "theorems": [
    "C78_vector_rate_partial",
    "C78_velocity_refuted"
   ],
   "note": "Finding: the velocity returned is the observer's minus the star's, the opposite of the rate of the vector (refuted for every star at rest). Proved: what the rate really is."
  },
  {
   "property": "C79",
   "status": "partial",
   "theorems": [
    "C79_solved_partial",
    "C79_arrays_partial",
    "C79_high_pressure_refuted"
   ],
   "note": "Finding: at 10000 millibars the loop never ends for a true altitude of 89.9 degrees (refuted). Proved for pressure and temperature with 0.28 P/(T+273) <= 3, which covers the Earth's surface: stops within 112 passes and solves the equation."
  },
  {
   "property": "C80",
   "status": "partial",
   "theorems": [
    "C80_arrays_partial",
    "C80_same_partial",
    "C80_positive_kept_partial",
    "C80_scalar_refuted"
   ],
   "note": "Finding: a single NaN parallax stays NaN, in an array it becomes the default (refuted). Proved for every value that is not NaN, and for arrays without exception."
  },
  {
   "property": "C81",
   "status": "partial",
   "theorems": [
    "C81_transits_partial",
    "C81_at_the_start_refuted",
    "C81_risings_and_settings_partial"
   ],
   "note": "Finding: an event exactly at the start time (or any sample time) makes the interpolation divide zero by zero, and the result is NaN (refuted, over the reals). Proved for every other event."
  },
  {
   "property": "C82",
   "status": "proved",
   "theorems": [
    "C82_rising_and_setting_events",
    "C82_transit_events",
    "C82_horizon"
   ],
   "note": ""
  },
  {
   "property": "C83",
   "status": "proved",
   "theorems": [
    "C83_false_means_no_crossing",
    "C83_true_means_crossing_or_parabola",
    "C83_parabola_crossed_exactly"
   ],
   "note": ""
  },
  {
   "property": "C84",
   "status": "partial",
   "theorems": [
    "C84_rates_partial",
    "C84_horizon_rates_partial",
    "C84_coordinates",
    "C84_divisors_positive",
    "C84_adding_tiny",
    "C84_at_the_pole_refuted"
   ],
   "note": "Finding: straight over a pole (or through the zenith) a rate of zero is reported although the latitude has no derivative there (refuted). Proved wherever x^2+y^2 >= 2^-968 au^2, for the plain and for the turning horizon frame; the added constant is proved exact in binary64."
  },
  {
   "property": "C85",
   "status": "proved",
   "theorems": [
    "C85_rate_matrix",
    "C85_same_rotation",
    "C85_place_velocity"
   ],
   "note": "Real arithmetic; angles are arbitrary differentiable functions of time."
  },
  {
   "property": "C86",
   "status": "proved",
   "theorems": [
    "C86_rotation",
    "C86_axes",
    "C86_place",
    "C86_horizon",
    "C86_zenith",
    "C86_orthogonal",
    "C86_radius"
   ],
   "note": "Real arithmetic."
  },
  {
   "property": "C87",
   "status": "partial",
   "theorems": [
    "C87_still_frame_partial",
    "C87_turning_frame_refuted"
   ],
   "note": "Finding: Frame lacks the rate hook that frame_xyz_and_velocity looks for, so the turning of the body is ignored (refuted). Proved for frames that stand still."
  },
  {
   "property": "C88",
   "status": "partial",
   "theorems": [
    "C88_angles_partial",
    "C88_matrix_partial",
    "C88_plain",
    "C88_two_offsets_refuted"
   ],
   "note": "Finding: a frame relative to another fixed-offset frame (MOON_ME, as defined in the NAIF lunar kernel) raises LookupError (refuted). Proved for frames one offset away from a frame with a segment."
  },
  {
   "property": "C89",
   "status": "proved",
   "theorems": [
    "C89_given_back",
    "C89_uses_change_nothing"
   ],
   "note": "Single numbers; arrays apply the same operations to each element."
  },
  {
   "property": "C90",
   "status": "proved",
   "theorems": [
    "C90_conversions",
    "C90_rates",
    "C90_one_hour"
   ],
   "note": "Includes the error of the stored constants AU_KM and tau, with pi bounded to nineteen digits in Pi_Bounds.v. Single numbers."
  },
  {
   "property": "C91",
   "status": "partial",
   "theorems": [
    "C91_copy_partial",
    "C91_copy_differs_refuted",
    "C91_copy_style_refuted"
   ],
   "note": "Findings: the copy of Angle(degrees=187) does not read 187 degrees (rounding), and the copy of an angle in hours is shown in degrees (both refuted). Proved: the radians agree exactly."
  },
  {
   "property": "C92",
   "status": "partial",
   "theorems": [
    "C92_shows_partial",
    "C92_no_argument_refuted",
    "C92_radians_constructor_refuted"
   ],
   "note": "Findings: Angle() is accepted and then every unit raises TypeError; Angle.radians(x) makes an object without preference, whose str(), dms() and hms() raise AttributeError (both refuted). Proved for every Angle(...) with at least one argument."
  },
  {
   "property": "C93",
   "status": "proved",
   "theorems": [
    "C93_right_ascension",
    "C93_azimuth",
    "C93_only_angle"
   ],
   "note": "Over the reals; the second position is not exactly at a pole, where the tangent is undefined."
  },
  {
   "property": "C94",
   "status": "partial",
   "theorems": [
    "C94_radius_and_direction",
    "C94_bearing",
    "C94_shapes_kept",
    "C94_no_two_alike",
    "C94_distance_does_not_matter",
    "C94_middle",
    "C94_middle_of_many",
    "C94_defined_partial",
    "C94_centre_at_pole_refuted"
   ],
   "note": "Finding: with the centre exactly on the z-axis (the celestial pole) every position gives nan (division by zero), refuted. Proved: all other centres."
  },
  {
   "property": "C95",
   "status": "partial",
   "theorems": [
    "C95_geometry",
    "C95_accepted_targets",
    "C95_distances",
    "C95_all_distances_scaled",
    "C95_formulae_join",
    "C95_unknown_partial",
    "C95_documented_cases_refuted"
   ],
   "note": "Finding: Saturn's magnitude is also nan when the latitudes of Sun and observer exceed 27 degrees in geometric mean, at any phase angle (refuted; not reachable from the Earth). The coefficients of the formulae are taken as they are. The steps between the formulae are at most 0.0215 magnitudes."
  },
  {
   "property": "C96",
   "status": "proved",
   "theorems": [
    "C96_phase_angle",
    "C96_lit_part",
    "C96_fraction_range",
    "C96_full_and_new",
    "C96_smaller_angle_more_light",
    "C96_moon_node"
   ],
   "note": "The Sun's position is taken at the time of observation, as the code does. The ecliptic position of the Moon is an input."
  },
  {
   "property": "C97",
   "status": "partial",
   "theorems": [
    "C97_difference_partial",
    "C97_centers_must_agree",
    "C97_negative_partial",
    "C97_one_and_many_partial",
    "C97_one_and_three_refuted",
    "C97_times_refuted",
    "C97_negative_class_refuted"
   ],
   "note": "Findings (refuted): subtracting one position from an array of exactly three spreads the components of the one over the three; positions at different times are subtracted silently; the negative of a barycentric position keeps the class Barycentric, and its observe() then answers from a wrong place. Proved: equal times and shapes, other mixed shapes raise ValueError."
  },
  {
   "property": "C98",
   "status": "partial",
   "theorems": [
    "C98_element_partial",
    "C98_out_of_range",
    "C98_single",
    "C98_radec_partial",
    "C98_hadec_partial",
    "C98_separation_partial",
    "C98_separation_from_one_partial",
    "C98_altaz_partial",
    "C98_apparent_refuted",
    "C98_sunlit_refuted",
    "C98_phase_refuted",
    "C98_observer_refuted",
    "C98_earth_deflection_refuted"
   ],
   "note": "Findings (refuted): p[i] loses center_barycentric, _ephemeris and _observer_gcrs_au, so that astrometric[i].apparent() and phase_angle() raise AttributeError, is_sunlit() and is_behind_earth() ValueError, observer[i].observe(b).apparent() TypeError; with deflectors=() the last one silently omits the Earth's deflection. Proved: radec, hadec, separation_from and altaz."
  },
  {
   "property": "C99",
   "status": "partial",
   "theorems": [
    "C99_observed_partial",
    "C99_difference_partial",
    "C99_no_horizon_partial",
    "C99_hour_angle",
    "C99_no_meridian",
    "C99_from_altaz_partial",
    "C99_wrong_error_refuted",
    "C99_own_horizon_refuted"
   ],
   "note": "Findings (refuted): without a known observer and rotation altaz() raises AttributeError instead of its own ValueError (getattr lacks a default); (earth + place).at(t).altaz() answers with the direction from the barycenter; the result of from_altaz() has neither time nor center and cannot be asked for altaz() or hadec(). Refraction is C79."
  },
  {
   "property": "C100",
   "status": "partial",
   "theorems": [
    "C100_there_and_back",
    "C100_of_an_epoch_partial",
    "C100_of_an_epoch_close_partial",
    "C100_epochs_partial",
    "C100_cirs_float_refuted"
   ],
   "note": "Finding (refuted): cirs_xyz(float) raises AttributeError, because a Time built from a float has no timescale for Delta T. The exact inverse for an epoch assumes an orthogonal matrix; for the code's matrix, whose frame bias is orthogonal only to 1e-14, the vector is right to 3e-14 of its length."
  },
  {
   "property": "C101",
   "status": "proved",
   "theorems": [
    "C101_sunlit",
    "C101_behind_earth",
    "C101_unknown",
    "C101_apparent_keeps_the_place"
   ],
   "note": "Over the reals. The geocentric position of the observer is a hypothesis here; which sums of vectors provide it is C59."
  },
  {
   "property": "C102",
   "status": "proved",
   "theorems": [
    "C102_earth_rotation_angle",
    "C102_however_the_date_is_split",
    "C102_one_day",
    "C102_mean_sidereal_time",
    "C102_apparent_sidereal_time"
   ],
   "note": "Over the reals; the nutation angles and complementary terms are inputs here."
  },
  {
   "property": "C103",
   "status": "proved",
   "theorems": [
    "C103_both_routes_to_the_terrestrial_frame",
    "C103_equation_of_the_origins",
    "C103_hour_angle_from_the_equinox",
    "C103_hour_angle_from_the_origin",
    "C103_right_ascension_is_unique",
    "C103_zenith",
    "C103_zenith_and_the_pole"
   ],
   "note": "Over the reals. The zenith bound is the displacement of the pole plus the 47 microarcseconds per century that lst_hours_at adds even when no polar motion table is loaded."
  },
  {
   "property": "C104",
   "status": "proved",
   "theorems": [
    "C104_angle",
    "C104_rate",
    "C104_velocity",
    "C104_frames_meet",
    "C104_satellite_over_the_ground"
   ],
   "note": "Over the reals; SGP4's own output is an input. The closeness 6e-14 is the frame bias matrix, orthogonal only to 1e-14."
  },
  {
   "property": "C105",
   "status": "partial",
   "theorems": [
    "C105_table_between_rows",
    "C105_table_before",
    "C105_table_after",
    "C105_pole",
    "C105_velocity_of_a_place_partial",
    "C105_velocity_in_the_frame_partial",
    "C105_velocity_of_a_place_refuted"
   ],
   "note": "Finding (refuted): with a polar motion table, velocities are computed about the pole of the axes instead of the pole of rotation; a station at the pole is said to stand still. Proved: the error is at most 1.3e-7 of the radius per day, from the rounded ANGVEL, plus 13 times the displacement of the pole."
  },
  {
   "property": "C106",
   "status": "partial",
   "theorems": [
    "C106_terra",
    "C106_reverse_terra_partial",
    "C106_reverse_terra_over_a_pole_refuted",
    "C106_to_GCRS_and_back",
    "C106_to_GCRS2_partial",
    "C106_to_GCRS2_with_a_pole_refuted",
    "C106_high_accuracy_partial",
    "C106_high_accuracy_refuted"
   ],
   "note": "Findings (refuted): reverse_terra gives an elevation of about -6.4e6 m for every point exactly over a pole; ITRF_to_GCRS2 ignores polar motion, which ITRF_to_GCRS applies; with _high_accuracy the velocity has the wrong sign and is 86000 times too large when sidereal time passes 24 hours within the second."
  },
  {
   "property": "C107",
   "status": "proved",
   "theorems": [
    "C107_nutation_is_the_published_series",
    "C107_skyfield_nutation"
   ],
   "note": "Over the reals; the tables of data/nutation.npz are transcribed in Nutation_Data.v."
  },
  {
   "property": "C108",
   "status": "partial",
   "theorems": [
    "C108_arguments_cut_after_so_many_terms_partial",
    "C108_arguments_are_reduced",
    "C108_one_term_is_five",
    "C108_one_term_refuted"
   ],
   "note": "Finding (refuted): terms=1 makes the slice start at 0 and silently computes all five terms instead of one. Proved for 2 to 5 terms."
  },
  {
   "property": "C109",
   "status": "proved",
   "theorems": [
    "C109_arrays_date_by_date"
   ],
   "note": "Over the reals."
  },
  {
   "property": "C110",
   "status": "proved",
   "theorems": [
    "C110_shortened_series"
   ],
   "note": "Over the reals."
  },
  {
   "property": "C111",
   "status": "partial",
   "theorems": [
    "C111_fast_nutation_partial",
    "C111_fast_nutation_refuted",
    "C111_sidereal_time_of_fast_nutation"
   ],
   "note": "Finding (refuted): on Julian date 2450895 (March 1998) the longitudes differ by more than 2 mas. Proved: never by more than 12.43 mas in longitude and 4.72 mas in obliquity, which changes apparent sidereal time by less than 1 ms."
  },
  {
   "property": "C112",
   "status": "proved",
   "theorems": [
    "C112_complementary_terms",
    "C112_same_arguments_as_nutation",
    "C112_complementary_terms_are_small",
    "C112_units_of_nutation",
    "C112_earth_tilt"
   ],
   "note": "Over the reals."
  },
  {
   "property": "C113",
   "status": "partial",
   "theorems": [
    "C113_utc_text_partial",
    "C113_formats_are_read_as_written",
    "C113_an_unfinished_directive_stands_for_itself",
    "C113_searches_find_directives",
    "C113_microseconds_have_six_digits",
    "C113_percent_signs_refuted",
    "C113_second_f_refuted",
    "C113_r_is_not_rounded_refuted"
   ],
   "note": "Findings (refuted): '%%f' is read as '%f' and prints '%Z'; only the first '%f' of a format is replaced; '%r' shows seconds that are truncated, not rounded. Proved for all other formats without %Z and %z, which the documentation excludes."
  },
  {
   "property": "C114",
   "status": "partial",
   "theorems": [
    "C114_nearest_minute_partial",
    "C114_long_minutes_refuted"
   ],
   "note": "Finding (refuted): in the 61 seconds before midnight of a leap second day, 23:59:30.7 prints as 23:59 though midnight is nearer. Proved for all other minutes; the error is below 31 s."
  },
  {
   "property": "C115",
   "status": "partial",
   "theorems": [
    "C115_scale_text_partial",
    "C115_tai_and_tt_text_partial",
    "C115_weeks_refuted"
   ],
   "note": "Finding (refuted): the day of the year is only computed if the format has '%j', so '%U' (and any other week directive) prints week 00 or 01 all year. Proved for the rest, for Julian dates from -0.5 on (see C13 for the weekday before)."
  },
  {
   "property": "C116",
   "status": "proved",
   "theorems": [
    "C116_calendar_denotes_the_time",
    "C116_tai_and_tt_calendars",
    "C116_calendar_roundtrip"
   ],
   "note": "In exact rational arithmetic."
  },
  {
   "property": "C117",
   "status": "proved",
   "theorems": [
    "C117_membership_is_decoding",
    "C117_decode_finds_what_is_there",
    "C117_decode_rejects_only_unknown_names",
    "C117_case_does_not_matter",
    "C117_names_lists_the_table",
    "C117_names_has_each_body_once",
    "C117_listed_names_decode",
    "C117_decoded_names_are_listed",
    "C117_last_name_is_displayed",
    "C117_closed_kernels_are_empty"
   ],
   "note": ""
  },
  {
   "property": "C118",
   "status": "partial",
   "theorems": [
    "C118_report_reads_back",
    "C118_report_dates_partial",
    "C118_report_is_a_day_early_refuted",
    "C118_de421_refuted"
   ],
   "note": "Finding (refuted): dates are computed from int(jd), so every range that begins at midnight is printed a day early: DE421 is printed as beginning 1899-07-28 though its first day is 1899-07-29. The order and grouping of lines are proved."
  },
  {
   "property": "C119",
   "status": "partial",
   "theorems": [
    "C119_range_error_dates_partial",
    "C119_type3_refuted"
   ],
   "note": "Finding (refuted): segments of type 3 have no handler and raise jplephem's own error. Proved for type 2."
  },
  {
   "property": "C120",
   "status": "partial",
   "theorems": [
    "C120_packed_epoch_is_its_date",
    "C120_unpack_partial",
    "C120_unpack_hundred_refuted",
    "C120_unpack_keeps_written_ones"
   ],
   "note": "Finding (refuted): numbers from 100 on are packed with a letter, as in 'DK88AA30', and make unpack raise ValueError; proved below 100. int() is modelled on digits only."
  },
  {
   "property": "C121",
   "status": "partial",
   "theorems": [
    "C121_constellations_read_back",
    "C121_odd_count_of_stars_is_an_error",
    "C121_star_names_partial",
    "C121_names_are_cut_at_a_space_refuted"
   ],
   "note": "Finding (refuted): parse_star_names cuts a name at its first space: Barnard's Star is read as \"Barnard's\". Proved for names of one word; constellations are proved in full."
  },
  {
   "property": "C122",
   "status": "proved",
   "theorems": [
    "C122_joined_delta_t",
    "C122_dates_of_data",
    "C122_dates_of_predictions"
   ],
   "note": "In exact rational arithmetic; numpy.loadtxt is not modelled."
  },
  {
   "property": "C123",
   "status": "proved",
   "theorems": [
    "C123_polar_motion_dates",
    "C123_polar_motion_dates_go_up",
    "C123_finals_read_back"
   ],
   "note": "In exact rational arithmetic; the file is given as lines."
  },
  {
   "property": "C124",
   "status": "partial",
   "theorems": [
    "C124_plain_name",
    "C124_alias_partial",
    "C124_two_brackets_refuted",
    "C124_lookups_find_the_last",
    "C124_dictionary_is_built"
   ],
   "note": "Finding (refuted): a name with two opening brackets raises ValueError and the whole file cannot be loaded."
  },
  {
   "property": "C125",
   "status": "partial",
   "theorems": [
    "C125_star_angles",
    "C125_altaz_angles",
    "C125_topos_angles",
    "C125_radec_partial",
    "C125_radec_tuple_refuted",
    "C125_what_is_refused",
    "C125_topos_integer_refuted",
    "C125_altaz_list_refuted"
   ],
   "note": "Findings (refuted): position_of_radec reads an (h, m, s) tuple as three separate angles; Topos refuses an integer where it accepts a float; from_altaz refuses lists that Star accepts. In exact real arithmetic; float64(None) is treated as an error."
  },
  {
   "property": "C126",
   "status": "proved",
   "theorems": [
    "C126_place_text",
    "C126_no_direction_is_refused",
    "C126_topos_text"
   ],
   "note": "In exact arithmetic; the number is written with digits and an optional point and sign (no exponents)."
  },
  {
   "property": "C127",
   "status": "partial",
   "theorems": [
    "C127_star_of_columns",
    "C127_hipparcos",
    "C127_radial_velocity_refuted"
   ],
   "note": "Finding (refuted): a column radial_km_per_s is ignored, so a frame's radial velocities are always 0. pandas itself is not modelled: a line is split at bars and fields are read as numbers."
  },
  {
   "property": "C128",
   "status": "partial",
   "theorems": [
    "C128_every_time_is_the_sum_partial",
    "C128_dimensions_partial",
    "C128_without_fraction",
    "C128_tai_partial",
    "C128_ut1_partial",
    "C128_integers_refuted",
    "C128_integer_delta_t_refuted"
   ],
   "note": "Findings (refuted): with an array of integers a fractional number is truncated, so tt_jd([2451545, 2451546], 0.5) loses the half day; timescale(delta_t=32) with an integer makes ut1_jd of any array raise TypeError. Arrays are modelled in a store, with shapes, broadcasting and element types; elements are exact rationals. Delta T is constant in the ut1_jd theorem."
  },
  {
   "property": "C129",
   "status": "partial",
   "theorems": [
    "C129_arguments_untouched_partial",
    "C129_julian_years",
    "C129_later_changes_do_not_matter_partial",
    "C129_shape_refuted",
    "C129_kept_array_refuted",
    "C129_ut1_kept_array_refuted",
    "C129_delta_t_array_refuted"
   ],
   "note": "Findings (refuted): tt_jd of two arrays with different numbers of dimensions changes the shape of the caller's array; tt_jd(array, fraction) and ut1_jd(array) keep the caller's array; ut1_jd divides in place the array that a delta_t function returns."
  },
  {
   "property": "C130",
   "status": "partial",
   "theorems": [
    "C130_indexing_commutes_with_tt",
    "C130_indexing_keeps_the_fractions",
    "C130_length_is_where_indexing_stops",
    "C130_constructors_are_uniform_partial",
    "C130_constructors_without_fraction_are_uniform",
    "C130_julian_years_refuted"
   ],
   "note": "Finding (refuted): times built by J(array) have a length but cannot be indexed. Indices are non-negative integers (no slices, masks or negative indices)."
  },
  {
   "property": "C131",
   "status": "partial",
   "theorems": [
    "C131_datetimes_denote_their_instant_partial",
    "C131_order_partial",
    "C131_what_is_refused",
    "C131_lists",
    "C131_utc_takes_datetimes",
    "C131_a_date_is_its_midnight",
    "C131_now_is_what_the_clock_says",
    "C131_julian_leap_days_refuted"
   ],
   "note": "Finding (refuted): under a Julian cutoff a zone's offset is applied in the Gregorian calendar of datetime, so an hour of difference across a Julian leap day moves the time by a day. The instant is proved for dates on which the timescale uses the Gregorian calendar. tzinfo is a function giving the offset; folds and gaps are inside it."
  },
  {
   "property": "C132",
   "status": "partial",
   "theorems": [
    "C132_astimezone_shows_the_time",
    "C132_what_is_refused",
    "C132_only_other_years_are_refused",
    "C132_normalize_changes_nothing",
    "C132_arrays",
    "C132_julian_leap_days_refuted"
   ],
   "note": "Finding (refuted): under a Julian cutoff the date shown in a zone can skip a Julian February 29. The conversion back and the refusals are proved for every calendar; that the datetime stands for the time, on Gregorian dates."
  },
  {
   "property": "C133",
   "status": "partial",
   "theorems": [
    "C133_leap_day_message_partial",
    "C133_negative_year_message",
    "C133_leap_day_message_refuted"
   ],
   "note": "Finding (refuted): February 29 of the year 12000 exists in the Gregorian calendar, yet the message blames the Julian one, since the test is only on month and day. Proved for years 1 to 9999."
  },
  {
   "property": "C134",
   "status": "proved",
   "theorems": [
    "C134_utc_takes_fractions_of_days",
    "C134_tai_and_tt_take_fractions_of_days",
    "C134_epoch_of_two_lines",
    "C134_epoch_of_a_satrec",
    "C134_epoch_of_an_omm",
    "C134_a_moment_is_one_instant",
    "C134_targets_differ"
   ],
   "note": "The library sgp4, which reads the elements, is outside: a satrec is what it read. from_omm is proved for jdsatepoch that is a whole number of seconds."
  },
  {
   "property": "C135",
   "status": "partial",
   "theorems": [
    "C135_sgp4_is_given_utc_partial",
    "C135_later_times_are_later_partial",
    "C135_inside_a_leap_second",
    "C135_nothing_has_elapsed_at_the_epoch",
    "C135_elapsed_time",
    "C135_time_goes_back_in_a_leap_second_refuted",
    "C135_a_leap_second_is_not_counted_refuted"
   ],
   "note": "Findings (refuted): inside a leap second the offset of UTC is interpolated to half a second, so the time given to SGP4 jumps back by half a second when the leap second begins and again when it ends; and leap seconds between epoch and time are not counted as elapsed. The exact values in both cases are proved."
  },
  {
   "property": "C136",
   "status": "partial",
   "theorems": [
    "C136_the_map_can_be_built",
    "C136_the_map_follows_the_catalogue_partial",
    "C136_lines_belong_to_their_west",
    "C136_the_rule_names_one_constellation",
    "C136_on_a_line_refuted"
   ],
   "note": "Finding (refuted): the search in right ascension is on the left side, so a position exactly on a line of right ascension gets the constellation to its west, though the catalogue includes the lower right ascension. Off the lines the equivalence is proved (C136_the_map_follows_the_catalogue_partial), and on the lines the western answer is proved. Outside: rounding of the hours to floats, the .npz file, the precession of the position to B1875."
  },
  {
   "property": "C137",
   "status": "proved",
   "theorems": [
    "C137_names_are_read_as_written"
   ],
   "note": "The packaged file is any file of such lines; decoding is outside."
  },
  {
   "property": "C138",
   "status": "proved",
   "theorems": [
    "C138_minor_planets_are_read_by_columns",
    "C138_comets_are_read_by_columns"
   ],
   "note": "pandas is outside: read_fwf is taken to slice and strip lines and to skip empty ones; conversion of texts to numbers or NaN is not included."
  },
  {
   "property": "C139",
   "status": "partial",
   "theorems": [
    "C139_the_fast_reader_keeps_the_orbit_partial",
    "C139_long_designations_refuted",
    "C139_missing_references_refuted"
   ],
   "note": "Findings (refuted): a designation of 56 characters that fills its columns, or a line without a reference, does not match the regular expression; the whole line then becomes the year of perihelion. Proved for lines whose designation is at most 55 characters with no two blanks in a row, begins in its first column, whose reference is not empty and which do not end in blanks (C139_the_fast_reader_keeps_the_orbit_partial). pandas.read_csv is taken to split at the separator."
  },
  {
   "property": "C140",
   "status": "proved",
   "theorems": [
    "C140_decimal_prints_as_typed",
    "C140_tuple_prints_as_typed"
   ],
   "note": "Binary64 throughout, with conversion of the typed digits to the nearest float taken as given."
  },
  {
   "property": "C141",
   "status": "partial",
   "theorems": [
    "C141_fields_and_error",
    "C141_nearest_partial",
    "C141_nearest_refuted"
   ],
   "note": "Finding (refuted): the float 0x1.23456789abcdfp-13 is less than half an arcsecond and prints as 1 arcsecond, because the product by 3600 is rounded up to one half. Proved for angles further than the rounding error from half way, and a bound of half a unit plus the rounding error for all."
  },
  {
   "property": "C142",
   "status": "proved",
   "theorems": [
    "C142_julian_dates",
    "C142_calendar_dates",
    "C142_utc_dates"
   ],
   "note": "Over the rationals. When the day of a TT or TAI calendar date has a fraction itself, that fraction stays in the first number, and only the second is claimed to be within a day."
  },
  {
   "property": "C143",
   "status": "proved",
   "theorems": [
    "C143_matrices_are_as_defined",
    "C143_every_definition_has_its_matrix",
    "C143_galactic_pole_and_origin",
    "C143_ecliptic_of_J2000",
    "C143_named_frames"
   ],
   "note": "The numbers of the table as the decimals written; the definitions are those of the SPICE toolkit's chgirf.f, transcribed in Frames_Spec. Sines and cosines by Taylor series with exact rational arithmetic."
  },
  {
   "property": "C144",
   "status": "proved",
   "theorems": [
    "C144_fixed_frames",
    "C144_all_frames"
   ],
   "note": "Over the reals."
  },
  {
   "property": "C145",
   "status": "proved",
   "theorems": [
    "C145_latitude_and_longitude_give_the_vector_back",
    "C145_arrays",
    "C145_ecliptic_of_date",
    "C145_equatorial_frames_are_radec",
    "C145_old_names",
    "C145_fixed_frames_by_old_names"
   ],
   "note": "Over the reals; a time is given by its TT, and what nutation and the timescale make of it is a parameter."
  },
  {
   "property": "C146",
   "status": "proved",
   "theorems": [
    "C146_evenly_spaced",
    "C146_one_or_none"
   ],
   "note": "Over the rationals; numpy.linspace is modelled by its defining formula."
  },
  {
   "property": "C147",
   "status": "proved",
   "theorems": [
    "C147_four_angles_agree_with_three"
   ],
   "note": "Over the reals, by Taylor models checked in exact integer arithmetic (Taylor_Models). The published coefficients are in Precession_Spec."
  },
  {
   "property": "C148",
   "status": "proved",
   "theorems": [
    "C148_pole_of_the_mean_ecliptic",
    "C148_pole_of_the_ecliptic_frame"
   ],
   "note": "Over the reals, by Taylor models. The published coefficients of P_A and Q_A are in Precession_Spec."
  },
  {
   "property": "C149",
   "status": "proved",
   "theorems": [
    "C149_sidereal_time_follows_the_equinox"
   ],
   "note": "Over the reals. The rate of the equinox is taken from the derivative of the first row of the matrix, not from the angles."
  },
  {
   "property": "C150",
   "status": "proved",
   "theorems": [
    "C150_semi_major_axis",
    "C150_nearest",
    "C150_farthest",
    "C150_period",
    "C150_mean_motion",
    "C150_shape"
   ],
   "note": "Over the reals. The motion is any solution of Newton's equation through the state; C65 shows that one exists and is unique."
  },
  {
   "property": "C151",
   "status": "partial",
   "theorems": [
    "C151_elements_stay",
    "C151_elliptical_partial",
    "C151_parabolic",
    "C151_hyperbolic_partial",
    "C151_mean_anomaly",
    "C151_mean_longitude",
    "C151_argument_of_latitude",
    "C151_longitudes_in_the_plane",
    "C151_longitudes"
   ],
   "note": "Over the reals. Partial: not exactly at apoapsis (the tangent in eccentric_anomaly has no value there; the code's floats give a value near pi), eccentricities between 0 and 1e-15 are left out, and hyperbolic orbits only while the hyperbolic anomaly is in [-pi, pi): beyond that periapsis_time is wrong, the finding of C67."
  },
  {
   "property": "C152",
   "status": "partial",
   "theorems": [
    "C152_frame",
    "C152_units_and_mass",
    "C152_two_bodies",
    "C152_symmetric_partial",
    "C152_barycenter",
    "C152_object",
    "C152_satellite",
    "C152_systems",
    "C152_counted_twice_refuted"
   ],
   "note": "Partial: a finding. With a member of a system as center and the system's barycenter as target the member is counted twice (C152_counted_twice_refuted: Earth and Earth-Moon barycenter give 1.99 times the system's mass one way round and the system's mass the other)."
  },
  {
   "property": "C153",
   "status": "partial",
   "theorems": [
    "C153_lanes_partial",
    "C153_refused",
    "C153_apoapsis_refuted"
   ],
   "note": "Partial: a finding. For eccentricities in [1 - 1e-15, 1) the apoapsis distance is finite for one state and infinite in an array. Eccentricities of exactly 1e-15 or 1 - 1e-15 are left out, where the comparisons of the two versions differ."
  },
  {
   "property": "C154",
   "status": "partial",
   "theorems": [
    "C154_tokens_of_a_line_partial",
    "C154_tokens_of_a_file_partial",
    "C154_other_files_refused",
    "C154_tabs_do_not_separate_refuted",
    "C154_doubled_quote_refuted"
   ],
   "note": "Partial: findings. A tab does not separate tokens, though NAIF allows it (C154_tabs_do_not_separate_refuted), and a text with a doubled quote is cut in two (C154_doubled_quote_refuted). Names have two characters or more (a single letter is glued to what follows, a finding of C40)."
  },
  {
   "property": "C155",
   "status": "partial",
   "theorems": [
    "C155_values_partial",
    "C155_kernel_read_partial",
    "C155_negative_integers_become_real",
    "C155_lower_case_d_refuted",
    "C155_dates_refuted",
    "C155_kernel_with_a_date_refuted"
   ],
   "note": "The rounding of float() to binary64 is left out: the value is the exact decimal. Partial: findings. A lower-case d exponent, which NAIF allows, is refused (C155_lower_case_d_refuted), so is every date (C155_dates_refuted). A variable with one value that is appended to is the finding of C40, left out here."
  },
  {
   "property": "C156",
   "status": "partial",
   "theorems": [
    "C156_where_files_are",
    "C156_what_is_done_with_a_file",
    "C156_every_way_asks_for_the_same_partial",
    "C156_download_partial",
    "C156_download_of_a_url",
    "C156_unknown_names_cause_no_request",
    "C156_load_file",
    "C156_name_with_a_directory_refuted"
   ],
   "note": "Partial: a finding. A name with a directory such as sub/de421.bsp is stored by download in the loader's directory, where calling the loader with the same name does not look (C156_name_with_a_directory_refuted); the theorems are for names without slashes and URL punctuation. The making of the directory by Loader() and messages in its log are not modelled."
  },
  {
   "property": "C157",
   "status": "proved",
   "theorems": [
    "C157_builtin_reads_and_asks_for_nothing",
    "C157_old_files_are_used_without_a_download",
    "C157_otherwise_finals2000A"
   ],
   "note": "For the standard tables. Reading the files is C122, C123 and C158."
  },
  {
   "property": "C158",
   "status": "proved",
   "theorems": [
    "C158_delta_t_is_restored",
    "C158_rounded_values_have_seven_digits",
    "C158_rint",
    "C158_dates_are_restored"
   ],
   "note": "In binary64. round(7) is modelled as numpy does it: scaled, rounded half to even, scaled back. The compression and the storage of the npz file are not modelled."
  },
  {
   "property": "C159",
   "status": "proved",
   "theorems": [
    "C159_seasons",
    "C159_moon_phases",
    "C159_solar_terms"
   ],
   "note": "The longitudes are functions of time over the reals; the search is over rational Julian dates and its rounding is not modelled here."
  },
  {
   "property": "C160",
   "status": "partial",
   "theorems": [
    "C160_oppositions_and_conjunctions_partial",
    "C160_moon_partial",
    "C160_inner_planets_partial",
    "C160_moon_refuted",
    "C160_transits"
   ],
   "note": "Partial: a finding. The step of 14 days for the Moon is longer than the shortest interval between New Moon and Full Moon (about 13 days 22 hours), so that both can be missed (C160_moon_refuted gives such a motion at 12.9 degrees a day and an interval for which nothing is returned). The theorems need at most half a turn in a step, and a target that advances always or that stays within half a turn of the Sun."
  },
  {
   "property": "C161",
   "status": "partial",
   "theorems": [
    "C161_sunrise_and_sunset",
    "C161_risings_and_settings_partial",
    "C161_short_stay_refuted",
    "C161_nodes",
    "C161_dawn",
    "C161_dusk"
   ],
   "note": "Partial: a finding. risings_and_settings looks only every quarter of a day, so that a body up for less than six hours can be missed (C161_short_stay_refuted, up for 4 h 21 min). For the Sun the step is documented as catching days at least an hour long. Twilights are proved for an interval in which the Sun rises all the time, or falls all the time."
  },
  {
   "property": "C162",
   "status": "partial",
   "theorems": [
    "C162_calendar_tuple_partial",
    "C162_read_back_partial",
    "C162_nearest_second",
    "C162_nearest_minute",
    "C162_microseconds_partial",
    "C162_whole_seconds",
    "C162_tai_and_tt",
    "C162_exact_refuted",
    "C162_microseconds_refuted",
    "C162_weekday_refuted"
   ],
   "note": "Partial: three findings. (1) Whole seconds do not come back exactly from tt_calendar: 00:00:01 reads 0.99999999999696 (C162_exact_refuted). (2) tt_strftime with %f prints such seconds as .999999 (C162_microseconds_refuted): the offset 1e-16 that should prevent it is below half a unit in the last place of the day fraction. (3) Within some 20 microseconds before the date changes, _strftime prints the weekday and day of the year of the next day with the date of this one (C162_weekday_refuted), which answers the TODO at timelib.py 228. The bounds and the whole-second theorem hold for all inputs."
  },
  {
   "property": "C163",
   "status": "proved",
   "theorems": [
    "C163_ellipse",
    "C163_hyperbola",
    "C163_parabola",
    "C163_accepted",
    "C163_perihelion_date",
    "C163_at"
   ],
   "note": "Over the real numbers. The motion is related to the listed elements exactly; at() follows it within the slack of C65 plus 1e-15 of the distance, the departure of the ECLIPJ2000 matrix from orthogonality."
  },
  {
   "property": "C164",
   "status": "proved",
   "theorems": [
    "C164_ellipse",
    "C164_accepted"
   ],
   "note": "Over the real numbers. An object exactly at aphelion at its epoch is excluded, as in C56. Rows between eccentricity 0.85 and 1-1e-13 are placed rightly whenever they are accepted."
  },
  {
   "property": "C165",
   "status": "proved",
   "theorems": [
    "C165_kept",
    "C165_comet_elements",
    "C165_minor_planet_elements"
   ],
   "note": "Over the real numbers; the mass and epoch of every orbit and the elements of every inclined, noncircular orbit."
  },
  {
   "property": "C166",
   "status": "partial",
   "theorems": [
    "C166_wrapped_partial",
    "C166_turns_partial",
    "C166_sidereal_partial",
    "C166_signed_partial",
    "C166_below_partial",
    "C166_whole_turn_partial",
    "C166_wrapped_refuted"
   ],
   "note": "Finding: for every float between -2^-51 and 0 the wrapped angle is exactly one whole turn (24h, 360 degrees), so the half-open range is refuted; proved is the closed range, the error of each function, and that all other angles from minus one turn up give less than a turn. In binary64; the value returned by arctan2 is an input."
  },
  {
   "property": "C167",
   "status": "proved",
   "theorems": [
    "C167_length",
    "C167_separation",
    "C167_symmetric",
    "C167_self",
    "C167_opposite"
   ],
   "note": "In binary64; arctan2 of the mathematical library is a parameter assumed accurate to 2^-52."
  },
  {
   "property": "C168",
   "status": "proved",
   "theorems": [
    "C168_ends_in_order",
    "C168_nothing_missed",
    "C168_times_in_order_required"
   ],
   "note": "In binary64, with step_days; the function of time is a total function of one float."
  },
  {
   "property": "C169",
   "status": "partial",
   "theorems": [
    "C169_events_real_partial",
    "C169_samples_refuted",
    "C169_epsilon_refuted",
    "C169_endless_refuted"
   ],
   "note": "Finding. In binary64: with num=50 and the default epsilon, or with epsilon=1e-9 days, one change can be reported as three events (new, old, new) out of order; with epsilon=1e-10 days, below the spacing of Julian dates in floats, the loop never ends. Proved for all arguments: each reported event is a change seen between two samples within epsilon."
  },
  {
   "property": "C170",
   "status": "proved",
   "theorems": [
    "C170_coordinates",
    "C170_round_trip"
   ],
   "note": "The library functions are parameters; Examples show that such functions exist."
  },
  {
   "property": "C171",
   "status": "proved",
   "theorems": [
    "C171_converges"
   ],
   "note": "Binary64 model of the loop on arrays; the positions come from a function that is any approximation of the path to 1e-11 au."
  },
  {
   "property": "C172",
   "status": "partial",
   "theorems": [
    "C172_entry_right_partial",
    "C172_undefined_entry_partial",
    "C172_entries_independent_refuted"
   ],
   "note": "Finding: the maximum of an array with a NaN is NaN and the comparison false, so one undefined position makes observe() raise ValueError (light-travel time failed to converge) for the whole array. Proved: an undefined entry always has this effect, and whenever there is an answer every defined entry of it is right."
  },
  {
   "property": "C173",
   "status": "proved",
   "theorems": [
    "C173_rotated",
    "C173_there_and_back",
    "C173_separation",
    "C173_horizon",
    "C173_body"
   ],
   "note": "sin, cos, arctan2, the sum of three products and the sum of nine are parameters; Examples show that such functions exist. A product by mxmxm counts as three turns more, and a matrix whose entries are written out as k turns more if each entry is within 4 k roundings of the rotation it stands for (C175 instantiates both)."
  },
  {
   "property": "C174",
   "status": "proved",
   "theorems": [
    "C174_frame_latlon",
    "C174_placed"
   ],
   "note": "Refraction is left out (C79 covers it over the reals). C175 instantiates the turns with those from the axes of the sky."
  },
  {
   "property": "C175",
   "status": "proved",
   "theorems": [
    "C175_itrs",
    "C175_altaz",
    "C175_ecliptic",
    "C175_rotations",
    "C175_bias"
   ],
   "note": "The angles of the date are floats given to the model: the polynomials and series they are computed from are not part of it (they are covered over the reals). The floats of the constants of the frame bias are those of the literals. Refraction is left out."
  },
  {
   "property": "C176",
   "status": "proved",
   "theorems": [
    "C176_place",
    "C176_geographic",
    "C176_there_and_back",
    "C176_wgs84",
    "C176_iers2010"
   ],
   "note": "Angles are in radians and lengths in au: the conversions from degrees and metres are in other properties. The vector is the one in the axes of the Earth. The longitude is bounded for latitudes whose cosine is 2^-30 or more."
  },
  {
   "property": "C177",
   "status": "proved",
   "theorems": [
    "C177_aberration",
    "C177_lorentz",
    "C177_at_rest",
    "C177_closest"
   ],
   "note": "The velocity that is exactly zero is treated on its own; velocities between zero and 2^-60 au a day (1.5e-12 metres a second) are not covered."
  },
  {
   "property": "C178",
   "status": "proved",
   "theorems": [
    "C178_deflection",
    "C178_limb",
    "C178_in_line"
   ],
   "note": "One deflector at a time; the sum over deflectors and the time at which each is taken are in C74 and C177."
  },
  {
   "property": "C179",
   "status": "proved",
   "theorems": [
    "C179_apparent",
    "C179_four",
    "C179_path"
   ],
   "note": "The vectors to the deflectors are given as floats; the time at which each is taken is in C76 and C177, and the flag that switches the Earth's deflection off below 0.8 of its radius is not part of the float model (C74 has it over the reals)."
  },
  {
   "property": "C180",
   "status": "partial",
   "theorems": [
    "C180_read_back_partial",
    "C180_whole_seconds",
    "C180_delta_t",
    "C180_exact_refuted",
    "C180_microseconds_refuted"
   ],
   "note": "Finding: ts.ut1(2000, 1, 1, 0, 0, 1).ut1_calendar() gives 0.9999946 s and prints with %f as 00:00:00.999994, where TT and TAI dates come back within 2^-33 s (C162). The source has a TODO about passing on the precision. Missing for the full claim: that precision."
  },
  {
   "property": "C181",
   "status": "proved",
   "theorems": [
    "C181_curve",
    "C181_inside",
    "C181_next_row_too_early"
   ],
   "note": "C181_next_row_too_early is a witness that the row is chosen wrongly just below a joint and that the step between the rows cannot be left out of the bound. For the shipped Delta T table (C21) steps are up to a millisecond, ratios up to 8 and coefficients up to 20372 s. NumPy's interp is modelled after arr_interp without fused multiply-add."
  },
  {
   "property": "C182",
   "status": "proved",
   "theorems": [
    "C182_table",
    "C182_curve",
    "C182_ut1"
   ],
   "note": "Arrays of dates are handled element by element. NumPy's interp is modelled after arr_interp without fused multiply-add. The construction of the curve and of the table (build_delta_t, build_timescale_arrays) is modelled over the reals only (C21-C23)."
  },
  {
   "property": "C183",
   "status": "proved",
   "theorems": [
    "C183_ut1_fraction",
    "C183_ut1",
    "C183_round_trip",
    "C183_dut1",
    "C183_julian_year",
    "C183_pole",
    "C183_daily_table"
   ],
   "note": "For dut1 the count of leap seconds looked up is taken to be a whole number, which holds away from the second during which it changes. The term sprime of polar_motion_angles is not part of this model."
  },
  {
   "property": "C184",
   "status": "proved",
   "theorems": [
    "C184_earth_rotation_angle",
    "C184_sidereal_time",
    "C184_local_sidereal_time"
   ],
   "note": "The bounds are those of the code as written: sharing a turn between jd and the small rate keeps the error independent of the whole turns."
  },
  {
   "property": "C185",
   "status": "proved",
   "theorems": [
    "C185_mean_obliquity",
    "C185_theta",
    "C185_theta_dot"
   ],
   "note": "Angles in radians are compared with the float tau, not with the real number 2 pi."
  },
  {
   "property": "C186",
   "status": "proved",
   "theorems": [
    "C186_precession_angles",
    "C186_sprime"
   ],
   "note": "The step from these angles to the matrix is in FrameF_Model, with the sine and cosine as parameters. Radians are counted with the 25-digit literal of constants.py."
  },
  {
   "property": "C187",
   "status": "proved",
   "theorems": [
    "C187_fundamental_arguments",
    "C187_fmod_exact"
   ],
   "note": "For the default of five polynomial terms. Radians are counted with the 25-digit literal of constants.py."
  },
  {
   "property": "C188",
   "status": "proved",
   "theorems": [
    "C188_complementary_arguments"
   ],
   "note": "Two of the constants in this function have one digit more than in fundamental_arguments; the bound covers the difference of 2 microarcseconds. The sums of sines over these arguments are modelled in the real numbers only."
  },
  {
   "property": "C189",
   "status": "proved",
   "theorems": [
    "C189_tdb_minus_tt",
    "C189_tdb_fraction"
   ],
   "note": "The accuracy of NumPy's sine is a hypothesis (good_sine); a sine that meets it is exhibited. A time that was built from its TDB carries a tdb_fraction of its own; C189 is about the computed one."
  },
  {
   "property": "C190",
   "status": "proved",
   "theorems": [
    "C190_tt_of_tdb",
    "C190_round_trip"
   ],
   "note": "The split into whole and fraction by _normalize_jd_and_fraction comes before this. The accuracy of NumPy's sine is the hypothesis good_sine, as in C189. Timescale.tdb of a calendar date, which puts all of the date in whole, is not covered."
  },
  {
   "property": "C191",
   "status": "proved",
   "theorems": [
    "C191_apparent_sidereal_time",
    "C191_equation_of_the_equinoxes"
   ],
   "note": "The nutation in longitude, the mean obliquity and the complementary terms are given as floats: their sums of sines are modelled in the real numbers only. The turn is the float tau, as in the code. The accuracy of NumPy's cosine is the hypothesis good_function."
  }
 ]
}