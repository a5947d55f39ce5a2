# A machine-checked model of Skyfield

The code under study is `/repo/skyfield`. The proofs are in Coq 8.16.1 under
`rocq/theories`. This file says what is modelled, how each property is proved,
and what has to be trusted.

## How the development is organised

Each area has up to four files.

* `*_Model.v`: Gallina functions that follow the Python code branch by branch.
  Each definition carries a comment that cites the file and lines in `/repo`.
  Exceptions are values.
* `*_Spec.v`: small independent definitions used to state the properties
  (civil-calendar rules, ray geometry, directory contents and so on).
* `*_Proofs.v`: lemmas.
* `P_*.v`: the property theorems only. Each is closed by `exact lemma.` and
  followed by `Print Assumptions`. Each has an `Example` showing that a concrete
  non-trivial case meets its hypotheses.

Theorem name suffixes:

* `_partial`: the theorem covers only part of the English property. The comment
  above it says what is missing.
* `_refuted`: the property is false of the model of the unchanged code. The
  theorem gives a witness. It is a finding about the code.

## Number systems

Skyfield computes with IEEE binary64 floats, Python integers and NumPy arrays.
The model uses:

* `Z` for integer arithmetic. Coq's `Z.div` and `Z.modulo` are floor division
  and its remainder, which is Python's `//` and `%` on integers. NumPy integers
  are modelled as unbounded.
* `Q` for quantities that need only field operations and comparisons (times in
  searches, second fractions, angles being split into fields). Every finite
  float is a rational. Rounding is idealised away, so such theorems are about
  exact arithmetic.
* `R` where the code uses square roots or trigonometry. Again exact arithmetic.
* binary64 where a property is about rounding. The operations are those of the
  standard library's `SpecFloat` (`Float64.v`), which are ordinary functions on
  integers. `Float64_Proofs.v` proves that they agree with Flocq's
  `BinarySingleNaN` operations, and with them with rounding to nearest even on
  the reals. Coq's primitive floats are not used, so no axiom about them is.
  Witnesses of refutations are computed.

## Plan per property

| id | model | method |
|----|-------|--------|
| C01 | `julian_day`, `compute_calendar_date` over `Z` | linear arithmetic over floor divisions, for all integer years |
| C02 | same, against a civil `next_day` rule | induction on days, case split on month |
| C03 | same with cutoff | case split on the cutoff; a refutation for early cutoffs |
| C04 | same | successor lemma over days |
| C05 | `julian_day` | algebra of floor division |
| C06, C07, C09 | `_utc`, `_utc_seconds`, `_utc_tuple`, `_utc_jd` with `numpy.interp` over an arbitrary leap table | characterise `interp` on well-formed tables by induction on the table |
| C08 | same functions over Flocq-rounded reals | every intermediate value is shown representable |
| C10 | `parse_leap_seconds`, `Timescale.__init__` slices | list algebra |
| C11, C12 | `utc_iso`, `utc_jpl`, datetime conversion over `Z` seconds and `Q` fractions | reduce to C07 |
| C13 | weekday and yday expressions | modular arithmetic; refutations for negative days and for rounding |
| C14 | `Time.__add__`, `__sub__`, comparisons over `Q` | field laws |
| C15 | comparisons over Flocq-rounded reals | symmetry of rounding |
| C16 | `__eq__`, `__hash__` on binary64 | refutation by computation |
| C17 | `__getitem__`, `_tai_seconds` | exact arithmetic proof; refutation on binary64 |
| C18, C19 | scale conversions over `R` | triangle inequality, Lipschitz argument |
| C20 | `Splines`, `build_spline_given_ends` | `field`, derivative of a Horner evaluation |
| C21, C22 | `build_delta_t`, `DeltaT` | joint equations; refutation for short tables |
| C23 | `build_timescale_arrays` | induction over the daily series |
| C24-C27 | `_find_discrete` over `Q` with fuel | invariant on the list of brackets |
| C28, C29 | `find_maxima` over `Q` with fuel | invariants on the sample list |
| C30 | merge step of `find_events` | from C25 plus sorting |
| C31, C32 | `_setting_hour_angle`, `_intersection` over `R` | trigonometric and quadratic identities |
| C33, C34 | decision expressions | case analysis; refutation on binary64 |
| C35-C37 | file-system transition system for `download` with crashes and interleavings | inductive invariants over all schedules |
| C38 | `Loader` decision logic | case analysis |
| C39 | `parse_tle_file` over lists of lines | refinement to a declarative list of pairs |
| C40 | `text_pck` load loop | refinement to a map; refutation of append after scalar |
| C41-C43 | vector functions as an inductive expression type; kernel lookup; stacks | structural induction |
| C44 | light-time loop over `R` | contraction |
| C45-C47 | sexagesimal functions over `Q` | floor arithmetic |
| C48-C53 | matrices and vectors over `R` | `ring`/`nsatz`/trigonometry |
| C54 | geoid functions over `R` | identities |
| C55, C56 | Kepler functions over `R` | identities; refutations |
| C57 | time object as an attribute cache | invariant over operation lists; refutations |
| C58 | `toordinal` | reduce to C07 |
| C59 | sums of vector functions with observer data | structural induction; refutation |
| C60 | printed angles over `Q` | floor arithmetic |
| C61 | frame rotations and rates over `R` | derivatives |
| C62-C64 | ellipsoid, geoid and altazimuth functions over `R` | quadratic identities, contraction bounds, trigonometry |
| C65-C70 | Stumpff series, propagation, elements, comets over `R` | series bounds, derivatives, identities; refutations |
| C71, C72 | UTC fields and order in binary64 | rounding lemmas; refutations |
| C73 | aberration | Lorentz transformation as the specification; algebra of dot products |
| C74, C75, C76 | deflection, limb angle, deflector position | vector geometry; refutation at a mass |
| C77, C78 | star vectors | derivatives of the spherical coordinates; refutation of the velocity |
| C79 | refraction loop | contraction with explicit constants; refutation |
| C80 | missing parallax in binary64 | case analysis; refutation |
| C81-C83 | `_find` over `R`, with the hour angle a function of time | intermediate values, induction over the sample list, error bounds per round |
| C84-C88 | `planetarylib.py` and `_to_spherical_and_rates` over `R`; kernel variables a partial map | matrix derivatives, induction over the list of axis rotations, binary64 absorption of the added constant |
| C89-C92 | `Distance`, `Velocity`, `Angle` as attribute dictionaries in binary64; rates | invariant over all sequences of calls, relative rounding errors through Flocq, pi to nineteen digits |
| C93-C96 | `trigonometry.py`, `projections.py`, `magnitudelib.py`, phase angles | spherical trigonometry over R, orthonormal local axes, slopes of polynomials and of logarithms |
| C97-C101 | `positionlib.py`: building, subtracting, negating, indexing, observing and asking positions | NumPy broadcasting as values, lanes, world positions as specification, attributes as record fields |
| C102-C106 | `earthlib.py`, sidereal time, polar motion and CIRS in `timelib.py`, `framelib.py` terrestrial frames, TEME in `sgp4lib.py`, old conversions of `positionlib.py` | real matrices and derivatives; equality modulo one turn; published formulas as specification |
| C107-C112 | `nutationlib.py`, data/nutation.npz | real series over whole-number tables; matrices as lists of rows; sine table by exact rotation steps for the refutation |
| C113-C116 | `timelib.py` text and calendars | formats as lists of pieces against a scanner for the two regular expressions; exact rationals; the C library's directives are a parameter |
| C117-C119 | `jpllib.py` kernels' names, report and range errors | lists of segments; jplephem's evaluation is a parameter that may be out of range |
| C120-C124 | `data/mpc.py`, `data/stellarium.py`, `data/iers.py`, `io_timescale.py`, `iokit.py` texts | lists of characters; exact rationals |
| C125-C127 | `units.py` angle arguments, `toposlib.Topos`, `starlib.Star`, `positionlib` angles, `data/hipparcos.py` | kinds of Python argument; exact numbers with sign bits |
| C128-C130 | `timelib.py` array constructors, `__len__`, `__getitem__`; `functions.py` `_to_array`, `_reconcile` | store of arrays with shapes and element types; exact rationals |
| C131-C133 | `timelib.py` `from_datetime(s)`, `utc(datetime/date)`, `now`, `astimezone*`, `_upgrade_datetime_exception` | datetimes as Gregorian fields with an offset; zones as functions from instants to offsets |
| C134-C135 | `sgp4lib.py` epochs and the time given to SGP4; `timelib.py` `_leap_seconds`, fractional days | the library sgp4 is outside; exact rationals |
| C136-C137 | `constellationlib.py`, `builders/build_constellations.py` | exact rationals; precession to B1875, `.npz` file and rounding are outside |
| C138-C139 | `data/mpc.py` column tables, `load_mpcorb_dataframe`, `load_comets_dataframe`, `load_comets_dataframe_slow` | pandas as slicing, stripping and splitting; numbers stay texts |
| C140-C141, C47 | `units.py` `_sexagesimalize_to_float`, `_sexagesimalize_to_int`, `_sfmt`, `_unsexagesimalize`, `wms`, `dms`, `hms` in binary64 (SexaF_Model) | finite floats; `numpy.sign`, `copysign` and `divmod` as specified for binary64 |
| C142 | `timelib.py` `tt_jd`, `tai_jd`, `_jd`, `_utc`, `_utc_jd`, `_normalize_jd_and_fraction`: the two parts (Time_Model) | exact rationals |
| C143-C145 | `data/spice.py`, `framelib.py` except the frames that turn with the Earth (Spin_Model), `positionlib.py` `frame_xyz`, `frame_latlon`, `ecliptic_*`, `galactic_*`, `_Fake` (Frames_Model) | reals; literals as decimals |
| C146 | `timelib.py` `Timescale.linspace` (Time_Model) | exact rationals |
| C147-C149 | `precessionlib.py` `compute_precession`, `nutationlib.py` `mean_obliquity`, `earthlib.py` `sidereal_time` (Geo_Model, Spin_Model), `framelib.py` `build_ecliptic_matrix` (Frames_Model) against published expressions | reals |
| C150-C153 | `elementslib.py` `osculating_elements_of`, `OsculatingElements` with its attributes for one state and for arrays; `data/gravitational_parameters.py` (Elements_Model) | reals |
| C154-C155 | `data/text_pck.py` `_parse_tokens`, `_evaluate`, `load`; `planetarylib.py` `read_text` (Pool_Model, Files_Model) | text, integers, rationals |
| C156-C158 | `iokit.py` `Loader.__init__`, `build_url`, `download`, `timescale`, `load_file`; unpacking of `iers.npz` and its packing in `builders/build_arrays.py` (Loader_Model) | text, binary64 |
| C159-C161 | `almanac.py` `seasons`, `moon_phases`, `moon_nodes`, `oppositions_conjunctions`, `meridian_transits`, `sunrise_sunset`, `dark_twilight_day`, `risings_and_settings`; `almanac_east_asia.py` `solar_terms`, with their `step_days` and `find_discrete` (Phases_Model) | R, Q |
| C162 | `timelib.py` `Timescale._jd`, `tt` and `tai` from dates, `calendar_tuple`, `_strftime` in binary64 (CalF_Model) | binary64 |
| C163-C165 | `data/mpc.py` `mpcorb_orbit`, `comet_orbit`; `keplerlib.py` `_at`, `elements_at_epoch`; `julian_day` with a fractional day (Mpc_Model) | R |
| C166 | the operator `%` on floats and its uses in `functions.py`, `almanac.py`, `elementslib.py`, `earthlib.py`, `timelib.py`, `toposlib.py`, `positionlib.py` (Wrap_Model) | binary64 |
| C167 | `functions.py` `length_of`, `angle_between`; `separation_from` (SepF_Model) | binary64 |
| C168-C169 | `searchlib.py` `find_discrete`, `_find_discrete` on float times (SearchF_Model) | binary64 |
| C170 | `functions.py` `to_spherical`, `from_spherical` in floats (SphF_Model) | binary64 |
| C171, C172 | `vectorlib.py` `_correct_for_light_travel_time` on arrays, in floats (LightF_Model) | binary64 |
| C173 | `functions.py` `mxv`, `mxm`, `T`, `rot_x`, `rot_y`, `rot_z` in floats; `toposlib.py` `_R_latlon`, `planetarylib.py` `Frame` (RotF_Model) | binary64 |
| C174 | `positionlib.py` `frame_latlon`, `_to_altaz` in floats (AltF_Model) | binary64 |
| C175 | `precessionlib.py` `compute_precession`, `nutationlib.py` `build_nutation_matrix`, `framelib.py` `build_matrix`, `itrs`, `build_ecliptic_matrix`, `timelib.py` `Time.M`, `polar_motion_matrix`, `toposlib.py` `rotation_at` in floats (FrameF_Model) | binary64 |
| C176 | `toposlib.py` `Geoid.__init__`, `latlon`, `_compute_latitude`, `latlon_of`, `height_of`, `geographic_position_of`, the floats of `wgs84` and `iers2010` (GeodF_Model) | binary64 |
| C177 | `relativity.py` `add_aberration`, `light_time_difference`; `functions.py` `dots` (AberF_Model) | binary64 |
| C178 | `relativity.py` `_compute_deflection`; `constants.py` `GS`, `C`, `AU_M` (DeflF_Model) | binary64 |
| C179 | `positionlib.py` `Astrometric.apparent`: the loop over deflectors and aberration, given the vectors to the deflectors (AppF_Model) | binary64 |
| C180 | `timelib.py` `Timescale.ut1`, `ut1_jd`, `Time.ut1_calendar`, `ut1_strftime`, with the Delta T function a parameter (Ut1F_Model) | binary64 |
| C181 | `curvelib.py` `Splines.__init__` and `__call__` for one date (SplF_Model) | binary64 |
| C182 | `timelib.py` `DeltaT.__call__` for one date (DeltaF_Model) | binary64 |
| C183 | `timelib.py` `Time.delta_t`, `ut1_fraction`, `ut1`, `_leap_seconds`, `dut1`, `J`, the table lookups of `polar_motion_angles` (ReadF_Model) | binary64 |
| C184 | `earthlib.py` `earth_rotation_angle`, `sidereal_time` (EraF_Model, Wrap_Model) | binary64 |
| C185 | `nutationlib.py` `mean_obliquity`; `sgp4lib.py` `theta_GMST1982` (ObliqF_Model) | binary64 |
| C186 | `precessionlib.py` angles of `compute_precession`; `timelib.py` `sprime` of `polar_motion_angles` (PrecF_Model) | binary64 |
| C187 | `nutationlib.py` `fundamental_arguments` with five terms (FundF_Model) | binary64 |
| C188 | `nutationlib.py` arguments of `equation_of_the_equinoxes_complimentary_terms` (CompF_Model) | binary64 |
| C189 | `timelib.py` `tdb_minus_tt`, `Time.tdb_fraction` (TdbF_Model) | binary64, the sine a parameter |
| C190 | `timelib.py` `Timescale.tdb_jd` (TdbF_Model2) | binary64, the sine a parameter |
| C191 | `timelib.py` `Time.gast` (GastF_Model) | binary64, the cosine a parameter |

No property in the list is inexpressible.

## Trusted base

* Coq's kernel, with its `vm_compute` machine for a few closed computations.
  `coqchk` rechecks every file.
* The reading of the Python code that each model comment records, including the
  meaning given to Python's and NumPy's operators.
* What `Print Assumptions` prints under each theorem, listed in the next
  section. Only axioms of Coq's standard library appear: those of `Reals`
  (`sig_forall_dec`, `sig_not_dec`, `functional_extensionality_dep`) and classical
  logic (`classic`), the latter through Flocq, Coquelicot and parts of `Reals`.
  No axiom is added here, and none comes from another library.
* External code is never assumed to be right. Where a function calls out of the
  modelled part (ephemeris segments, SGP4, file systems, user
  functions) the model takes it as a parameter, and the theorem states the
  hypotheses it needs about it.

## Assumptions of each theorem

<!-- generated: assumptions -->

**none: closed under the global context** (275 theorems)

`C01_gregorian_date_roundtrip`, `C01_julian_date_roundtrip`, `C01_reformed_date_roundtrip`, `C02_day_count_unique`, `C02_julian_day_counts_days`, `C02_julian_day_is_the_day_number`, `C02_julian_day_strictly_increasing`, `C02_julian_day_with_cutoff_is_the_day_number`, `C03_day_roundtrip_partial`, `C03_day_roundtrip_refuted`, `C04_calendar_date_advances`, `C04_calendar_date_valid`, `C04_first_day_of_reform`, `C05_any_month_and_day`, `C05_day_overflow`, `C05_month_overflow`, `C06_utc_roundtrip`, `C07_every_instant_has_a_reading`, `C07_fields_in_range_and_60_only_in_leap_seconds`, `C07_later_instants_read_later`, `C07_rebuilding_gives_the_same_instant`, `C09_utc_julian_date_agrees_with_fields`, `C10_documented_lookup_gives_the_offset_in_force`, `C10_legacy_table_equals_plain_table`, `C113_an_unfinished_directive_stands_for_itself`, `C113_formats_are_read_as_written`, `C113_microseconds_have_six_digits`, `C113_percent_signs_refuted`, `C113_r_is_not_rounded_refuted`, `C113_searches_find_directives`, `C113_second_f_refuted`, `C113_utc_text_partial`, `C114_long_minutes_refuted`, `C114_nearest_minute_partial`, `C115_scale_text_partial`, `C115_tai_and_tt_text_partial`, `C115_weeks_refuted`, `C116_calendar_denotes_the_time`, `C116_calendar_roundtrip`, `C116_tai_and_tt_calendars`, `C117_case_does_not_matter`, `C117_closed_kernels_are_empty`, `C117_decode_finds_what_is_there`, `C117_decode_rejects_only_unknown_names`, `C117_decoded_names_are_listed`, `C117_last_name_is_displayed`, `C117_listed_names_decode`, `C117_membership_is_decoding`, `C117_names_has_each_body_once`, `C117_names_lists_the_table`, `C118_de421_refuted`, `C118_report_dates_partial`, `C118_report_is_a_day_early_refuted`, `C118_report_reads_back`, `C119_range_error_dates_partial`, `C119_type3_refuted`, `C11_iso_text_is_nearest`, `C11_jpl_text_is_nearest`, `C11_second_60_only_for_leap_seconds`, `C120_packed_epoch_is_its_date`, `C120_unpack_hundred_refuted`, `C120_unpack_keeps_written_ones`, `C120_unpack_partial`, `C121_constellations_read_back`, `C121_names_are_cut_at_a_space_refuted`, `C121_odd_count_of_stars_is_an_error`, `C121_star_names_partial`, `C122_dates_of_data`, `C122_dates_of_predictions`, `C122_joined_delta_t`, `C123_finals_read_back`, `C123_polar_motion_dates`, `C123_polar_motion_dates_go_up`, `C124_alias_partial`, `C124_dictionary_is_built`, `C124_lookups_find_the_last`, `C124_plain_name`, `C124_two_brackets_refuted`, `C126_no_direction_is_refused`, `C126_place_text`, `C128_dimensions_partial`, `C128_every_time_is_the_sum_partial`, `C128_integer_delta_t_refuted`, `C128_integers_refuted`, `C128_tai_partial`, `C128_ut1_partial`, `C128_without_fraction`, `C129_arguments_untouched_partial`, `C129_delta_t_array_refuted`, `C129_julian_years`, `C129_kept_array_refuted`, `C129_later_changes_do_not_matter_partial`, `C129_shape_refuted`, `C129_ut1_kept_array_refuted`, `C12_datetime_is_nearest_microsecond`, `C12_datetime_roundtrip`, `C130_constructors_are_uniform_partial`, `C130_constructors_without_fraction_are_uniform`, `C130_indexing_commutes_with_tt`, `C130_indexing_keeps_the_fractions`, `C130_julian_years_refuted`, `C130_length_is_where_indexing_stops`, `C131_a_date_is_its_midnight`, `C131_datetimes_denote_their_instant_partial`, `C131_julian_leap_days_refuted`, `C131_lists`, `C131_now_is_what_the_clock_says`, `C131_order_partial`, `C131_utc_takes_datetimes`, `C131_what_is_refused`, `C132_arrays`, `C132_astimezone_shows_the_time`, `C132_julian_leap_days_refuted`, `C132_normalize_changes_nothing`, `C132_only_other_years_are_refused`, `C132_what_is_refused`, `C133_leap_day_message_partial`, `C133_leap_day_message_refuted`, `C133_negative_year_message`, `C134_a_moment_is_one_instant`, `C134_epoch_of_a_satrec`, `C134_epoch_of_an_omm`, `C134_epoch_of_two_lines`, `C134_tai_and_tt_take_fractions_of_days`, `C134_targets_differ`, `C134_utc_takes_fractions_of_days`, `C135_a_leap_second_is_not_counted_refuted`, `C135_elapsed_time`, `C135_inside_a_leap_second`, `C135_later_times_are_later_partial`, `C135_nothing_has_elapsed_at_the_epoch`, `C135_sgp4_is_given_utc_partial`, `C135_time_goes_back_in_a_leap_second_refuted`, `C136_lines_belong_to_their_west`, `C136_on_a_line_refuted`, `C136_the_map_can_be_built`, `C136_the_map_follows_the_catalogue_partial`, `C136_the_rule_names_one_constellation`, `C137_names_are_read_as_written`, `C138_comets_are_read_by_columns`, `C138_minor_planets_are_read_by_columns`, `C139_long_designations_refuted`, `C139_missing_references_refuted`, `C139_the_fast_reader_keeps_the_orbit_partial`, `C13_day_of_year`, `C13_strftime_day_of_year`, `C13_strftime_weekday_partial`, `C13_strftime_weekday_refuted`, `C13_utc_day_of_year`, `C13_weekday_in_floats_refuted`, `C13_weekday_is_saturday_2000_and_advances`, `C142_calendar_dates`, `C142_julian_dates`, `C142_utc_dates`, `C146_evenly_spaced`, `C146_one_or_none`, `C14_time_arithmetic`, `C152_object`, `C154_doubled_quote_refuted`, `C154_other_files_refused`, `C154_tabs_do_not_separate_refuted`, `C154_tokens_of_a_file_partial`, `C154_tokens_of_a_line_partial`, `C155_dates_refuted`, `C155_kernel_read_partial`, `C155_kernel_with_a_date_refuted`, `C155_lower_case_d_refuted`, `C155_negative_integers_become_real`, `C155_values_partial`, `C156_download_of_a_url`, `C156_download_partial`, `C156_every_way_asks_for_the_same_partial`, `C156_load_file`, `C156_name_with_a_directory_refuted`, `C156_unknown_names_cause_no_request`, `C156_what_is_done_with_a_file`, `C156_where_files_are`, `C157_builtin_reads_and_asks_for_nothing`, `C157_old_files_are_used_without_a_download`, `C157_otherwise_finals2000A`, `C15_equality_is_symmetric`, `C162_exact_refuted`, `C162_microseconds_refuted`, `C167_symmetric`, `C169_events_real_partial`, `C16_equal_times_hash_alike_refuted`, `C172_undefined_entry_partial`, `C17_getitem_in_floats_partial`, `C17_getitem_in_floats_refuted`, `C17_getitem_partial`, `C180_microseconds_refuted`, `C18_scale_inputs_come_back`, `C18_tt_minus_tai`, `C24_events_are_real`, `C25_events_form_a_chain_partial`, `C25_one_sample_per_round_loses_events_refuted`, `C26_nothing_slower_than_the_step_is_missed`, `C26_one_event_per_change_between_samples`, `C26_samples_are_closer_than_the_step`, `C27_search_ends_partial`, `C27_two_samples_per_round_never_end_refuted`, `C28_maxima_are_separated_and_inside`, `C29_one_peak_is_found_partial`, `C29_one_valley_is_found_partial`, `C29_peak_near_the_start_is_missed_refuted`, `C30_culmination_before_rise_refuted`, `C30_passes_are_well_formed_partial`, `C33_opposition_code_2_refuted`, `C35_no_partial_file_partial`, `C35_truncated_file_is_installed_refuted`, `C36_a_temporary_name_is_found`, `C36_backup_leaves_a_moment_without_a_file_refuted`, `C36_destination_is_whole_partial`, `C36_each_process_owns_its_temporary_file`, `C37_backup_keeps_the_previous_file_partial`, `C37_every_version_survives_partial`, `C37_two_backups_race_refuted`, `C38_builtin_needs_no_network`, `C38_extension_as_name_refuted`, `C38_last_component_of_the_path`, `C38_loader_decisions_partial`, `C38_open`, `C38_open_local_needs_no_network`, `C38_unknown_url`, `C38_urls`, `C39_element_sets`, `C40_append_to_a_single_value_refuted`, `C40_kernel_text_partial`, `C40_last_assignment_then_appends_partial`, `C40_only_appends_partial`, `C40_others_untouched`, `C40_single_letter_name_refuted`, `C40_tokens_read_back`, `C41_difference_refused`, `C41_operand_order_refuted`, `C41_sum_refused`, `C41_sums_associate`, `C42_fuel_does_not_matter`, `C42_lookup_ends_partial`, `C42_lookup_is_a_chain`, `C45_exact_fields`, `C45_rounded_fields`, `C46_sign_of_zero_refuted`, `C46_sign_partial`, `C47_binary64_refuted`, `C47_only_the_first_sign_matters`, `C47_tuple_reads_back_partial`, `C47_wms_reads_back_partial`, `C57_almanac_call_refuted`, `C57_elementary_attributes_are_stable_partial`, `C57_mixed_nutation_refuted`, `C57_reading_P_breaks_M_refuted`, `C57_reads_change_nothing_partial`, `C57_stable_after_first_almanac_call_partial`, `C58_toordinal`, `C59_sums_are_connected`, `C60_text_reads_back`, `C71_second_below_60_refuted`, `C72_equality_is_transitive_refuted`, `C80_arrays_partial`, `C80_positive_kept_partial`, `C80_same_partial`, `C80_scalar_refuted`, `C89_given_back`, `C89_uses_change_nothing`, `C90_one_hour`, `C91_copy_differs_refuted`, `C91_copy_partial`, `C91_copy_style_refuted`, `C92_no_argument_refuted`, `C92_radians_constructor_refuted`, `C92_shows_partial`, `C98_element_partial`, `C98_out_of_range`, `C98_single`

**`ClassicalDedekindReals.sig_forall_dec`** (4 theorems)

`C100_cirs_float_refuted`, `C42_cyclic_lookup_runs_forever_refuted`, `C97_centers_must_agree`, `C97_one_and_many_partial`

**`ClassicalDedekindReals.sig_forall_dec`, `FunctionalExtensionality.functional_extensionality_dep`** (63 theorems)

`C102_earth_rotation_angle`, `C102_however_the_date_is_split`, `C102_mean_sidereal_time`, `C102_one_day`, `C105_table_after`, `C105_table_before`, `C105_table_between_rows`, `C141_nearest_refuted`, `C152_barycenter`, `C152_counted_twice_refuted`, `C152_satellite`, `C152_symmetric_partial`, `C152_systems`, `C152_two_bodies`, `C161_nodes`, `C161_risings_and_settings_partial`, `C161_short_stay_refuted`, `C161_sunrise_and_sunset`, `C19_ut1_input_is_consistent`, `C20_curve_derivative`, `C20_end_values_and_slopes`, `C20_one_row_derivative`, `C21_delta_t_is_continuous`, `C21_shipped_table`, `C21_shipped_table_has_a_jump`, `C21_steps_are_bounded`, `C21_table_values_and_parabolas`, `C22_full_year_partial`, `C22_short_tables_refuted`, `C22_slope_after_the_table`, `C23_leap_seconds_partial`, `C23_no_leap_second_refuted`, `C23_other_start_refuted`, `C23_tt_minus_ut1_has_no_steps`, `C33_codes_are_sectors_partial`, `C33_codes_wrap_partial`, `C33_twilight_is_monotone`, `C33_twilight_levels`, `C41_difference`, `C41_expression`, `C41_expression_is_defined`, `C41_negation`, `C41_operand_order_partial`, `C41_sum`, `C42_barycenter_cannot_be_evaluated_refuted`, `C42_lookup_position`, `C43_array_does_not_raise`, `C43_stack`, `C44_light_time`, `C44_light_time_error`, `C47_binary64_zero`, `C48_frame_bias_is_nearly_orthogonal`, `C49_frame_back_and_there`, `C49_frame_there_and_back`, `C59_beyond_a_satellite_refuted`, `C59_geocentric_position_partial`, `C70_comets_of_a_table`, `C86_radius`, `C97_difference_partial`, `C97_negative_class_refuted`, `C97_negative_partial`, `C97_one_and_three_refuted`, `C97_times_refuted`

**`ClassicalDedekindReals.sig_forall_dec`, `ClassicalDedekindReals.sig_not_dec`, `FunctionalExtensionality.functional_extensionality_dep`** (121 theorems)

`C100_of_an_epoch_close_partial`, `C101_behind_earth`, `C101_sunlit`, `C101_unknown`, `C102_apparent_sidereal_time`, `C103_both_routes_to_the_terrestrial_frame`, `C103_equation_of_the_origins`, `C104_angle`, `C104_frames_meet`, `C104_satellite_over_the_ground`, `C106_high_accuracy_partial`, `C106_terra`, `C106_to_GCRS2_partial`, `C106_to_GCRS_and_back`, `C107_nutation_is_the_published_series`, `C107_skyfield_nutation`, `C108_arguments_are_reduced`, `C108_arguments_cut_after_so_many_terms_partial`, `C108_one_term_is_five`, `C108_one_term_refuted`, `C109_arrays_date_by_date`, `C110_shortened_series`, `C112_complementary_terms`, `C112_complementary_terms_are_small`, `C112_earth_tilt`, `C112_same_arguments_as_nutation`, `C112_units_of_nutation`, `C125_altaz_angles`, `C125_altaz_list_refuted`, `C125_radec_partial`, `C125_radec_tuple_refuted`, `C125_star_angles`, `C125_topos_angles`, `C125_topos_integer_refuted`, `C125_what_is_refused`, `C126_topos_text`, `C127_hipparcos`, `C127_radial_velocity_refuted`, `C127_star_of_columns`, `C159_moon_phases`, `C159_seasons`, `C159_solar_terms`, `C160_inner_planets_partial`, `C160_moon_partial`, `C160_moon_refuted`, `C160_oppositions_and_conjunctions_partial`, `C160_transits`, `C161_dawn`, `C161_dusk`, `C173_body`, `C173_horizon`, `C175_rotations`, `C18_tdb_input`, `C18_tdb_stays_near_tt`, `C32_crossing`, `C32_start_on_the_target`, `C33_codes_in_range_partial`, `C33_named_sectors_partial`, `C33_opposition_codes_partial`, `C44_converges`, `C48_elementary_rotations`, `C48_nutation_is_a_rotation`, `C48_nutation_product`, `C48_precession_is_a_rotation`, `C48_precession_product`, `C48_rotations_add_angles`, `C50_rotation_keeps_lengths`, `C52_behind_earth`, `C52_sunlit`, `C53_up_is_the_normal`, `C54_elevation_along_the_normal`, `C54_surface`, `C61_earth_fixed_velocity`, `C61_horizon_velocity`, `C61_site_velocity`, `C62_first_point_of_the_ray`, `C65_epoch`, `C65_refusals`, `C73_at_rest`, `C73_inverse`, `C73_length`, `C73_lorentz`, `C73_rotated`, `C76_closest`, `C77_place`, `C77_rates`, `C78_vector_rate_partial`, `C78_velocity_refuted`, `C79_arrays_partial`, `C81_at_the_start_refuted`, `C81_risings_and_settings_partial`, `C81_transits_partial`, `C82_horizon`, `C83_parabola_crossed_exactly`, `C84_divisors_positive`, `C85_place_velocity`, `C85_rate_matrix`, `C85_same_rotation`, `C86_axes`, `C86_horizon`, `C86_orthogonal`, `C86_place`, `C86_rotation`, `C86_zenith`, `C87_still_frame_partial`, `C87_turning_frame_refuted`, `C88_angles_partial`, `C88_matrix_partial`, `C88_plain`, `C88_two_offsets_refuted`, `C93_only_angle`, `C94_bearing`, `C94_centre_at_pole_refuted`, `C94_defined_partial`, `C94_distance_does_not_matter`, `C94_middle`, `C94_middle_of_many`, `C94_no_two_alike`, `C94_radius_and_direction`, `C94_shapes_kept`, `C98_sunlit_refuted`

**`ClassicalDedekindReals.sig_forall_dec`, `ClassicalDedekindReals.sig_not_dec`, `Classical_Prop.classic`, `FunctionalExtensionality.functional_extensionality_dep`** (290 theorems)

`C08_any_second`, `C08_hidden_seconds_are_exact`, `C08_instant`, `C08_whole_seconds_are_exact`, `C100_epochs_partial`, `C100_of_an_epoch_partial`, `C100_there_and_back`, `C101_apparent_keeps_the_place`, `C103_hour_angle_from_the_equinox`, `C103_hour_angle_from_the_origin`, `C103_right_ascension_is_unique`, `C103_zenith`, `C103_zenith_and_the_pole`, `C104_rate`, `C104_velocity`, `C105_pole`, `C105_velocity_in_the_frame_partial`, `C105_velocity_of_a_place_partial`, `C105_velocity_of_a_place_refuted`, `C106_high_accuracy_refuted`, `C106_reverse_terra_over_a_pole_refuted`, `C106_reverse_terra_partial`, `C106_to_GCRS2_with_a_pole_refuted`, `C10_legacy_table_in_floats`, `C111_fast_nutation_partial`, `C111_fast_nutation_refuted`, `C111_sidereal_time_of_fast_nutation`, `C140_decimal_prints_as_typed`, `C140_tuple_prints_as_typed`, `C141_fields_and_error`, `C141_nearest_partial`, `C143_ecliptic_of_J2000`, `C143_every_definition_has_its_matrix`, `C143_galactic_pole_and_origin`, `C143_matrices_are_as_defined`, `C143_named_frames`, `C144_all_frames`, `C144_fixed_frames`, `C145_arrays`, `C145_ecliptic_of_date`, `C145_equatorial_frames_are_radec`, `C145_fixed_frames_by_old_names`, `C145_latitude_and_longitude_give_the_vector_back`, `C145_old_names`, `C147_four_angles_agree_with_three`, `C148_pole_of_the_ecliptic_frame`, `C148_pole_of_the_mean_ecliptic`, `C149_sidereal_time_follows_the_equinox`, `C150_farthest`, `C150_mean_motion`, `C150_nearest`, `C150_period`, `C150_semi_major_axis`, `C150_shape`, `C151_argument_of_latitude`, `C151_elements_stay`, `C151_elliptical_partial`, `C151_hyperbolic_partial`, `C151_longitudes`, `C151_longitudes_in_the_plane`, `C151_mean_anomaly`, `C151_mean_longitude`, `C151_parabolic`, `C152_frame`, `C152_units_and_mass`, `C153_apoapsis_refuted`, `C153_lanes_partial`, `C153_refused`, `C158_dates_are_restored`, `C158_delta_t_is_restored`, `C158_rint`, `C158_rounded_values_have_seven_digits`, `C15_trichotomy`, `C162_calendar_tuple_partial`, `C162_microseconds_partial`, `C162_nearest_minute`, `C162_nearest_second`, `C162_read_back_partial`, `C162_tai_and_tt`, `C162_weekday_refuted`, `C162_whole_seconds`, `C163_accepted`, `C163_at`, `C163_ellipse`, `C163_hyperbola`, `C163_parabola`, `C163_perihelion_date`, `C164_accepted`, `C164_ellipse`, `C165_comet_elements`, `C165_kept`, `C165_minor_planet_elements`, `C166_below_partial`, `C166_sidereal_partial`, `C166_signed_partial`, `C166_turns_partial`, `C166_whole_turn_partial`, `C166_wrapped_partial`, `C166_wrapped_refuted`, `C167_length`, `C167_opposite`, `C167_self`, `C167_separation`, `C168_ends_in_order`, `C168_nothing_missed`, `C168_times_in_order_required`, `C169_endless_refuted`, `C169_epsilon_refuted`, `C169_samples_refuted`, `C16_equal_times_hash_alike_partial`, `C170_coordinates`, `C170_round_trip`, `C171_converges`, `C172_entries_independent_refuted`, `C172_entry_right_partial`, `C173_rotated`, `C173_separation`, `C173_there_and_back`, `C174_frame_latlon`, `C174_placed`, `C175_altaz`, `C175_bias`, `C175_ecliptic`, `C175_itrs`, `C176_geographic`, `C176_iers2010`, `C176_place`, `C176_there_and_back`, `C176_wgs84`, `C177_aberration`, `C177_at_rest`, `C177_closest`, `C177_lorentz`, `C178_deflection`, `C178_in_line`, `C178_limb`, `C179_apparent`, `C179_four`, `C179_path`, `C180_delta_t`, `C180_exact_refuted`, `C180_read_back_partial`, `C180_whole_seconds`, `C181_curve`, `C181_inside`, `C181_next_row_too_early`, `C182_curve`, `C182_table`, `C182_ut1`, `C183_daily_table`, `C183_dut1`, `C183_julian_year`, `C183_pole`, `C183_round_trip`, `C183_ut1`, `C183_ut1_fraction`, `C184_earth_rotation_angle`, `C184_ex`, `C184_local_sidereal_time`, `C184_sidereal_time`, `C185_ex`, `C185_mean_obliquity`, `C185_theta`, `C185_theta_dot`, `C186_ex`, `C186_precession_angles`, `C186_sprime`, `C187_ex`, `C187_fmod_exact`, `C187_fundamental_arguments`, `C188_complementary_arguments`, `C188_ex`, `C189_ex`, `C189_tdb_fraction`, `C189_tdb_minus_tt`, `C18_tdb_calendar_input`, `C190_ex`, `C190_round_trip`, `C190_tt_of_tdb`, `C191_apparent_sidereal_time`, `C191_equation_of_the_equinoxes`, `C191_ex`, `C31_above_before_and_below_after`, `C31_altitude_is_reached`, `C31_below_before_and_above_after`, `C31_never_sets_and_never_rises`, `C34_classes_nest_and_match_magnitudes`, `C34_one_class_each`, `C47_binary64_first_sign`, `C47_binary64_reads_back_partial`, `C47_binary64_tuple`, `C47_binary64_value`, `C50_rotation_keeps_separations`, `C50_spherical_back_and_there`, `C50_spherical_there_and_back`, `C51_angle_is_symmetric`, `C51_angle_is_true`, `C51_parallel_and_opposite`, `C51_scale_invariant`, `C53_altaz_of_any_direction`, `C53_horizon_directions`, `C54_longitude`, `C54_true_latitude_is_a_fixed_point`, `C55_state_has_the_elements`, `C56_circular_refuted`, `C56_elliptical_partial`, `C56_found_partial`, `C56_hyperbolic_refuted`, `C56_near_parabola_refuted`, `C56_parabolic_refuted`, `C56_quarter_pi_refuted`, `C63_latitude_and_height_are_recovered`, `C63_on_the_earth`, `C64_altaz_there_and_back`, `C64_hour_angle`, `C65_follows_newton`, `C65_motion_exists`, `C65_motion_unique`, `C65_series`, `C66_elements_come_back`, `C66_state_comes_back`, `C67_elliptical`, `C67_hyperbolic_partial`, `C67_hyperbolic_refuted`, `C67_parabolic`, `C68_refused_partial`, `C68_refuted`, `C69_mean_anomaly_partial`, `C69_periapsis_partial`, `C69_true_anomaly_refuted`, `C70_comet_eccentricity`, `C70_comet_perihelion`, `C71_fraction_below_60_partial`, `C71_second_below_60_partial`, `C72_order_is_transitive_partial`, `C73_cosine`, `C73_towards`, `C74_at_a_mass_refuted`, `C74_deflection_partial`, `C74_earth_partial`, `C74_many_masses_partial`, `C74_pushed_away_partial`, `C74_without_masses_partial`, `C75_limb`, `C77_shrinks_little`, `C79_high_pressure_refuted`, `C79_solved_partial`, `C82_rising_and_setting_events`, `C82_transit_events`, `C83_false_means_no_crossing`, `C83_true_means_crossing_or_parabola`, `C84_adding_tiny`, `C84_at_the_pole_refuted`, `C84_coordinates`, `C84_horizon_rates_partial`, `C84_rates_partial`, `C90_conversions`, `C90_rates`, `C93_azimuth`, `C93_right_ascension`, `C95_accepted_targets`, `C95_all_distances_scaled`, `C95_distances`, `C95_documented_cases_refuted`, `C95_formulae_join`, `C95_geometry`, `C95_unknown_partial`, `C96_fraction_range`, `C96_full_and_new`, `C96_lit_part`, `C96_moon_node`, `C96_phase_angle`, `C96_smaller_angle_more_light`, `C98_altaz_partial`, `C98_apparent_refuted`, `C98_earth_deflection_refuted`, `C98_hadec_partial`, `C98_observer_refuted`, `C98_phase_refuted`, `C98_radec_partial`, `C98_separation_from_one_partial`, `C98_separation_partial`, `C99_difference_partial`, `C99_from_altaz_partial`, `C99_hour_angle`, `C99_no_horizon_partial`, `C99_no_meridian`, `C99_observed_partial`, `C99_own_horizon_refuted`, `C99_wrong_error_refuted`

## Which code is modelled

A function is counted as modelled when a definition in a model file cites its
lines. The comment there says what is simplified. Constructors that only store
their arguments, `__repr__`, logging, loading of bundled arrays, deprecation shims
and plain unit conversions are left out on purpose.

<!-- generated: coverage -->

| file | functions modelled (in which model files) | functions not modelled |
|---|---|---|
| __main__.py | - | `main` |
| almanac.py | `phase_angle`, `fraction_illuminated` (Sky_Model); `seasons`, `moon_phases`, `meridian_transits`, `sunrise_sunset`, `dark_twilight_day`, `risings_and_settings` (Almanac_Model, Cache_Model, Phases_Model); `moon_phase` (Almanac_Model, Wrap_Model); `moon_nodes` (Phases_Model, Sky_Model); `oppositions_conjunctions` (Almanac_Model, Phases_Model); `_fastify` (Cache_Model); `_setting_hour_angle`, `_rising_hour_angle`, `_q`, `_intersection` (Almanac_Model); `_transit_ha`, `build_horizon_function`, `_find`, `find_risings`, `find_settings`, `find_transits` (Find_Model) | - |
| almanac_east_asia.py | `solar_terms` (Almanac_Model, Cache_Model, Phases_Model) | - |
| constellationlib.py | `load_constellation_map`, `load_constellation_names` (Const_Model) | - |
| curvelib.py | `Splines.__init__` (Curve_Model, SplF_Model); `Splines.__call__` (Array_Model, Curve_Model, SplF_Model); `Splines.derivative`, `build_spline_given_ends` (Curve_Model) | - |
| data/earth_orientation.py | - | `morrison_and_stephenson_2004_table`, `parse_S15_table`, `main` |
| data/hipparcos.py | `load_dataframe` (Input_Model) | - |
| data/horizons.py | - | `festoon_ephemeris` |
| data/iers.py | `parse_x_y_dut1_from_finals_all`, `install_polar_motion_table` (Data_Model); `build_timescale_arrays` (Curve_Model) | `parse_dut1_from_finals_all` |
| data/mpc.py | `load_mpcorb_dataframe`, `load_comets_dataframe`, `load_comets_dataframe_slow` (Columns_Model); `mpcorb_orbit` (Data_Model, Mpc_Model); `comet_orbit` (Kepler_Model, Mpc_Model); `_comet_orbits` (Kepler_Model); `unpack` (Data_Model) | - |
| data/stellarium.py | `parse_constellations`, `parse_star_names` (Data_Model) | - |
| data/text_pck.py | `load`, `parse` (Files_Model); `_evaluate` (Pool_Model); `_parse_tokens` (Files_Model, Pool_Model) | - |
| data/tycho2.py | - | `load_dataframe` |
| descriptorlib.py | `reify.__init__`, `reify.__get__` (Cache_Model) | - |
| earthlib.py | `terra`, `reverse_terra` (Spin_Model); `compute_limb_angle`, `refraction`, `refract` (Light_Model); `sidereal_time` (Cache_Model, EraF_Model, Spin_Model, Wrap_Model); `earth_rotation_angle` (EraF_Model, Spin_Model, Wrap_Model) | - |
| eclipselib.py | `lunar_eclipses` (AberF_Model, Almanac_Model) | - |
| elementslib.py | `osculating_elements_of` (Elements_Model); `OsculatingElements.__init__`, `OsculatingElements.apoapsis_distance`, `OsculatingElements.argument_of_periapsis`, `OsculatingElements.eccentric_anomaly`, `OsculatingElements.eccentricity`, `OsculatingElements.inclination`, `OsculatingElements.longitude_of_ascending_node`, `OsculatingElements.mean_anomaly`, `OsculatingElements.mean_longitude`, `OsculatingElements.mean_motion_per_day`, `OsculatingElements.periapsis_distance`, `OsculatingElements.periapsis_time`, `OsculatingElements.period_in_days`, `OsculatingElements.semi_latus_rectum`, `OsculatingElements.semi_major_axis`, `OsculatingElements.semi_minor_axis`, `OsculatingElements.true_anomaly`, `OsculatingElements.true_longitude`, `apoapsis_distance`, `eccentric_anomaly`, `eccentricity_vector`, `longitude_of_ascending_node`, `mean_anomaly`, `mean_motion`, `node_vector`, `periapsis_distance`, `period`, `semi_latus_rectum`, `semi_minor_axis`, `time_since_periapsis` (Elements_Model, Kepler_Model); `OsculatingElements.argument_of_latitude`, `OsculatingElements.longitude_of_periapsis`, `argument_of_periapsis`, `true_anomaly` (Elements_Model, Kepler_Model, Wrap_Model); `normpi` (Kepler_Model, Wrap_Model); `inclination`, `semi_major_axis` (Kepler_Model) | `OsculatingElements.__repr__`, `eccentricity` |
| errors.py | - | `EphemerisRangeError.__init__` |
| framelib.py | `build_matrix` (FrameF_Model, Geo_Model); `mean_equator_and_equinox_of_date.rotation_at` (Frames_Model); `tirs.rotation_at` (Spin_Model); `itrs.rotation_at` (FrameF_Model, Spin_Model); `build_ecliptic_matrix` (FrameF_Model, Frames_Model, Geo_Model) | `ICRS.rotation_at`, `true_equator_and_equinox_of_date.rotation_at`, `tirs._dRdt_times_RT_at`, `itrs._dRdt_times_RT_at`, `ecliptic_frame.rotation_at`, `InertialFrame.__init__`, `InertialFrame.rotation_at` |
| functions.py | `dots` (AberF_Model, Geo_Model); `T`, `mxv`, `mxm`, `mxmxm`, `rot_x` (Geo_Model, RotF_Model); `length_of` (SepF_Model, Vector_Model); `angle_between` (Geo_Model, SepF_Model); `to_spherical` (Geo_Model, SphF_Model, Wrap_Model); `_to_spherical_and_rates` (Planet_Model, SphF_Model, Wrap_Model); `from_spherical` (Geo_Model, SphF_Model); `angular_velocity_matrix` (Geo_Model); `_to_array` (Array_Model, Input_Model); `_reconcile` (Array_Model) | `sqrt_nan`, `rot_y`, `rot_z`, `R1`, `R2`, `R3`, `load_bundled_npy` |
| geometry.py | `intersect_line_and_sphere`, `line_and_ellipsoid_intersection`, `_vector_projection` (Geo_Model) | - |
| io_timescale.py | `_build_legacy_data`, `parse_deltat_data`, `parse_deltat_preds` (Data_Model); `parse_leap_seconds` (Time_Model) | - |
| iokit.py | `Loader.__init__`, `Loader.build_url`, `Loader.download`, `load_file` (Loader_Model); `Loader.path_to`, `Loader.__call__`, `Loader._assure`, `Loader.open`, `_search`, `parse_tle_file` (Files_Model); `Loader.tle`, `parse_tle` (Data_Model); `Loader.timescale` (Array_Model, Loader_Model); `download`, `_rename_original` (Download_Model) | `_filename_of`, `_open_binary`, `Loader.days_old`, `Loader.exists`, `Loader._log`, `Loader.tle_file`, `Loader.log`, `ProgressBar.__init__`, `ProgressBar.report` |
| jpllib.py | `SpiceKernel.__str__`, `SpiceKernel.close`, `SpiceKernel.names`, `SpiceKernel.__contains__`, `ChebyshevPosition._at`, `ChebyshevPositionVelocity._at`, `_format_code_and_name` (Kernel_Model); `SpiceKernel.codes`, `SpiceKernel.decode`, `SpiceKernel.__getitem__`, `SPICESegment.__new__`, `SPICESegment.__init__` (Kernel_Model, Vector_Model); `SPICESegment.vector_name`, `SPICESegment.time_range`, `Stack.__init__`, `Stack._at` (Vector_Model) | `SpiceKernel.__init__`, `SpiceKernel.__repr__`, `_format_segment` |
| keplerlib.py | `_KeplerOrbit.__init__`, `_KeplerOrbit._from_true_anomaly`, `eccentric_anomaly`, `true_anomaly_hyperbolic`, `ele_to_vec`, `find_trunc`, `stumpff`, `propagate` (Kepler_Model); `_KeplerOrbit._at`, `_KeplerOrbit.elements_at_epoch` (Mpc_Model) | `_KeplerOrbit.target`, `_KeplerOrbit._from_periapsis`, `_KeplerOrbit._from_mean_anomaly`, `_KeplerOrbit.__str__`, `_KeplerOrbit.__repr__`, `true_anomaly_closed`, `true_anomaly_parabolic` |
| magnitudelib.py | `planetary_magnitude`, `_mercury_magnitude`, `_venus_magnitude`, `_earth_magnitude`, `_mars_magnitude`, `_jupiter_magnitude`, `_saturn_magnitude`, `_uranus_magnitude`, `_neptune_magnitude` (Sky_Model) | `_not` |
| naifcodes.py | `numbered_name_of`, `_target_name` (Kernel_Model) | - |
| nutationlib.py | `iau2000a_radians`, `iau2000b_radians` (Cache_Model, Nutation_Model); `build_nutation_matrix` (FrameF_Model, Geo_Model); `mean_obliquity` (ObliqF_Model, Spin_Model); `equation_of_the_equinoxes_complimentary_terms` (CompF_Model, Nutation_Model); `iau2000a`, `iau2000b`, `compute_nutation`, `earth_tilt` (Nutation_Model); `fundamental_arguments` (FundF_Model, Nutation_Model) | - |
| planetarylib.py | `PlanetaryConstants.__init__`, `PlanetaryConstants._get_assignment`, `PlanetaryConstants.build_frame_named`, `PlanetaryConstants.build_frame`, `PlanetaryConstants.build_latlon_degrees`, `PlanetTopos.from_latlon_distance`, `PlanetTopos._at`, `PlanetTopos.rotation_at` (Planet_Model); `PlanetaryConstants.read_text` (Pool_Model); `Frame.rotation_at`, `Frame.rotation_and_rate_at` (Planet_Model, RotF_Model) | `PlanetaryConstants.__repr__`, `PlanetaryConstants.assignments`, `PlanetaryConstants.read_binary`, `Frame.__init__`, `PlanetTopos.__init__`, `PlanetTopos.target` |
| positionlib.py | `build_position`, `SSB.at`, `ICRF.__init__`, `ICRF.__sub__`, `ICRF.__getitem__`, `ICRF.__neg__`, `ICRF.distance`, `ICRF.speed`, `ICRF.light_time`, `ICRF.altaz`, `ICRF.cirs_xyz`, `ICRF._altaz_rotation`, `Barycentric.observe`, `Astrometric.altaz` (Position_Model); `position_of_radec` (Input_Model, Position_Model); `ICRF.from_radec` (Input_Model); `ICRF.from_time_and_frame_vectors` (Geo_Model); `ICRF.radec`, `ICRF.is_behind_earth` (Geo_Model, Position_Model); `ICRF.hadec` (Position_Model, Wrap_Model); `ICRF.separation_from` (Position_Model, SepF_Model, Sky_Model); `ICRF.ecliptic_xyz`, `ICRF.ecliptic_velocity`, `ICRF.ecliptic_latlon`, `ICRF.galactic_xyz`, `ICRF.galactic_latlon`, `ICRF.frame_xyz`, `_Fake.__init__` (Frames_Model); `ICRF.frame_xyz_and_velocity` (Frames_Model, Geo_Model); `ICRF.frame_latlon` (AltF_Model, Frames_Model); `ICRF.frame_latlon_and_rates` (Planet_Model); `ICRF.phase_angle` (Position_Model, Sky_Model); `ICRF.fraction_illuminated` (Sky_Model); `ICRF.is_sunlit` (Geo_Model, Position_Model, Sky_Model); `ICRF.from_altaz` (Geo_Model, Input_Model, Position_Model); `Astrometric.apparent` (AppF_Model, Light_Model, Position_Model); `_to_altaz` (AltF_Model, Geo_Model, Position_Model); `ITRF_to_GCRS`, `ITRF_to_GCRS2` (Spin_Model) | `position_from_radec`, `ICRF.__repr__`, `ICRF.cirs_radec`, `ICRF.to_skycoord`, `Geocentric.itrf_xyz`, `Geocentric.subpoint` |
| precessionlib.py | `compute_precession` (FrameF_Model, Geo_Model, PrecF_Model) | - |
| projections.py | `build_stereographic_projection` (Sky_Model) | `_derive_stereographic`, `_optimize` |
| relativity.py | `_compute_deflector_position` (Light_Model); `light_time_difference`, `add_aberration` (AberF_Model, Light_Model); `_compute_deflection` (DeflF_Model, Light_Model) | `add_deflection` |
| searchlib.py | `find_discrete` (Phases_Model, SearchF_Model, Search_Model); `_find_discrete` (SearchF_Model, Search_Model); `find_minima`, `find_maxima`, `_choose_brackets`, `_identify_maxima`, `_remove_adjacent_duplicates` (Search_Model) | `_fix_numpy_deprecation` |
| sgp4lib.py | `EarthSatellite.__init__`, `EarthSatellite._setup`, `EarthSatellite.from_satrec`, `EarthSatellite.from_omm` (Sat_Model); `EarthSatellite.ITRF_position_velocity_error`, `EarthSatellite._at`, `TEME.rotation_at`, `_cross`, `TEME_to_ITRF` (Spin_Model); `EarthSatellite.find_events` (Search_Model); `theta_GMST1982` (ObliqF_Model, Spin_Model) | `EarthSatellite.__str__`, `EarthSatellite.target_name`, `EarthSatellite._position_and_velocity_TEME_km` |
| starlib.py | `Star.__init__`, `Star.__repr__`, `Star.from_dataframe`, `_unwrap` (Input_Model); `Star._observe_from_bcrs` (Light_Model); `Star._compute_vectors` (Light_Model, Parallax_Model) | - |
| timelib.py | `Timescale.__init__`, `Time._utc_tuple`, `Time._utc_seconds`, `Time._tai_seconds`, `Time.utc`, `Time.__eq__`, `Time.__lt__`, `Time.__add__`, `Time.__sub__` (Float_Time_Model, Time_Model); `Timescale.now`, `Timescale.from_datetimes`, `Time.astimezone`, `Time.astimezone_and_leap_second`, `_upgrade_datetime_exception` (Zone_Model); `Timescale.from_datetime`, `Time.utc_datetime_and_leap_second`, `_datetime_to_utc_tuple` (Time_Model, Zone_Model); `Timescale.utc` (Sat_Model, Zone_Model); `Timescale._utc` (Float_Time_Model, Sat_Model, Time_Model, Zone_Model); `Timescale._jd`, `Timescale.tt` (CalF_Model, Mpc_Model, Time_Model); `Timescale._cal`, `Time.tai_calendar`, `Time.tt_calendar`, `Time.tdb_calendar`, `Time.tai_strftime`, `Time.tt_strftime`, `Time.tdb_strftime`, `_strftime` (Format_Model); `Timescale._strftime` (CalF_Model, Float_Time_Model, Format_Model, Time_Model); `Timescale._utc_jd`, `Timescale.linspace`, `Time.toordinal`, `Time.utc_iso`, `Time.utc_jpl` (Time_Model); `Timescale.tai` (CalF_Model, Time_Model); `Timescale.tai_jd`, `Timescale.tt_jd` (Array_Model, Float_Time_Model, Time_Model); `Timescale.J`, `_normalize_jd_and_fraction` (Array_Model, Time_Model); `Timescale.tdb`, `build_delta_t` (Curve_Model); `Timescale.tdb_jd` (Curve_Model, TdbF_Model2); `Timescale.ut1` (Ut1F_Model); `Timescale.ut1_jd` (Array_Model, Curve_Model, Ut1F_Model); `Timescale.from_astropy`, `Time.__len__` (Array_Model); `Time.__init__` (Array_Model, Curve_Model, Float_Time_Model, Time_Model); `Time.__getitem__` (Array_Model, Float_Time_Model, Position_Model, Time_Model); `Time.utc_strftime` (Cal_Model, Format_Model); `Time._leap_seconds` (ReadF_Model, Sat_Model); `Time.ut1_calendar`, `Time.ut1_strftime` (Format_Model, Ut1F_Model); `Time.M` (Cache_Model, CalF_Model, Float_Time_Model, FrameF_Model, Geo_Model, Position_Model, Spin_Model); `Time.C` (Position_Model, Spin_Model); `Time.CT`, `Time.gmst` (Spin_Model); `Time._nutation_angles_radians`, `Time.PT`, `Time.NT` (Cache_Model); `Time._nutation_angles` (Nutation_Model); `Time.J` (Cache_Model, ReadF_Model, Time_Model); `Time.tai_fraction` (Cache_Model, Float_Time_Model, Spin_Model, Time_Model); `Time.tdb_fraction` (Cache_Model, Spin_Model, TdbF_Model); `Time.ut1_fraction` (Position_Model, ReadF_Model, Spin_Model); `Time.delta_t` (Cache_Model, Position_Model, ReadF_Model, Spin_Model); `Time.dut1` (ReadF_Model, Spin_Model); `Time.gast` (Array_Model, GastF_Model, Spin_Model, Wrap_Model); `Time.tai`, `Time.tt` (Array_Model, Cache_Model, Curve_Model, Float_Time_Model, Time_Model); `Time.tdb` (Array_Model, Cache_Model, Curve_Model); `Time.ut1` (Cache_Model, Curve_Model, Position_Model, ReadF_Model); `Time.polar_motion_angles` (PrecF_Model, ReadF_Model, Spin_Model); `Time.polar_motion_matrix` (FrameF_Model, Spin_Model); `Time.nutation_matrix` (Cache_Model, Spin_Model); `Time.precession_matrix` (Cache_Model, Frames_Model, Spin_Model); `Time.__hash__` (Float_Time_Model); `julian_day` (Cal_Model, Mpc_Model, Time_Model); `julian_date`, `julian_date_of_besselian_epoch` (Data_Model); `compute_calendar_date` (Cal_Model); `calendar_tuple` (CalF_Model, Float_Time_Model, Time_Model); `tdb_minus_tt` (Curve_Model, TdbF_Model); `DeltaT.__init__`, `DeltaT.__call__` (Curve_Model, DeltaF_Model); `_strftime_offset_seconds` (CalF_Model, Format_Model) | `_cat`, `CalendarArray.year`, `CalendarArray.month`, `CalendarArray.day`, `CalendarArray.hour`, `CalendarArray.minute`, `CalendarArray.second`, `Time.__repr__`, `Time.utc_datetime`, `Time.MT`, `Time._mean_obliquity_radians`, `Time.to_astropy`, `build_delta_t_table` |
| toposlib.py | `ITRSPosition.__init__`, `ITRSPosition._at` (Geo_Model, Spin_Model); `ITRSPosition.target` (Spin_Model); `GeographicPosition.__init__` (Geo_Model, RotF_Model); `GeographicPosition.lst_hours_at` (Spin_Model, Wrap_Model); `GeographicPosition.rotation_at` (FrameF_Model, Geo_Model); `GeographicPosition._dRdt_times_RT_at`, `Geoid.polar_radius`, `Geoid.height_of` (Geo_Model); `Geoid.__init__`, `Geoid.latlon`, `Geoid._compute_latitude` (Geo_Model, GeodF_Model); `Geoid.latlon_of`, `Geoid.subpoint_of` (Geo_Model, Wrap_Model); `Geoid.geographic_position_of` (Geo_Model, GeodF_Model, Wrap_Model); `Topos.__init__` (Input_Model) | `GeographicPosition.target_name`, `GeographicPosition.refract`, `Topos.itrf_xyz` |
| trigonometry.py | `position_angle_of` (Sky_Model) | - |
| units.py | `Unit.__getitem__`, `_interpret_angle`, `_ltude` (Input_Model); `getset.__init__`, `getset.__get__`, `Distance.__init__`, `Velocity.__init__`, `AngleRate.radians`, `AngleRate.degrees`, `AngleRate.arcminutes`, `AngleRate.arcseconds`, `AngleRate.mas`, `Rate.per_day`, `Rate.per_hour`, `Rate.per_minute`, `Rate.per_second`, `Angle.from_degrees`, `Angle._hours`, `Angle._degrees`, `Angle.hours`, `Angle.degrees`, `Angle.arcminutes`, `Angle.arcseconds`, `Angle.mas`, `Angle.__str__` (Measure_Model); `Angle.__init__` (Input_Model, Measure_Model); `Angle.hms` (Input_Model, Measure_Model, SexaF_Model); `Angle.signed_hms`, `Angle.signed_dms` (Measure_Model, SexaF_Model, Units_Model); `Angle.hstr`, `Angle.dstr` (Measure_Model, Units_Model); `Angle.dms` (Measure_Model, SexaF_Model); `_sexagesimalize_to_float`, `_sexagesimalize_to_int`, `_sfmt`, `wms` (SexaF_Model, Units_Model); `_unsexagesimalize` (Input_Model, SexaF_Model, Units_Model) | `Distance.from_au`, `Distance.__str__`, `Distance.__repr__`, `Distance.length`, `Distance.light_seconds`, `Distance.to`, `Velocity.__str__`, `Velocity.__repr__`, `Velocity.to`, `AngleRate._from_radians_per_day`, `Rate._from_per_day`, `Angle.__repr__`, `Angle.to`, `WrongUnitError.__init__` |
| vectorlib.py | `VectorFunction.__add__`, `VectorFunction.__neg__`, `VectorFunction.__sub__`, `ReversedVector.__init__`, `ReversedVector.vector_name`, `ReversedVector.center_name`, `ReversedVector.target_name`, `ReversedVector.__neg__`, `ReversedVector._at`, `VectorSum.__init__`, `VectorSum.__str__`, `VectorSum.__repr__`, `VectorSum._at` (Vector_Model); `VectorFunction.at` (Position_Model); `_correct_for_light_travel_time` (AberF_Model, LightF_Model, Vector_Model) | `VectorFunction.vector_name`, `VectorFunction.center_name`, `VectorFunction.target_name`, `VectorFunction.__repr__`, `VectorFunction.__str__`, `VectorFunction.arrow_str`, `VectorFunction._observe_from_bcrs`, `_jpl_name` |

## General simplifications

* NumPy arrays are lists. Broadcasting is modelled only along one time axis.
* `printf`-style templates are modelled as lists of fields unless the property is
  about the characters.
* In models over `Q` and `R` there is no rounding, overflow, infinity or NaN.
* Memory, threads and warnings are not modelled. Concurrency of downloads is.
