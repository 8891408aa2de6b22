{
 "claims": [
  {
   "property": "C01",
   "status": "proved",
   "theorems": [
    "c01_all_minutes",
    "c01_calendar_exists"
   ],
   "note": "proved in full"
  },
  {
   "property": "C02",
   "status": "proved",
   "theorems": [
    "c02_is_open_on_minute"
   ],
   "note": "proved in full"
  },
  {
   "property": "C03",
   "status": "proved",
   "theorems": [
    "c03_open_iff_minute_or_break_start",
    "c03_agree_without_breaks",
    "c03_agree_refuted"
   ],
   "note": "the statement names what is false of the code; c03_agree_refuted proves that, the other theorems prove the rest"
  },
  {
   "property": "C04",
   "status": "proved",
   "theorems": [
    "c04_next_open",
    "c04_next_close"
   ],
   "note": "proved in full"
  },
  {
   "property": "C05",
   "status": "proved",
   "theorems": [
    "c05_previous_open",
    "c05_previous_close"
   ],
   "note": "proved in full"
  },
  {
   "property": "C06",
   "status": "proved",
   "theorems": [
    "c06_next_minute",
    "c06_previous_minute",
    "c06_inverse",
    "c06_previous_minute_key_error_refuted"
   ],
   "note": "the statement names what is false of the code; c06_previous_minute_key_error_refuted proves that, the other theorems prove the rest"
  },
  {
   "property": "C07",
   "status": "proved",
   "theorems": [
    "c07_is_session",
    "c07_next_session_label",
    "c07_previous_session_label",
    "c07_inverse"
   ],
   "note": "proved in full"
  },
  {
   "property": "C08",
   "status": "proved",
   "theorems": [
    "c08_minutes_for_session",
    "c08_unknown_session",
    "c08_partition"
   ],
   "note": "proved in full"
  },
  {
   "property": "C09",
   "status": "proved",
   "theorems": [
    "c09_minutes_in_range",
    "c09_minutes_in_range_refuted"
   ],
   "note": "the statement names what is false of the code; c09_minutes_in_range_refuted proves that, the other theorems prove the rest"
  },
  {
   "property": "C10",
   "status": "proved",
   "theorems": [
    "c10_minutes_for_sessions_in_range",
    "c10_unknown_session"
   ],
   "note": "proved in full"
  },
  {
   "property": "C11",
   "status": "proved",
   "theorems": [
    "c11_minutes_count",
    "c11_minutes_count_without_breaks",
    "c11_minutes_count_refuted"
   ],
   "note": "the statement names what is false of the code; c11_minutes_count_refuted proves that, the other theorems prove the rest"
  },
  {
   "property": "C12",
   "status": "proved",
   "theorems": [
    "c12_sessions_in_range"
   ],
   "note": "proved in full"
  },
  {
   "property": "C13",
   "status": "proved",
   "theorems": [
    "c13_sessions_window"
   ],
   "note": "proved in full"
  },
  {
   "property": "C14",
   "status": "proved",
   "theorems": [
    "c14_session_distance",
    "c14_distance_is_range_length",
    "c14_antisymmetric"
   ],
   "note": "proved in full"
  },
  {
   "property": "C15",
   "status": "proved",
   "theorems": [
    "c15_minutes_window",
    "c15_before_first",
    "c15_after_last",
    "c15_backward_overrun",
    "c15_backward_wrap",
    "c15_minutes_window_refuted"
   ],
   "note": "the statement names what is false of the code; c15_minutes_window_refuted proves that, the other theorems prove the rest"
  },
  {
   "property": "C16",
   "status": "proved",
   "theorems": [
    "c16_lookup_next"
   ],
   "note": "proved in full"
  },
  {
   "property": "C17",
   "status": "proved",
   "theorems": [
    "c17_lookup_previous",
    "c17_lookup_previous_refuted"
   ],
   "note": "the statement names what is false of the code; c17_lookup_previous_refuted proves that, the other theorems prove the rest"
  },
  {
   "property": "C18",
   "status": "proved",
   "theorems": [
    "c18_lookup_none",
    "c18_round_trip",
    "c18_invalid_direction"
   ],
   "note": "proved in full"
  },
  {
   "property": "C19",
   "status": "proved",
   "theorems": [
    "c19_cache_transparent"
   ],
   "note": "proved in full"
  },
  {
   "property": "C20",
   "status": "proved",
   "theorems": [
    "c20_minute_index",
    "c20_agrees_with_lookup",
    "c20_labels_sorted"
   ],
   "note": "proved in full"
  },
  {
   "property": "C21",
   "status": "proved",
   "theorems": [
    "c21_us_futures",
    "c21_execution_minutes",
    "c21_default_is_minutes_for_session",
    "c21_sessions_in_range"
   ],
   "note": "proved in full"
  },
  {
   "property": "C22",
   "status": "proved",
   "theorems": [
    "c22_accessors",
    "c22_unknown_session",
    "c22_opens_closes_in_range",
    "c22_first_last_session"
   ],
   "note": "proved in full"
  },
  {
   "property": "C23",
   "status": "proved",
   "theorems": [
    "c23_sessions",
    "c23_sessions_time_of_day",
    "c23_time_of_day_refuted",
    "c23_first_last",
    "c23_no_sessions"
   ],
   "note": "the statement names what is false of the code; c23_time_of_day_refuted proves that, the other theorems prove the rest"
  },
  {
   "property": "C24",
   "status": "proved",
   "theorems": [
    "c24_regular_open",
    "c24_regular_close",
    "c24_in_force_unique",
    "c24_uncovered_day"
   ],
   "note": "proved in full"
  },
  {
   "property": "C25",
   "status": "proved",
   "theorems": [
    "c25_special_open",
    "c25_special_close",
    "c25_breaks_kept",
    "c25_labels_unaffected"
   ],
   "note": "proved in full"
  },
  {
   "property": "C26",
   "status": "proved",
   "theorems": [
    "c26_specials_are_sessions",
    "c26_rejected",
    "c26_accepted"
   ],
   "note": "proved in full"
  },
  {
   "property": "C27",
   "status": "proved",
   "theorems": [
    "c27_special_close_in_range",
    "c27_last_day_refuted"
   ],
   "note": "the statement names what is false of the code; c27_last_day_refuted proves that, the other theorems prove the rest"
  },
  {
   "property": "C28",
   "status": "proved",
   "theorems": [
    "c28_early_closes_late_opens"
   ],
   "note": "proved in full"
  },
  {
   "property": "C29",
   "status": "proved",
   "theorems": [
    "c29_well_formed",
    "c29_sound_definition"
   ],
   "note": "proved in full"
  },
  {
   "property": "C30",
   "status": "proved",
   "theorems": [
    "c30_days_at_time",
    "c30_succeeds",
    "c30_increasing"
   ],
   "note": "proved in full"
  },
  {
   "property": "C31",
   "status": "proved",
   "theorems": [
    "c31_same_sessions",
    "c31_same_times"
   ],
   "note": "proved in full"
  },
  {
   "property": "C32",
   "status": "proved",
   "theorems": [
    "c32_range_check",
    "c32_default_range",
    "c32_no_data",
    "c32_holidays_closed"
   ],
   "note": "proved in full"
  },
  {
   "property": "C33",
   "status": "proved",
   "theorems": [
    "c33_always_open",
    "c33_weekday_calendar"
   ],
   "note": "proved in full"
  },
  {
   "property": "C34",
   "status": "proved",
   "theorems": [
    "c34_paired",
    "c34_one_sided"
   ],
   "note": "proved in full"
  },
  {
   "property": "C35",
   "status": "proved",
   "theorems": [
    "c35_alias_transparent",
    "c35_registered_alias"
   ],
   "note": "proved in full"
  },
  {
   "property": "C36",
   "status": "proved",
   "theorems": [
    "c36_built_once",
    "c36_factory_calls",
    "c36_keeps_registrations"
   ],
   "note": "proved in full"
  },
  {
   "property": "C37",
   "status": "proved",
   "theorems": [
    "c37_stays_acyclic",
    "c37_resolve_total",
    "c37_resolve_exact"
   ],
   "note": "proved in full"
  },
  {
   "property": "C38",
   "status": "proved",
   "theorems": [
    "c38_cyclic_rejected",
    "c38_cyclic_forced",
    "c38_unchanged_refuted"
   ],
   "note": "the statement names what is false of the code; c38_unchanged_refuted proves that, the other theorems prove the rest"
  },
  {
   "property": "C39",
   "status": "proved",
   "theorems": [
    "c39_register_calendar",
    "c39_register_calendar_type",
    "c39_register_calendar_alias"
   ],
   "note": "proved in full"
  },
  {
   "property": "C40",
   "status": "proved",
   "theorems": [
    "c40_deregister",
    "c40_clear"
   ],
   "note": "proved in full"
  },
  {
   "property": "C41",
   "status": "proved",
   "theorems": [
    "c41_names",
    "c41_invalid_name",
    "c41_unknown",
    "c41_obtainable_refuted"
   ],
   "note": "the statement names what is false of the code; c41_obtainable_refuted proves that, the other theorems prove the rest"
  },
  {
   "property": "C42",
   "status": "proved",
   "theorems": [
    "c42_default_acyclic",
    "c42_default_tables",
    "c42_default_obtainable"
   ],
   "note": "proved in full"
  },
  {
   "property": "C43",
   "status": "proved",
   "theorems": [
    "c43_first_value_sticks",
    "c43_read",
    "c43_values_are_own",
    "c43_one_value_per_object",
    "c43_writes_invisible"
   ],
   "note": "proved in full"
  },
  {
   "property": "C44",
   "status": "proved",
   "theorems": [
    "c44_months",
    "c44_days",
    "c44_order",
    "c44_nothing_else",
    "c44_title",
    "c44_header",
    "c44_month_page",
    "c44_year_page"
   ],
   "note": "proved in full"
  },
  {
   "property": "C45",
   "status": "proved",
   "theorems": [
    "c45_shown",
    "c45_messages"
   ],
   "note": "proved in full"
  },
  {
   "property": "C46",
   "status": "proved",
   "theorems": [
    "c46_dates",
    "c46_range_independent",
    "c46_exchange_rules",
    "c46_far_rule_refuted"
   ],
   "note": "the statement names what is false of the code; c46_far_rule_refuted proves that, the other theorems prove the rest"
  },
  {
   "property": "C47",
   "status": "proved",
   "theorems": [
    "c47_observed",
    "c47_weekend",
    "c47_consecutive_holidays"
   ],
   "note": "proved in full"
  },
  {
   "property": "C48",
   "status": "proved",
   "theorems": [
    "c48_offset",
    "c48_nth_of_month",
    "c48_last_of_month",
    "c48_thanksgiving"
   ],
   "note": "proved in full"
  },
  {
   "property": "C49",
   "status": "proved",
   "theorems": [
    "c49_orthodox_easter",
    "c49_easter",
    "c49_bounds",
    "c49_good_friday",
    "c49_easter_monday"
   ],
   "note": "proved in full"
  },
  {
   "property": "C50",
   "status": "proved",
   "theorems": [
    "c50_months",
    "c50_new_year",
    "c50_new_year_weekday",
    "c50_year_length",
    "c50_spring",
    "c50_hebrew_year",
    "c50_any_year_refuted",
    "c50_tel_aviv",
    "c50_sabbath",
    "c50_memorial_never_saturday"
   ],
   "note": "the statement names what is false of the code; c50_any_year_refuted proves that, the other theorems prove the rest"
  },
  {
   "property": "C51",
   "status": "proved",
   "theorems": [
    "c51_sessions",
    "c51_range_independent",
    "c51_before_1970_refuted",
    "c51_orthodox_good_friday",
    "c51_orthodox_good_friday_refuted"
   ],
   "note": "the statement names what is false of the code; c51_before_1970_refuted, c51_orthodox_good_friday_refuted prove that, the other theorems prove the rest"
  },
  {
   "property": "C52",
   "status": "proved",
   "theorems": [
    "c52_rows",
    "c52_special_close",
    "c52_special_open",
    "c52_regular_day",
    "c52_early_closes",
    "c52_same_times"
   ],
   "note": "proved in full"
  },
  {
   "property": "C53",
   "status": "proved",
   "theorems": [
    "c53_constructed",
    "c53_conflict",
    "c53_clocks",
    "c53_default_range",
    "c53_default_refuted"
   ],
   "note": "the statement names what is false of the code; c53_default_refuted proves that, the other theorems prove the rest"
  },
  {
   "property": "C54",
   "status": "proved",
   "theorems": [
    "c54_factories",
    "c54_years_complete",
    "c54_default",
    "c54_round_the_clock_range",
    "c54_round_the_clock"
   ],
   "note": "proved in full"
  },
  {
   "property": "C55",
   "status": "proved",
   "theorems": [
    "c55_own_name",
    "c55_own_name_refuted"
   ],
   "note": "the statement names what is false of the code; c55_own_name_refuted proves that, the other theorems prove the rest"
  },
  {
   "property": "C56",
   "status": "proved",
   "theorems": [
    "c56_get_calendar",
    "c56_available"
   ],
   "note": "proved in full"
  },
  {
   "property": "C57",
   "status": "proved",
   "theorems": [
    "c57_sessions",
    "c57_unknown_years",
    "c57_christmas"
   ],
   "note": "proved in full"
  },
  {
   "property": "C58",
   "status": "proved",
   "theorems": [
    "c58_timetable",
    "c58_clocks",
    "c58_opening",
    "c58_closing",
    "c58_break",
    "c58_no_late_opens"
   ],
   "note": "proved in full"
  },
  {
   "property": "C59",
   "status": "proved",
   "theorems": [
    "c59_early_close",
    "c59_early_closes",
    "c59_only_early"
   ],
   "note": "proved in full"
  },
  {
   "property": "C60",
   "status": "proved",
   "theorems": [
    "c60_sessions",
    "c60_unknown_years",
    "c60_tel_aviv"
   ],
   "note": "proved in full"
  },
  {
   "property": "C61",
   "status": "proved",
   "theorems": [
    "c61_public_holidays",
    "c61_public_holidays_refuted"
   ],
   "note": "the statement names what is false of the code; c61_public_holidays_refuted proves that, the other theorems prove the rest"
  },
  {
   "property": "C62",
   "status": "proved",
   "theorems": [
    "c62_lunar_feasts",
    "c62_lunar_feasts_refuted",
    "c62_sessions",
    "c62_sessions_refuted"
   ],
   "note": "the statement names what is false of the code; c62_lunar_feasts_refuted, c62_sessions_refuted prove that, the other theorems prove the rest"
  },
  {
   "property": "C63",
   "status": "proved",
   "theorems": [
    "c63_qingming",
    "c63_equinoxes",
    "c63_tokyo",
    "c63_tokyo_refuted"
   ],
   "note": "the statement names what is false of the code; c63_tokyo_refuted proves that, the other theorems prove the rest"
  },
  {
   "property": "C64",
   "status": "proved",
   "theorems": [
    "c64_passages",
    "c64_qingming",
    "c64_zhongqi",
    "c64_every_passage",
    "c64_every_passage_refuted",
    "c64_local_cmp",
    "c64_local_cmp_refuted"
   ],
   "note": "the statement names what is false of the code; c64_every_passage_refuted, c64_local_cmp_refuted prove that, the other theorems prove the rest"
  },
  {
   "property": "C65",
   "status": "proved",
   "theorems": [
    "c65_new_moons",
    "c65_load",
    "c65_false_new_moon_after",
    "c65_false_new_moon_before",
    "c65_new_moons_refuted"
   ],
   "note": "the statement names what is false of the code; c65_new_moons_refuted proves that, the other theorems prove the rest"
  },
  {
   "property": "C66",
   "status": "proved",
   "theorems": [
    "c66_months",
    "c66_twelve",
    "c66_last_month_refuted"
   ],
   "note": "the statement names what is false of the code; c66_last_month_refuted proves that, the other theorems prove the rest"
  },
  {
   "property": "C67",
   "status": "proved",
   "theorems": [
    "c67_feasts"
   ],
   "note": "proved in full"
  },
  {
   "property": "C68",
   "status": "proved",
   "theorems": [
    "c68_events",
    "c68_calendar",
    "c68_tables"
   ],
   "note": "proved in full"
  },
  {
   "property": "C69",
   "status": "proved",
   "theorems": [
    "c69_tables",
    "c69_tables_refuted",
    "c69_sessions",
    "c69_in_lieu",
    "c69_breaks"
   ],
   "note": "the statement names what is false of the code; c69_tables_refuted proves that, the other theorems prove the rest"
  },
  {
   "property": "C70",
   "status": "proved",
   "theorems": [
    "c70_bangkok",
    "c70_bangkok_only",
    "c70_bangkok_sessions",
    "c70_jakarta",
    "c70_tables",
    "c70_sessions"
   ],
   "note": "proved in full"
  },
  {
   "property": "C71",
   "status": "proved",
   "theorems": [
    "c71_answers",
    "c71_agreeing",
    "c71_uninterrupted",
    "c71_threads_refuted"
   ],
   "note": "the statement names what is false of the code; c71_threads_refuted proves that, the other theorems prove the rest"
  },
  {
   "property": "C72",
   "status": "proved",
   "theorems": [
    "c72_values",
    "c72_same_value",
    "c72_settles",
    "c72_uninterrupted",
    "c72_one_value_refuted"
   ],
   "note": "the statement names what is false of the code; c72_one_value_refuted proves that, the other theorems prove the rest"
  },
  {
   "property": "C73",
   "status": "proved",
   "theorems": [
    "c73_acyclic",
    "c73_alone",
    "c73_errors_refuted",
    "c73_forced_gap_refuted",
    "c73_collision_refuted",
    "c73_cycle_seen_refuted",
    "c73_lost_alias_refuted"
   ],
   "note": "the statement names what is false of the code; c73_errors_refuted, c73_forced_gap_refuted, c73_collision_refuted, c73_cycle_seen_refuted, c73_lost_alias_refuted prove that, the other theorems prove the rest"
  },
  {
   "property": "C74",
   "status": "proved",
   "theorems": [
    "c74_lookups",
    "c74_settles",
    "c74_registered",
    "c74_one_instance_refuted"
   ],
   "note": "the statement names what is false of the code; c74_one_instance_refuted proves that, the other theorems prove the rest"
  },
  {
   "property": "C75",
   "status": "proved",
   "theorems": [
    "c75_report",
    "c75_matches",
    "c75_in_key",
    "c75_in_key_refuted",
    "c75_nothing_compared_refuted",
    "c75_no_rows",
    "c75_program",
    "c75_given_code",
    "c75_codes"
   ],
   "note": "the statement names what is false of the code; c75_in_key_refuted, c75_nothing_compared_refuted prove that, the other theorems prove the rest"
  },
  {
   "property": "C76",
   "status": "proved",
   "theorems": [
    "c76_exchange",
    "c76_get_calendar"
   ],
   "note": "proved in full"
  },
  {
   "property": "C77",
   "status": "proved",
   "theorems": [
    "c77_same_calendar",
    "c77_minutes",
    "c77_short_sessions",
    "c77_long_session_refuted",
    "c77_minutes_count",
    "c77_exchange"
   ],
   "note": "the statement names what is false of the code; c77_long_session_refuted proves that, the other theorems prove the rest"
  },
  {
   "property": "C78",
   "status": "proved",
   "theorems": [
    "c78_tagged",
    "c78_untagged",
    "c78_tells_apart",
    "c78_local_version",
    "c78_archive",
    "c78_archive_untagged",
    "c78_archive_branch_refuted",
    "c78_directory",
    "c78_directory_refuted",
    "c78_answers",
    "c78_answers_refuted",
    "c78_raises",
    "c78_unparsable"
   ],
   "note": "the statement names what is false of the code; c78_archive_branch_refuted, c78_directory_refuted, c78_answers_refuted prove that, the other theorems prove the rest"
  },
  {
   "property": "C79",
   "status": "proved",
   "theorems": [
    "c79_has_text",
    "c79_text_tells",
    "c79_texts",
    "c79_quoted",
    "c79_resolve_cycle",
    "c79_register_cycle",
    "c79_same_outcome",
    "c79_report",
    "c79_previous_refuted"
   ],
   "note": "the statement names what is false of the code; c79_previous_refuted proves that, the other theorems prove the rest"
  },
  {
   "property": "C80",
   "status": "proved",
   "theorems": [
    "c80_month",
    "c80_order",
    "c80_unknown",
    "c80_leap_mark",
    "c80_page",
    "c80_agrees",
    "c80_other_year",
    "c80_year_page",
    "c80_calendar",
    "c80_month_0",
    "c80_month_13",
    "c80_negative_refuted"
   ],
   "note": "the statement names what is false of the code; c80_negative_refuted proves that, the other theorems prove the rest"
  },
  {
   "property": "C81",
   "status": "proved",
   "theorems": [
    "c81_value",
    "c81_row",
    "c81_order",
    "c81_pointwise",
    "c81_successor",
    "c81_in_force_refuted",
    "c81_cost",
    "c81_table"
   ],
   "note": "the statement names what is false of the code; c81_in_force_refuted proves that, the other theorems prove the rest"
  },
  {
   "property": "C82",
   "status": "proved",
   "theorems": [
    "c82_mean",
    "c82_range",
    "c82_length_refuted",
    "c82_long_window",
    "c82_error",
    "c82_minima",
    "c82_minima_by_ends",
    "c82_maxima",
    "c82_valley"
   ],
   "note": "the statement names what is false of the code; c82_length_refuted proves that, the other theorems prove the rest"
  },
  {
   "property": "C83",
   "status": "proved",
   "theorems": [
    "c83_round_trip",
    "c83_files",
    "c83_empty",
    "c83_foreign",
    "c83_new_moons",
    "c83_mismatch"
   ],
   "note": "proved in full"
  },
  {
   "property": "C84",
   "status": "proved",
   "theorems": [
    "c84_aligned",
    "c84_parts",
    "c84_resumed",
    "c84_continued",
    "c84_torn",
    "c84_torn_noticed",
    "c84_aligned_refuted",
    "c84_once_refuted"
   ],
   "note": "the statement names what is false of the code; c84_aligned_refuted, c84_once_refuted prove that, the other theorems prove the rest"
  },
  {
   "property": "C85",
   "status": "proved",
   "theorems": [
    "c85_sessions_split",
    "c85_minutes_split",
    "c85_minutes_count_split",
    "c85_distance_adds",
    "c85_window_is_range",
    "c85_minutes_window_is_range"
   ],
   "note": "proved in full"
  },
  {
   "property": "C86",
   "status": "proved",
   "theorems": [
    "c86_neighbours",
    "c86_within",
    "c86_label_monotone",
    "c86_no_skip",
    "c86_closed"
   ],
   "note": "proved in full"
  },
  {
   "property": "C87",
   "status": "proved",
   "theorems": [
    "c87_alone",
    "c87_copied",
    "c87_global",
    "c87_fresh",
    "c87_shared",
    "c87_independent_refuted"
   ],
   "note": "the statement names what is false of the code; c87_independent_refuted proves that, the other theorems prove the rest"
  },
  {
   "property": "C88",
   "status": "proved",
   "theorems": [
    "c88_loop",
    "c88_bench",
    "c88_failure",
    "c88_chains_refuted"
   ],
   "note": "the statement names what is false of the code; c88_chains_refuted proves that, the other theorems prove the rest"
  },
  {
   "property": "C89",
   "status": "proved",
   "theorems": [
    "c89_file",
    "c89_recorded",
    "c89_distinct",
    "c89_reads",
    "c89_rebuilt",
    "c89_last_day_refuted",
    "c89_same_file",
    "c89_capitals",
    "c89_typed",
    "c89_us_futures_refuted",
    "c89_slash"
   ],
   "note": "the statement names what is false of the code; c89_last_day_refuted, c89_us_futures_refuted prove that, the other theorems prove the rest"
  },
  {
   "property": "C90",
   "status": "proved",
   "theorems": [
    "c90_steady",
    "c90_length",
    "c90_longest",
    "c90_bounded",
    "c90_minutes",
    "c90_lunch",
    "c90_longest_refuted",
    "c90_lunch_refuted"
   ],
   "note": "the statement names what is false of the code; c90_longest_refuted, c90_lunch_refuted prove that, the other theorems prove the rest"
  },
  {
   "property": "C91",
   "status": "proved",
   "theorems": [
    "c91_same",
    "c91_next",
    "c91_previous",
    "c91_window",
    "c91_direction",
    "c91_report",
    "c91_report_tells",
    "c91_precomputed"
   ],
   "note": "proved in full"
  },
  {
   "property": "C92",
   "status": "proved",
   "theorems": [
    "c92_exists",
    "c92_forward",
    "c92_backward",
    "c92_zero",
    "c92_add",
    "c92_add_other",
    "c92_range",
    "c92_roll",
    "c92_sessions",
    "c92_neighbours",
    "c92_construct",
    "c92_exchanges",
    "c92_back_again_refuted"
   ],
   "note": "the statement names what is false of the code; c92_back_again_refuted proves that, the other theorems prove the rest"
  },
  {
   "property": "C93",
   "status": "proved",
   "theorems": [
    "c93_history",
    "c93_fresh",
    "c93_same_list",
    "c93_repeated_refuted",
    "c93_exchange_lists",
    "c93_exchanges",
    "c93_far_rule_refuted"
   ],
   "note": "the statement names what is false of the code; c93_repeated_refuted, c93_far_rule_refuted prove that, the other theorems prove the rest"
  },
  {
   "property": "C94",
   "status": "proved",
   "theorems": [
    "c94_tagged",
    "c94_untagged",
    "c94_unknown_style",
    "c94_no_git",
    "c94_no_date",
    "c94_package",
    "c94_round_trip",
    "c94_round_trip_refuted",
    "c94_long_tells_apart",
    "c94_post_tells_apart",
    "c94_tells_apart_refuted"
   ],
   "note": "the statement names what is false of the code; c94_round_trip_refuted, c94_tells_apart_refuted prove that, the other theorems prove the rest"
  },
  {
   "property": "C95",
   "status": "proved",
   "theorems": [
    "c95_euronext_sessions",
    "c95_euronext",
    "c95_euronext_refuted",
    "c95_sessions",
    "c95_minutes",
    "c95_open",
    "c95_cme",
    "c95_superset_refuted",
    "c95_frankfurt_sessions",
    "c95_frankfurt",
    "c95_frankfurt_refuted"
   ],
   "note": "the statement names what is false of the code; c95_euronext_refuted, c95_superset_refuted, c95_frankfurt_refuted prove that, the other theorems prove the rest"
  },
  {
   "property": "C96",
   "status": "proved",
   "theorems": [
    "c96_read_back",
    "c96_ascii",
    "c96_legible",
    "c96_package",
    "c96_package_refuted",
    "c96_sdist",
    "c96_archive",
    "c96_checkout",
    "c96_directory",
    "c96_directory_refuted"
   ],
   "note": "the statement names what is false of the code; c96_package_refuted, c96_directory_refuted prove that, the other theorems prove the rest"
  },
  {
   "property": "C97",
   "status": "proved",
   "theorems": [
    "c97_refers",
    "c97_version_py",
    "c97_refers_refuted",
    "c97_keeps",
    "c97_still_included",
    "c97_still_included_refuted",
    "c97_untouched",
    "c97_again",
    "c97_settles",
    "c97_again_refuted",
    "c97_staged",
    "c97_error",
    "c97_nothing",
    "c97_sample",
    "c97_scan",
    "c97_committed",
    "c97_committed_refuted"
   ],
   "note": "the statement names what is false of the code; c97_refers_refuted, c97_still_included_refuted, c97_again_refuted, c97_committed_refuted prove that, the other theorems prove the rest"
  },
  {
   "property": "C98",
   "status": "proved",
   "theorems": [
    "c98_sessions",
    "c98_attained",
    "c98_new_york"
   ],
   "note": "proved in full"
  },
  {
   "property": "C99",
   "status": "proved",
   "theorems": [
    "c99_next_session",
    "c99_attained"
   ],
   "note": "proved in full"
  },
  {
   "property": "C100",
   "status": "proved",
   "theorems": [
    "c100_half_days",
    "c100_session",
    "c100_minutes"
   ],
   "note": "proved in full"
  },
  {
   "property": "C101",
   "status": "proved",
   "theorems": [
    "c101_half_days",
    "c101_session",
    "c101_minutes",
    "c101_half_days_refuted"
   ],
   "note": "the statement names what is false of the code; c101_half_days_refuted proves that, the other theorems prove the rest"
  }
 ]
}