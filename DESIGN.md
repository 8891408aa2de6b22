# Formal model of quantopian/trading_calendars in Rocq (Coq 8.16.1)

## Method

The code is modelled function by function as total Gallina functions over integers and lists; exceptions are
values (`Ok`/`Raise`). Timestamps are nanoseconds since the epoch in UTC (`Z`), what the code itself computes
with (`Timestamp.value`, int64 arrays); overflow of int64 is modelled in Model/Machine.v only (C77). Each definition cites the lines it models
and says where it simplifies. Specifications (`Spec/`) do not use the model functions: they speak of
lists of sessions, calendar days, local clock times, screens, operation histories, positions of the sun and moon.
`Properties/` has the theorems (named after the property, `cNN_...`), a concrete instance meeting the hypotheses
beside them, and `Print Assumptions` for every theorem. Where the English claim is false of the
code the full statement is refuted by a witness (`..._refuted`) and the exact true version is proved beside it.

## What is modelled

| file (rocq/theories) | code |
|---|---|
| `Model/Base.v` | results and exceptions, Python indexing/slicing, numpy `searchsorted` as the real binary search, `arange`, `get_loc`, `get_indexer` |
| `Model/Helpers.v` | trading_calendars/calendar_helpers.py (all functions) |
| `Model/Machine.v` | the minute arrays and minute counts once more, on wrapping 64-bit integers and IEEE doubles: numpy `arange`, pandas column differences, `sum` |
| `Model/Queries.v` | trading_calendars/trading_calendar.py: all query methods over the schedule arrays; the one-entry cache as state |
| `Model/Dates.v` | civil dates and weekdays as computed by numpy/pandas; dateutil easter |
| `Model/Zone.v` | pytz/pandas `tz_localize`, `tz_convert` over a table of offset changes; `days_at_time` |
| `Model/Build.v` | `TradingCalendar.__init__` and everything it calls, `PrecomputedTradingCalendar`, always_open.py, weekday_calendar.py, us_futures_calendar.py |
| `Model/Dispatcher.v` | calendar_utils.py: `TradingCalendarDispatcher`, default factories and aliases |
| `Model/Lazy.v` | utils/memoize.py `lazyval` |
| `Model/Holidays.v` | pandas `Holiday`, `DateOffset`, `Easter`, `AbstractHolidayCalendar.holidays` as the repository uses them |
| `Model/Exchange.v` | the attributes of an exchange class, and the functions of common_holidays.py, exchange_calendar_xtai.py, xhkg, xsgo, xkls, ... on lists of dates |
| `Model/Hebrew.v` | tase_holidays.py with the pyluach functions it calls |
| `Model/Library.v` | the factories and `get_calendar` on the default dispatcher |
| `Model/Checks.v` | etc/check_holidays.py (without colours and date formatting) |
| `Model/Threads.v` | interleavings of `minute_to_session_label`, `lazyval` and the dispatcher at single dict or attribute accesses |
| `Model/Tcal.v` | tcal.py |
| `Model/Messages.v` | errors.py for the errors of the dispatcher (`str.format`, `repr`), and the values in the error of minute_index_to_session_labels |
| `Model/Version.v` | _version.py with the configured style (pep440); git is a function from directories to what its commands print |
| `Model/VersionStyles.v` | the other styles of _version.py, and run_command over the processes of the executables that are tried |
| `Model/Installer.v` | versioneer.py: do_setup, do_vcs_install, scan_setup_py, the template of _version.py, and the committed MANIFEST.in, .gitattributes, setup.py and __init__.py |
| `Model/Versioneer.v` | versioneer.py: the file that records a version, json, the reading of it by versioneer and by Python, keywords, get_versions |
| `Model/VersionSource.v` | the text of _version.py |
| `Model/Lunisolar.v` | etc/lunisolar: finding events, month starts and feasts |
| `Model/ChineseCal.v` | etc/lunisolar: the command chinese-cal (months, pages, arguments) |
| `Model/TestCsv.v` | etc/make_trading_calendar_test_csv.py; tests/test_trading_calendar.py: load_answer_key and the range of setup_class |
| `Model/ErrorTexts.v` | trading_calendar.py: the texts of the exceptions of next_session_label, previous_session_label, minutes_window, minute_to_session_label and minute_index_to_session_labels; precomputed_trading_calendar.py: those of the range check |
| `Model/BusinessDay.v` | trading_calendar.py: the attribute day; numpy busdaycalendar and busday_offset, pandas CustomBusinessDay (apply, rollforward, rollback, is_on_offset) and generate_range, step by step; construct, which is build but refuses a weekmask that numpy refuses |
| `Model/HolidayCalendar.v` | pandas AbstractHolidayCalendar.holidays with its cache (the objects given by regular_holidays, special_opens and special_closes) |
| `Model/Program.v` | programs with several dispatchers and the dicts they are made from (calendar_utils.py: __init__, the global dispatcher); etc/bench.py: construct_all_calendars |
| `Model/Store.v` | etc/lunisolar: the files of the ephemeris commands, also when stopped, and load_precomputed_data |
| `Model/Terrestrial.v` | etc/lunisolar: utc_to_jd_tt with its table (on doubles), smooth, smoothed_local_cmp (on fractions) |
| `Exchanges/*.v` | one generated file per exchange module and table (tools/translate.py, tools/manual.py for what is not table-like); zones.v from the tz database (tools/zones.py) |

Simplifications: pandas objects are lists of integers; a `DatetimeIndex` keeps its order but not its `freq`; dtype
and NaT handling are modelled only where the code depends on them (absent breaks are an option); `name`s of rules and log messages are left out.
The tables of the exchanges are transcribed mechanically by tools/translate.py (run on /repo as text); functions
that are not tables are transcribed by hand in tools/manual.py and Model/Exchange.v.

As a test of the transcription, `tools/compare_csv.py` extracts the modelled factories to OCaml and compares them with the
52 schedules recorded in /repo/tests/resources (about 360 000 rows of label, open and close): they agree on every row, except 50
of Manila in 1990, where the tz database installed here has another end of summer time than the one of pytz 2020.1.

Not modelled: of `versioneer.py` the syntax of setup.cfg and the setuptools commands (the version files, keywords, `get_versions` and the installer are), what setup.py does, messages in verbose mode, the rest of the test suite, the timing in `etc/bench.py`, in etc/lunisolar the ephemeris
(NOVAS) and the text of file names; how pandas prints an index, a list or a NaT in messages, and texts of exceptions raised in pandas and numpy;
memory and running time; pandas, numpy, pytz, toolz, pyluach and dateutil beyond the functions called (versions of
requirements_locked.txt: pandas 1.1.3, numpy 1.19.3, pytz 2020.1, toolz 0.11.1, pyluach 1.2.1, dateutil 2.8.1).

## Properties

All of the properties can be expressed in the model. For each, what the proof rests on:

| | property | model and proof | theorems |
|---|---|---|---|
| C01 | all_minutes is exactly the set of trading minutes, in order | induction on the schedule; the offsets computed by `compute_all_minutes` are shown to enumerate the minutes of each session, breaks included | `c01_all_minutes`, `c01_calendar_exists` |
| C02 | is_open_on_minute answers exactly session membership | correctness of the binary search on opens and closes, and case analysis on the break | `c02_is_open_on_minute` |
| C03 | is_open_on_minute and all_minutes agree | from C01 and C02; refuted for schedules with breaks by an example, the exact difference is proved | `c03_open_iff_minute_or_break_start`, `c03_agree_without_breaks`, `c03_agree_refuted` |
| C04 | next_open / next_close return the least later divider | binary search specification on sorted lists | `c04_next_open`, `c04_next_close` |
| C05 | previous_open / previous_close return the greatest earlier divider | binary search specification on sorted lists | `c05_previous_open`, `c05_previous_close` |
| C06 | next_minute / previous_minute are neighbour and inverse maps on trading minutes | binary search on the minutes of C01 | `c06_next_minute`, `c06_previous_minute`, `c06_inverse`, `c06_previous_minute_key_error_refuted` |
| C07 | next_session_label / previous_session_label walk the sessions | `get_loc` and neighbours on strictly sorted labels | `c07_is_session`, `c07_next_session_label`, `c07_previous_session_label`, `c07_inverse` |
| C08 | minutes_for_session partitions all_minutes | C01 and slices of a sorted list | `c08_minutes_for_session`, `c08_unknown_session`, `c08_partition` |
| C09 | minutes_in_range returns the trading minutes in the closed interval | slices of a sorted list; the call past the last minute is refuted by its IndexError | `c09_minutes_in_range`, `c09_minutes_in_range_refuted` |
| C10 | minutes_for_sessions_in_range concatenates the sessions | concatenation of C08 | `c10_minutes_for_sessions_in_range`, `c10_unknown_session` |
| C11 | minutes_count_for_sessions_in_range counts the minutes | induction on the sessions; off by one per break is proved and refutes equality | `c11_minutes_count`, `c11_minutes_count_without_breaks`, `c11_minutes_count_refuted` |
| C12 | sessions_in_range returns the sessions in the closed interval | slices of sorted labels | `c12_sessions_in_range` |
| C13 | sessions_window returns a clipped contiguous window | Python slicing with clipping, cases on sign | `c13_sessions_window` |
| C14 | session_distance counts sessions with sign | counting by induction | `c14_session_distance`, `c14_distance_is_range_length`, `c14_antisymmetric` |
| C15 | minutes_window returns count trading minutes from the start | Python slicing with negative wrap-around; cases; refuted outside the guarded region | `c15_minutes_window`, `c15_before_first`, `c15_after_last`, `c15_backward_overrun`, `c15_backward_wrap`, `c15_minutes_window_refuted` |
| C16 | minute_to_session_label (next) finds the containing or next session | binary search specification | `c16_lookup_next` |
| C17 | minute_to_session_label (previous) finds the containing or previous session | binary search specification; refuted before the first open (numpy index -1) | `c17_lookup_previous`, `c17_lookup_previous_refuted` |
| C18 | minute_to_session_label (none) and round trip with minutes_for_session | C16, C08 | `c18_lookup_none`, `c18_round_trip`, `c18_invalid_direction` |
| C19 | The minute_to_session_label cache is unobservable | explicit cache state; induction over the sequence of calls (any history, starting from any valid cache) | `c19_cache_transparent` |
| C20 | minute_index_to_session_labels is the pointwise session lookup | vectorised lookup shown pointwise equal to C16 | `c20_minute_index`, `c20_agrees_with_lookup`, `c20_labels_sorted` |
| C21 | execution minutes are the minutes between the execution times | slices between the execution times | `c21_us_futures`, `c21_execution_minutes`, `c21_default_is_minutes_for_session`, `c21_sessions_in_range` |
| C22 | Per-session accessors agree with each other and with the schedule | get_loc on sorted labels | `c22_accessors`, `c22_unknown_session`, `c22_opens_closes_in_range`, `c22_first_last_session` |
| C23 | A day is a session iff it is an unmasked non-holiday in range | `date_range` with CustomBusinessDay by induction on days | `c23_sessions`, `c23_sessions_time_of_day`, `c23_time_of_day_refuted`, `c23_first_last`, `c23_no_sessions` |
| C24 | Regular opens and closes follow the table entry in force on that day | the table entry in force, by induction on the table | `c24_regular_open`, `c24_regular_close`, `c24_in_force_unique`, `c24_uncovered_day` |
| C25 | Special opens and closes override exactly their days | `get_indexer`, scatter assignment and stable sort of the special dates | `c25_special_open`, `c25_special_close`, `c25_breaks_kept`, `c25_labels_unaffected` |
| C26 | A special date that is not a session is rejected | `get_indexer` gives -1 exactly for absent labels | `c26_specials_are_sessions`, `c26_rejected`, `c26_accepted` |
| C27 | Special closes inside the requested range take effect | from C25; refuted on the last day | `c27_special_close_in_range`, `c27_last_day_refuted` |
| C28 | early_closes / late_opens list exactly the special sessions | from C25 | `c28_early_closes_late_opens` |
| C29 | Constructed schedules are well formed | from C23-C25 for sound definitions (soundness is a predicate on the tables) | `c29_well_formed`, `c29_sound_definition` |
| C30 | days_at_time preserves wall-clock time across DST | `tz_localize` on an arbitrary table of offset changes | `c30_days_at_time`, `c30_succeeds`, `c30_increasing` |
| C31 | The schedule of a day does not depend on the requested range | from C23-C25 on two ranges | `c31_same_sessions`, `c31_same_times` |
| C32 | Precomputed calendars refuse ranges beyond their data | case analysis; holidays of the data are closed | `c32_range_check`, `c32_default_range`, `c32_no_data`, `c32_holidays_closed` |
| C33 | Always-open and weekday calendars | instances of C23, C24 | `c33_always_open`, `c33_weekday_calendar` |
| C34 | Breaks are paired | case analysis of the break tables | `c34_paired`, `c34_one_sided` |
| C35 | Aliases are transparent | state machine; resolution of aliases | `c35_alias_transparent`, `c35_registered_alias` |
| C36 | A calendar is built at most once while registered | induction over operation sequences, counting factory calls | `c36_built_once`, `c36_factory_calls`, `c36_keeps_registrations` |
| C37 | The alias graph stays acyclic | invariant by induction over operation sequences; resolution terminates | `c37_stays_acyclic`, `c37_resolve_total`, `c37_resolve_exact` |
| C38 | A rejected cyclic alias leaves the dispatcher unchanged | state machine; refuted for force=True by an example | `c38_cyclic_rejected`, `c38_cyclic_forced`, `c38_unchanged_refuted` |
| C39 | Name collisions are rejected without side effects | state machine | `c39_register_calendar`, `c39_register_calendar_type`, `c39_register_calendar_alias` |
| C40 | deregister_calendar and clear_calendars remove names | state machine | `c40_deregister`, `c40_clear` |
| C41 | has_calendar, get_calendar_names and get_calendar agree | state machine; dangling aliases refute the stronger claim | `c41_names`, `c41_invalid_name`, `c41_unknown`, `c41_obtainable_refuted` |
| C42 | Every default name and alias is obtainable | the default tables, checked by computation, and C37 | `c42_default_acyclic`, `c42_default_tables`, `c42_default_obtainable` |
| C43 | lazyval computes once per object | the cache per object as explicit state, the getter an arbitrary oracle that may raise; induction over histories | `c43_first_value_sticks`, `c43_read`, `c43_values_are_own`, `c43_one_value_per_object`, `c43_writes_invisible` |
| C44 | tcal renders each day of the month exactly once in its weekday column | the rendered text as a list of characters; screen specification by row and column; proof for all years | `c44_months`, `c44_days`, `c44_order`, `c44_nothing_else`, `c44_title`, `c44_header`, `c44_month_page`, `c44_year_page` |
| C45 | tcal reads its arguments as CALENDAR [[MONTH] YEAR] | case analysis of the argument parser | `c45_shown`, `c45_messages` |
| C46 | A holiday rule yields exactly its dates in every range | pandas `Holiday.dates` for all rules and ranges; the range extension by a year suffices for rules within 300 days | `c46_dates`, `c46_range_independent`, `c46_exchange_rules`, `c46_far_rule_refuted` |
| C47 | Observance functions move a holiday to the documented workday | for all days by arithmetic modulo 7 | `c47_observed`, `c47_weekend`, `c47_consecutive_holidays` |
| C48 | Weekday offsets give the n-th weekday | `DateOffset(weekday=MO(n))` for all years | `c48_offset`, `c48_nth_of_month`, `c48_last_of_month`, `c48_thanksgiving` |
| C49 | Easter rules follow the computus | dateutil `easter` against the computus (first Sunday after the ecclesiastical full moon), for all years, by arithmetic | `c49_orthodox_easter`, `c49_easter`, `c49_bounds`, `c49_good_friday`, `c49_easter_monday` |
| C50 | Tel Aviv holidays follow the Hebrew calendar | pyluach arithmetic against mean new moon and postponement rules, for all years | `c50_months`, `c50_new_year`, `c50_new_year_weekday`, `c50_year_length`, `c50_spring`, `c50_hebrew_year`, `c50_any_year_refuted`, `c50_tel_aviv`, `c50_sabbath`, `c50_memorial_never_saturday` |
| C51 | An exchange has a session exactly on its trading days | C23 with the translated definition of each exchange, and C46 | `c51_sessions`, `c51_range_independent`, `c51_before_1970_refuted`, `c51_orthodox_good_friday`, `c51_orthodox_good_friday_refuted` |
| C52 | Sessions of an exchange open, break and close at the announced times | C24, C25 with the translated definitions | `c52_rows`, `c52_special_close`, `c52_special_open`, `c52_regular_day`, `c52_early_closes`, `c52_same_times` |
| C53 | Every bundled exchange can be constructed over every range without contradictory days | year types (weekday of January 1st, leap, Easter date) cover all years: a finite check per exchange gives all years; clocks of the tz database are checked exhaustively | `c53_constructed`, `c53_conflict`, `c53_clocks`, `c53_default_range`, `c53_default_refuted` |
| C54 | The default factories build the announced range and refuse years without data | instances of C53 and C32 | `c54_factories`, `c54_years_complete`, `c54_default`, `c54_round_the_clock_range`, `c54_round_the_clock` |
| C55 | The name of a calendar leads back to it | the default tables | `c55_own_name`, `c55_own_name_refuted` |
| C56 | get_calendar on the default dispatcher gives the calendar of the exchange | C36 with C54 over all call sequences | `c56_get_calendar`, `c56_available` |
| C57 | Each exchange is closed exactly on the holidays of its almanac | each rule of the exchange is matched with a holiday of an almanac written in plain calendar terms, by general lemmas for all years | `c57_sessions`, `c57_unknown_years`, `c57_christmas` |
| C58 | Every session keeps the published hours of its exchange | C52 against a timetable written as local times | `c58_timetable`, `c58_clocks`, `c58_opening`, `c58_closing`, `c58_break`, `c58_no_late_opens` |
| C59 | Sessions close early exactly on the published half days | C52 against a list of half days in calendar terms | `c59_early_close`, `c59_early_closes`, `c59_only_early` |
| C60 | The sessions of every exchange are its workdays outside published holidays, festivals and closures | C57 and the one-off lists against feast lists in calendar terms | `c60_sessions`, `c60_unknown_years`, `c60_tel_aviv` |
| C61 | Exchanges with tabulated holidays keep their public holidays | exhaustive over the years of the tables; exceptions proved to be sessions | `c61_public_holidays`, `c61_public_holidays_refuted` |
| C62 | The tabulated lunar feasts are the days of the Chinese calendar | tables against a Chinese calendar computed from series for sun and moon (Spec/Sky.v); the rules of the calendar proved to select one month per year | `c62_lunar_feasts`, `c62_lunar_feasts_refuted`, `c62_sessions`, `c62_sessions_refuted` |
| C63 | Solar feasts fall on the day the sun reaches their longitude | same, for the longitude of the sun; all passages located by bounds on the series | `c63_qingming`, `c63_equinoxes`, `c63_tokyo`, `c63_tokyo_refuted` |
| C64 | etc/lunisolar finds the moments at which the sun reaches a longitude | sampled motions as functions; a local minimum of the distance is a passage | `c64_passages`, `c64_qingming`, `c64_zhongqi`, `c64_every_passage`, `c64_every_passage_refuted`, `c64_local_cmp`, `c64_local_cmp_refuted` |
| C65 | etc/lunisolar finds the new moons | same for the distance of moon and sun; the false minimum at 0 degrees is proved to occur | `c65_new_moons`, `c65_load`, `c65_false_new_moon_after`, `c65_false_new_moon_before`, `c65_new_moons_refuted` |
| C66 | etc/lunisolar leaves out exactly the leap months | simulation of the loop by relabelling new moons with numbers; induction over the sui | `c66_months`, `c66_twelve`, `c66_last_month_refuted` |
| C67 | etc/lunisolar gives day d of month m of every Chinese year | from C66, slices by `searchsorted` | `c67_feasts` |
| C68 | The tables are the output of the program, and its error is a false new moon | C66/C67 on the events of Spec/Sky.v; the table comparison is a computation | `c68_events`, `c68_calendar`, `c68_tables` |
| C69 | The tabulated Islamic feasts follow the Islamic calendar | the closed formula of the calendar is proved to have its month and year lengths; tables by computation, sessions by C51 | `c69_tables`, `c69_tables_refuted`, `c69_sessions`, `c69_in_lieu`, `c69_breaks` |
| C70 | The tabulated Buddhist and Hindu feasts follow the moon | bounds locate the number of the moon, a table of moons decides the rest; sessions by C51 | `c70_bangkok`, `c70_bangkok_only`, `c70_bangkok_sessions`, `c70_jakarta`, `c70_tables`, `c70_sessions` |
| C71 | Session lookups from several threads | threads as phases between shared accesses, a list of events as an interleaving; invariant of cache, phases and log | `c71_answers`, `c71_agreeing`, `c71_uninterrupted`, `c71_threads_refuted` |
| C72 | Lazy attributes from several threads | the same for the weak dictionary; invariant that stored values were computed; preservation of a settled value | `c72_values`, `c72_same_value`, `c72_settles`, `c72_uninterrupted`, `c72_one_value_refuted` |
| C73 | The registry under concurrent calls | invariant: every alias cycle is watched by a registration in progress that will delete it; a solo run simulates the sequential call | `c73_acyclic`, `c73_alone`, `c73_errors_refuted`, `c73_forced_gap_refuted`, `c73_collision_refuted`, `c73_cycle_seen_refuted`, `c73_lost_alias_refuted` |
| C74 | Concurrent lookups of calendars | invariant relating phases of lookups to the fixed alias graph; acyclicity excludes the cycle branch | `c74_lookups`, `c74_settles`, `c74_registered`, `c74_one_instance_refuted` |
| C75 | check_holidays reports exactly the differences from the key | set reasoning over the modelled index operations, with C12 and the lemmas on business-day ranges | `c75_report`, `c75_matches`, `c75_in_key`, `c75_in_key_refuted`, `c75_nothing_compared_refuted`, `c75_no_rows`, `c75_program`, `c75_given_code`, `c75_codes` |
| C76 | What get_calendar tells about a market is what is published about it | composition of C02-C22, C52, C56-C60: rows of inner days and published sessions are the same (Spec/Market.v); the offsets of a zone bound how far a session is from its day | `c76_exchange`, `c76_get_calendar` |
| C77 | Minutes and their number are exact although computed in machine numbers | int64 as integers modulo 2^64, doubles as Flocq `binary_float 53 1024`; whole minutes divide exactly because a minute is 2^11 times an odd number below 2^25, other lengths by a bound on the rounding error; sums by induction over any bracketing | `c77_same_calendar`, `c77_minutes`, `c77_short_sessions`, `c77_long_session_refuted`, `c77_minutes_count`, `c77_exchange` |
| C78 | The version that the package reports identifies the code | strings; the outputs of git as inputs, specified in Spec/Git.v; the regular expression is characterised by its unique match | `c78_tagged`, `c78_untagged`, `c78_tells_apart`, `c78_local_version`, `c78_archive`, `c78_archive_untagged`, `c78_archive_branch_refuted`, `c78_directory`, `c78_directory_refuted`, `c78_answers`, `c78_answers_refuted`, `c78_raises`, `c78_unparsable` |
| C79 | Errors say what is wrong | `str.format` and `repr` on Latin-1 strings; a reader of escaped characters proves that no two texts coincide; the chain of resolve_alias by induction; the report by the decomposition of the schedule at the first bad minute | `c79_has_text`, `c79_text_tells`, `c79_texts`, `c79_quoted`, `c79_resolve_cycle`, `c79_register_cycle`, `c79_same_outcome`, `c79_report`, `c79_previous_refuted` |
| C80 | The pages of chinese-cal show the months of the Chinese calendar | texts as in C44 with cells of three characters; induction over the days for what is shown; a general lemma for pages of four bands; the months from a new year on by the order of the new moons; C67 for the calendar | `c80_month`, `c80_order`, `c80_unknown`, `c80_leap_mark`, `c80_page`, `c80_agrees`, `c80_other_year`, `c80_year_page`, `c80_calendar`, `c80_month_0`, `c80_month_13`, `c80_negative_refuted` |
| C81 | Instants reach the ephemeris on the scale of terrestrial time | the sums and quotients as Flocq doubles; an error bound for each operation by its binade; the row by the binary search on the sorted table; the differences of the table by computation; distinct seconds are further apart than the table falls | `c81_value`, `c81_row`, `c81_order`, `c81_pointwise`, `c81_successor`, `c81_in_force_refuted`, `c81_cost`, `c81_table` |
| C82 | Smoothing takes rolling means and keeps positions | exact fractions for the doubles; np.convolve as sums of products; the next mean differs by the number that enters less the one that leaves | `c82_mean`, `c82_range`, `c82_length_refuted`, `c82_long_window`, `c82_error`, `c82_minima`, `c82_minima_by_ends`, `c82_maxima`, `c82_valley` |
| C83 | What the ephemeris commands save is what is loaded | a directory as a list of names and contents, listed up to permutation; the blocks of a range in closed form; a strictly sorted list is determined by its members | `c83_round_trip`, `c83_files`, `c83_empty`, `c83_foreign`, `c83_new_moons`, `c83_mismatch` |
| C84 | Interrupted and repeated ephemeris runs | runs, complete or stopped at any point, as transitions on the directory; invariant: each file holds what its name says; rewriting a file under the same name keeps it | `c84_aligned`, `c84_parts`, `c84_resumed`, `c84_continued`, `c84_torn`, `c84_torn_noticed`, `c84_aligned_refuted`, `c84_once_refuted` |
| C85 | Distances, windows and ranges agree | from the specifications C09, C12-C15: two ascending lists with the same elements are equal; a filter of an ascending list by a bound is a prefix or a suffix | `c85_sessions_split`, `c85_minutes_split`, `c85_minutes_count_split`, `c85_distance_adds`, `c85_window_is_range`, `c85_minutes_window_is_range` |
| C86 | Neighbouring sessions meet, and no session is skipped | from the specifications C04-C07, C16 and C22, with the trichotomy of sessions of a schedule | `c86_neighbours`, `c86_within`, `c86_label_monotone`, `c86_no_skip`, `c86_closed` |
| C87 | Several dispatchers in one program | a heap of dicts and dispatcher objects that refer to them; frame argument by induction over the events of the program; sharing refuted by a program with two dispatchers | `c87_alone`, `c87_copied`, `c87_global`, `c87_fresh`, `c87_shared`, `c87_independent_refuted` |
| C88 | Constructing and removing all calendars one after the other | invariant of the loop: the calls made and the factories without a calendar are a permutation of all factories | `c88_loop`, `c88_bench`, `c88_failure`, `c88_chains_refuted` |
| C89 | The recorded schedules of the tests | texts as lists of characters; zero-padded numbers are read back by induction over their digits; splitting at separators that the fields do not contain; the calendar made again from C51, C52 and C53; names by cases over the 256 characters | `c89_file`, `c89_recorded`, `c89_distinct`, `c89_reads`, `c89_rebuilt`, `c89_last_day_refuted`, `c89_same_file`, `c89_capitals`, `c89_typed`, `c89_us_futures_refuted`, `c89_slash` |
| C90 | How long sessions last | a check of the whole tz table of each exchange (changes of the clocks are four days or more apart and none falls inside the hours of a trading weekday) by computation, and an induction over the table that turns it into the statement for all days; then C52, C58 and C59 | `c90_steady`, `c90_length`, `c90_longest`, `c90_bounded`, `c90_minutes`, `c90_lunch`, `c90_longest_refuted`, `c90_lunch_refuted` |
| C91 | What the errors of a calendar say | the functions of Queries.v and Build.v repeated with the texts of their exceptions; C07, C15, C18, C32 and C79 for when they are raised; texts of numbers and timestamps by induction over the digits; unique splitting at the first blank and at the plus sign of each offset for reading a report back | `c91_same`, `c91_next`, `c91_previous`, `c91_window`, `c91_direction`, `c91_report`, `c91_report_tells`, `c91_precomputed` |
| C92 | The attribute day of a calendar | numpy busday_offset with its jump over whole weeks, its correction by the holidays crossed and the loops at the end; counting of trading days over intervals (seven consecutive days contain a full mask), so that the offset is characterised by a count, and the count by the n-th element; pandas generate_range by induction over its steps against date_range of Build.v | `c92_exists`, `c92_forward`, `c92_backward`, `c92_zero`, `c92_add`, `c92_add_other`, `c92_range`, `c92_roll`, `c92_sessions`, `c92_neighbours`, `c92_construct`, `c92_exchanges`, `c92_back_again_refuted` |
| C93 | A holiday calendar asked again and again | pandas AbstractHolidayCalendar.holidays with its cache as a state machine; invariant: the cache has exactly the dates of the rules within its ends, so a part of it has those of any smaller range (C46, and C50 for Tel Aviv); induction over the calls; for the lists, each rule splits over the years up to permutation, and the years outside a range have no dates in it | `c93_history`, `c93_fresh`, `c93_same_list`, `c93_repeated_refuted`, `c93_exchange_lists`, `c93_exchanges`, `c93_far_rule_refuted` |
| C94 | Versions in other styles and without git | processes as not found, not started or ended with output and code; stripping twice is stripping once; the output of git cut at its last dashes (C78), then one equation per style; versions are told apart by cutting them at their last plus sign and dots | `c94_tagged`, `c94_untagged`, `c94_unknown_style`, `c94_no_git`, `c94_no_date`, `c94_package`, `c94_round_trip`, `c94_round_trip_refuted`, `c94_long_tells_apart`, `c94_post_tells_apart`, `c94_tells_apart_refuted` |
| C95 | Exchanges compared | holidays: inclusion of the lists of rules, no computation; the table of Chicago from 1969 on is computed to be that of New York an hour later, so that an instant on the clocks of Chicago is one on those of New York an hour before; no change of the clocks in the 25 hours around a session of us_futures (as C90), hence instants are as far apart as the clocks say; Euronext: rules that ended by 2003 fall on no later day, and the tables of the four clocks are computed to be that of Paris, Lisbon an hour less | `c95_euronext_sessions`, `c95_euronext`, `c95_euronext_refuted`, `c95_sessions`, `c95_minutes`, `c95_open`, `c95_cme`, `c95_superset_refuted`, `c95_frankfurt_sessions`, `c95_frankfurt`, `c95_frankfurt_refuted` |
| C96 | The version recorded in a distribution is read back | json.dumps, json.loads, the two regular expressions and the literals of Python are functions on strings; the scanner undoes the escapes character by character, the parser the dictionary by induction on its items; a file has no line with a keyword because every line of it starts with something else than a g; the conditions on the lines of _version.py are computed for its actual text | `c96_read_back`, `c96_ascii`, `c96_legible`, `c96_package`, `c96_package_refuted`, `c96_sdist`, `c96_archive`, `c96_checkout`, `c96_directory`, `c96_directory_refuted` |
| C97 | The installer of the version file refers to it everywhere, keeps what is there, and does nothing twice | files are strings, read with universal newlines, split into lines and words by functions that are shown to agree with a declarative reading (a line is a part between newlines, a word a part between blanks); induction over lines and words; appending after a complete line appends to the list of lines; the committed files are in the model and the claims about them computed | `c97_refers`, `c97_version_py`, `c97_refers_refuted`, `c97_keeps`, `c97_still_included`, `c97_still_included_refuted`, `c97_untouched`, `c97_again`, `c97_settles`, `c97_again_refuted`, `c97_staged`, `c97_error`, `c97_nothing`, `c97_sample`, `c97_scan`, `c97_committed`, `c97_committed_refuted` |
| C98 | How many sessions a year has | each holiday of the almanac (C57) is shown to be one position in the year, a function of whether the year is a leap year, the weekday of January 1st and the position of Easter; holidays that ended before or began by the first year drop out or lose their restriction; the list of sessions and the distinct positions on workdays together are a permutation of the workdays of the year; what remains are the 70 kinds of years, which are computed | `c98_sessions`, `c98_attained`, `c98_new_york` |
| C99 | How long an exchange stays closed | as C98, holidays as positions in the year; of any days in a row as many as the table says one is a session: the first workday among them is open, or it is taken by a holiday, and then an open day follows soon enough, which is computed for the 70 kinds of years; the days after a year end depend on the weekday only, since the holidays of early January depend neither on Easter nor on the leap day | `c99_next_session`, `c99_attained` |
| C100 | The half days and the minutes of a year in New York | the published half days (C59) are, for a year from 2013 on, three dates of the year with their weekdays; 13:00 exists once on every day in New York, so each of them is an early close; the length of the session follows from the steady clocks of a trading day (C90); the count of minutes is a sum over the rows of the year (C11), by induction over them, and the rows that are half days are a permutation of the list of half days | `c100_half_days`, `c100_session`, `c100_minutes` |
| C101 | The minutes of a year | as C100, with the exchange, its hours and its half days as parameters: what the timetable (C58, C59) says about a year is shown to be one opening time, one closing time, one early closing time and a list of half days; a half day trades until an instant at most two days after the year; the sum over the rows by induction; one lemma for each kind of half days, and the table row by row | `c101_half_days`, `c101_session`, `c101_minutes`, `c101_half_days_refuted` |

## Trusted base

* Coq's kernel, including its virtual machine (`vm_compute` in computations on closed terms; `coqchk` re-checks them without it).
* `Print Assumptions` says "Closed under the global context" for every theorem in MANIFEST.json except the `c77_` and `c81_` ones: no axiom is
  used, neither of this development nor of a library. These theorems are about doubles, whose meaning in Flocq is a real number; they
  depend on the axioms of the real numbers in Coq's standard library, namely `ClassicalDedekindReals.sig_not_dec`,
  `ClassicalDedekindReals.sig_forall_dec`, `FunctionalExtensionality.functional_extensionality_dep` and `Classical_Prop.classic`.
  Flocq itself adds no axiom. (A listing of all loaded modules shows the seven constants `Coq.ssr.ssrunder.Under_rel.*`: these
  are parameters of a module type in Coq's standard library that is loaded with it; no theorem depends on them.)
* The fidelity of the hand-written model to the Python source, as cited in each definition, and to the library versions named above.
* The translators in tools/ (their output is committed and can be compared with /repo line by line), and the tz data in zones.v, which is
  data of pytz and not of the repository.
* The reading of the specifications. Spec/Almanac.v, Spec/Hours.v, Spec/Festivals.v are written from the documentation in the
  repository and public rules; Spec/Sky.v uses truncated series (Meeus) with an error of about a quarter of an hour; that this
  error moves no event across midnight is not proved, but all entries of the tables outside the listed exceptions agree with it.

## Findings about the code

* `previous` before the first open returns the last session of the calendar (C17).
* The minute at which a break starts is in `all_minutes` but reported closed (C03); `minutes_count_for_sessions_in_range` is one short per session with a break (C11).
* `minutes_in_range` raises IndexError if the end is after the last minute (C09); `minutes_window` wraps around (C15).
* A special close on the date of a midnight `end` is silently dropped (C27).
* A forced cyclic alias destroys the registration it was to replace (C38); aliases may dangle (C41).
* Regular holidays are applied from 1970 to 2200 only (C51); Athens has Orthodox Easter only until 2020 (C51).
* XIST and XKLS cannot be constructed once the range reaches certain later years: a special close falls on a holiday (C53).
* The calendar CMES calls itself CME (C55).
* The XBOM, XKRX and XSES tables miss or misplace public holidays (C61).
* Four feasts of 2034 are a month early in lunisolar_holidays.py, Dragon Boat 1987 a day late (C62): etc/lunisolar reports a false new moon when the sun passes 0 degrees close to the moon (C65), which reproduces the tables exactly (C68).
* Tokyo has no rule for equinoxes after 2021 and trades on 2022-03-21 (C63).
* The birthday of the Prophet of 1423 (2002) is three days late and that of 1436 (2015) is missing in xkls_holidays.py (C69).
* `minute_to_session_label` reads its cache twice: with threads it can return the session of another minute (C71).
* With threads, the dispatcher can raise a bare KeyError, lose a registered alias, accept two registrations of a name, and build a calendar twice (C73, C74).
* check_holidays.py prints weekend sessions as holidays in the key, and reports a match when no day was compared (C75).
* `_version.py` looks for a directory calendars-V while setup.cfg and the archives say trading_calendars-V, so the version of an unpacked archive is 0+unknown; a branch name with a digit passes for a version; the import raises AttributeError if `git show` fails after `git describe` (C78).
* `chinese-cal -- -1 Y` prints the last month of the data whose end is known, titled "Lunar Month -1 Y"; `chinese-cal 13 Y` prints the first month of the following year titled Y; when a month begins on a Sunday an empty row is printed above it (C80).
* The error of `minute_index_to_session_labels` names the last session of the calendar as the one before a minute that is earlier than all sessions (C79).
* The docstring of `local_cmp` describes another comparison (C64).
* `etc/make_trading_calendar_test_csv.py` puts its argument in capitals, so it can never record `us_futures`, and for `24/7` and `24/5` it writes to a directory `24` (the files are named 24-7.csv and 24-5.csv); a calendar made from the first to the last recorded date, as the tests make it, closes the last day at the regular time even if it closed early (C89).
* `TradingCalendarDispatcher` copies the dicts of factories and aliases that it is given but keeps the dict of calendars itself, so dispatchers made from one dict share their calendars, and `clear_calendars` empties the dict of the caller (C87).
* The ephemeris commands leave the files of earlier runs in place and `load_precomputed_data` reads all of them: a second run with a later end duplicates minutes, and a file that was cut short shifts the values of all later files against their minutes without an error (C84).
* `utc_to_jd_tt` looks up the row after the one in force, because the position of `searchsorted(side="right")` is not lowered by one (C81); the docstring of `smooth` gives a wrong length (C82).
* Sessions of BVMF since 4 November 2019 are longer than MAX_SESSION_HOURS in its test, whose recorded years end before; sessions with a lunch break list two minutes more than are traded (C90).
* `.gitattributes` names `calendars/_version.py` while the file is `trading_calendars/_version.py`, so git does not fill in the version of archives; the committed `_version.py` was generated with other settings than setup.cfg has; the installer glues its lines to an incomplete last line and takes a longer file name for the name of the version file (C97).
* The `_version.py` of a distribution holds JSON in a Python literal that is not raw: a quote in the name of a tag makes the installed package fail to import, though versioneer reads the same file correctly; and setup.cfg and `_version.py` have different parentdir prefixes, so setup.py and the package disagree in an unpacked directory without git (C96).
* us_futures is not the superset of the US futures exchanges it is documented to be: the CFE trades on Good Friday in some years, when us_futures is closed (C95).
* A calendar that ends on the day of a half day does not close early on it: the label of the day is in the range but the time of the close is not (C101).

## Tests of the theorems

`seeded/LOG.jsonl` records edits of the model that imitate bugs, the claims they break, the theorems that stop
proving and what was tightened where none did.
In the scratch copy a lemma that stops proving is admitted and the build goes on; a theorem counts as failed when
`Print Assumptions` then lists such a lemma. So a row can list theorems that only share a lemma with the broken claim.
