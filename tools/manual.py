"""Hand-written replacements for what translate.py does not translate.

MANUAL[(module, name)] = (kind, Rocq text).  FUNCTIONS: functions of a module on
lists of dates, modelled in Model/Exchange.v.  SKIP: names the model does not
need.  COMMENTS: added to the citation of a definition."""
MANUAL = {
    ('exchange_calendar_xsgo', 'close_times'): ('times', 'starting_dates_and_close_times'),
    ('exchange_calendar_xtae', 'weekmask'): (
        'mask', '[true; true; true; true; false; false; true]'),
    ('exchange_calendar_bvmf', 'adhoc_holidays'): (
        'dates', 'flat_map (fun r => rule_dates r 0 0) [CopaDoMundo2014]'),
    ('exchange_calendar_xhkg', 'adhoc_holidays'): ('dates', '''let lunar_new_years_eve :=
   map (fun d => d - 1) (filter (fun d => (weekday d =? SATURDAY) && (year_of d <? 2013))
     lunisolar_holidays.chinese_lunar_new_year_dates) in
let lunar_new_year_2 := shift 1 lunisolar_holidays.chinese_lunar_new_year_dates in
let lunar_new_year_3 := shift 2 lunisolar_holidays.chinese_lunar_new_year_dates in
let lunar_new_year_4 :=
   map (fun d => d + 3) (filter (fun d =>
     ((weekday d =? SUNDAY) || (weekday (d + 1) =? SUNDAY) || (weekday (d + 2) =? SUNDAY)) &&
     (2013 <=? year_of d)) lunisolar_holidays.chinese_lunar_new_year_dates) in
let qingming_festival := map sunday_to_monday lunisolar_holidays.qingming_festival_dates in
let first := year_of (hd 0 qingming_festival) in
let last := year_of (List.last qingming_festival 0) in
let easter_monday := rule_dates EasterMonday (midnight (ymd first 1 1)) (midnight (ymd (last + 1) 1 1)) in
let qingming_festival :=
   map (fun p => if fst p =? snd p then fst p + 1 else fst p) (combine qingming_festival easter_monday) in
let mid_autumn_festival :=
   map (fun d => if (month_of d =? 10) && (mday_of d =? 1) then d + 1 else d)
     day_after_mid_autumn_festival_dates in
lunar_new_years_eve ++ lunisolar_holidays.chinese_lunar_new_year_dates ++ lunar_new_year_2 ++
lunar_new_year_3 ++ lunar_new_year_4 ++ qingming_festival ++
map sunday_to_monday lunisolar_holidays.chinese_buddhas_birthday_dates ++
map sunday_to_monday lunisolar_holidays.dragon_boat_festival_dates ++
mid_autumn_festival ++
map sunday_to_monday lunisolar_holidays.double_ninth_festival_dates ++
HKAdhocClosures'''),
    ('exchange_calendar_xhkg', 'special_closes_adhoc'): ('adhocs', '''let lunar_new_years_eve :=
   map (fun d => d - 1) (filter (fun d =>
     memb (weekday d) [TUESDAY; WEDNESDAY; THURSDAY; FRIDAY; SATURDAY] && (2013 <=? year_of d))
     lunisolar_holidays.chinese_lunar_new_year_dates) in
split_by_times regular_early_close_times lunar_new_years_eve'''),
}
FUNCTIONS = {
    ('exchange_calendar_asex', 'orthodox_easter'): 'orthodox_easter_dates 1980 2021',
    ('exchange_calendar_xtai', 'chinese_new_year_offset'): 'chinese_new_year_offset',
    ('exchange_calendar_xtai', 'before_chinese_new_year_offset'): 'before_chinese_new_year_offset',
    ('exchange_calendar_xtai', 'manual_nearest_workday'): 'manual_nearest_workday',
    ('exchange_calendar_xtai', 'manual_extra_days'): 'manual_extra_days',
}
SKIP = {
    ('us_holidays', 'BattleOfGettysburg'),                 # not used (three days in one rule)
    ('us_futures_calendar', 'FUTURES_OPEN_TIME_OFFSET'),   # modelled in Build.v
    ('us_futures_calendar', 'FUTURES_CLOSE_TIME_OFFSET'),
    ('exchange_calendar_xtae', 'start_date'),              # not used
    ('exchange_calendar_xsgo', '_starting_dates_and_close_times'),  # modelled in Exchange.v
}
COMMENTS = {
    ('exchange_calendar_bvmf', 'adhoc_holidays'):
        '.  The list holds a pandas [Holiday]; numpy reads its\n'
        '    year, month and day attributes as a date.',
    ('exchange_calendar_xhkg', 'adhoc_holidays'):
        '.  [qingming_festival == easter_monday]\n'
        '    compares by position.  The in-place update of the mid autumn dates has the\n'
        '    same result when repeated.',
    ('exchange_calendar_xtae', 'weekmask'): " ['1111001']",
}
